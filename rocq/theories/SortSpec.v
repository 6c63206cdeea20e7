(** What sorting means. *)
From Verif Require Import Base.
From Coq Require Import Permutation Sorted.

(** A comparison function in the style of the C library: its sign is a total preorder. *)
Definition total_preorder {T} (cmp : T -> T -> Z) : Prop :=
  (forall x y, Z.sgn (cmp y x) = - Z.sgn (cmp x y)) /\
  (forall x y z, cmp x y <= 0 -> cmp y z <= 0 -> cmp x z <= 0).

(** Every element compares at most equal with all later ones. *)
Definition ordered {T} (cmp : T -> T -> Z) (l : list T) : Prop := StronglySorted (fun x y => cmp x y <= 0) l.

(** Elements that compare equal keep their order: the elements equal to any [x] form the same sequence. *)
Definition same_order_of_equals {T} (cmp : T -> T -> Z) (l l' : list T) : Prop :=
  forall x, filter (fun y => cmp x y =? 0) l = filter (fun y => cmp x y =? 0) l'.

Definition stable_sort_of {T} (cmp : T -> T -> Z) (input output : list T) : Prop :=
  ordered cmp output /\ Permutation input output /\ same_order_of_equals cmp input output.
