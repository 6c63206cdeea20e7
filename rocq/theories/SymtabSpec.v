(** Order of names and what a symbol table should hold. *)
From Verif Require Import Base.
From Coq Require Import Sorted.

(** The order of strcmp: bytes compare unsigned, a prefix comes first. *)
Definition before (a b : list Z) : Prop :=
  exists p, (exists y r, a = p /\ b = p ++ y :: r) \/ (exists x y r s, a = p ++ x :: r /\ b = p ++ y :: s /\ x < y).

Definition strictly_ordered (names : list (list Z)) : Prop := StronglySorted before names.

(** The values given for one name, in order. *)
Definition values_of (n : list Z) (l : list (list Z * list Z)) : list (list Z) :=
  map snd (filter (fun p => if list_eq_dec Z.eq_dec (fst p) n then true else false) l).

(** The number of different names. *)
Definition different (names : list (list Z)) : Z := zlen (nodup (list_eq_dec Z.eq_dec) names).
