(** What the lists of a pool should be, without looking at links.

    A chain of elements has an owner: [Some (p, true)], the children of [p]; [Some (p, false)], the attributes of [p]; [None], nobody yet. *)
From Coq Require Export Permutation.
From Verif Require Import Base.

Definition chain := (option (Z * bool) * list Z)%type.
Definition forest := list chain.
Definition members (F : forest) : list Z := flat_map snd F.
(** [L] are the children (attributes) of [p]. *)
Definition owned (F : forest) (p : Z) (child : bool) (L : list Z) : Prop :=
  In (Some (p, child), L) F \/ (L = [] /\ forall L', ~ In (Some (p, child), L') F).

Section Ops.
Variable kind : Z -> bool.   (* element or attribute *)

(** The chain of [t], from [t] on and round, goes to the end of what [p] has of the kind of [t]. *)
Inductive adds (p t : Z) : forest -> forest -> Prop :=
| adds_first F B1 B2 R : Permutation F ((None, B1 ++ t :: B2) :: R) -> (forall L, ~ In (Some (p, kind t), L) R) ->
    adds p t F ((Some (p, kind t), (t :: B2) ++ B1) :: R)
| adds_last F B1 B2 L R : Permutation F ((None, B1 ++ t :: B2) :: (Some (p, kind t), L) :: R) ->
    adds p t F ((Some (p, kind t), L ++ (t :: B2) ++ B1) :: R).
(** The chain of [b], from [b] on and round, goes before [a]; before the first element means behind the last. *)
Inductive joins (a b : Z) : forest -> forest -> Prop :=
| joins_first F o A B1 B2 R : Permutation F ((o, a :: A) :: (None, B1 ++ b :: B2) :: R) ->
    joins a b F ((o, (a :: A) ++ (b :: B2) ++ B1) :: R)
| joins_inner F o A1 A2 B1 B2 R : A1 <> [] -> Permutation F ((o, A1 ++ a :: A2) :: (None, B1 ++ b :: B2) :: R) ->
    joins a b F ((o, A1 ++ ((b :: B2) ++ B1) ++ a :: A2) :: R).
Inductive removes (p t : Z) : forest -> forest -> Prop :=
| removes_last F R : Permutation F ((Some (p, kind t), [t]) :: R) -> removes p t F ((None, [t]) :: R)
| removes_one F L1 L2 R : L1 ++ L2 <> [] -> Permutation F ((Some (p, kind t), L1 ++ t :: L2) :: R) ->
    removes p t F ((None, [t]) :: (Some (p, kind t), L1 ++ L2) :: R).
(** [new] takes the place of [old]. *)
Inductive replaces (p old new : Z) (child : bool) : forest -> forest -> Prop :=
| replaces_at F L1 L2 R : Permutation F ((Some (p, child), L1 ++ old :: L2) :: (None, [new]) :: R) ->
    replaces p old new child F ((Some (p, child), L1 ++ new :: L2) :: (None, [old]) :: R).
End Ops.
