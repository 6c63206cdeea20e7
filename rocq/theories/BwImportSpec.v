(** What importing the names of a document into a pool should do. *)
From Verif Require Import Base Types Sort Xb XbWrite Bw BwSym BwNamesSpec.

(** The table of the document lists the names [N] with their types. *)
Definition lists d (sy : symbols) (N : names) : Prop :=
  sy_count sy = zlen N /\ forall i s ty, nth_error N i = Some (s, ty) -> getSymbol d sy (Z.of_nat i) = Ok s /\ Xb.getType d sy (Z.of_nat i) = Ok ty.
(** The names [N] are added to [L] one after the other, but some are left out. *)
Inductive entered : names -> names -> names -> Prop :=
| entered_done L : entered [] L L
| entered_one s ty N L L' : entered N (noted s ty L) L' -> entered ((s, ty) :: N) L L'
| entered_not e N L L' : entered N L L' -> entered (e :: N) L L'.
