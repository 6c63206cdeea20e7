(** What is below an element of a pool. *)
From Verif Require Import Base Types Sort Xb XbWrite Bw BwSpec BwNamesSpec WalkSpec.

(** The element and everything below it, in the order of the lists *)
Inductive hangs (F : forest) : itree -> Prop :=
| hangs_here x kids : In x (members F) -> owned F x true (map place kids) -> Forall (hangs F) kids -> hangs F (At x kids).
(** The tree as the list of its elements *)
Fixpoint all_of (t : itree) : list Z := let '(At x kids) := t in x :: flat_map all_of kids.
(** The bytes of these elements *)
Definition taken (s : Z -> Z) (L : list Z) : Z := fold_right (fun e n => s e + n) 0 L.
(** The bytes of these names in a pool: an id, a type, the name and a zero, in whole words *)
Definition names_space (L : names) : Z := fold_right (fun e n => (zlen (fst e) + 7) / 4 * 4 + n) 0 L.
(** Every element below has the type that its name was registered with. *)
Definition well_typed m (T : names) (t : itree) : Prop := forall x, In x (all_of t) -> exists i name ty, el_id m x = Ok (Z.of_nat i) /\ nth_error T i = Some (name, ty) /\ el_type m x = Ok ty.
