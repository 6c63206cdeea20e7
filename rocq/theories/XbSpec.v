(** Notions used to state properties of images. *)
From Verif Require Import Base Types Symtab Xb SymtabSpec.

(** The bytes [bs] stand at [p] in [m]. *)
Definition has (m : list Z) (p : Z) (bs : list Z) : Prop := exists a b, m = a ++ bs ++ b /\ zlen a = p.

(** The names of a loaded table. *)
Definition table_names (m : list Z) (t : symbols) (names : list (list Z)) : Prop :=
  sy_count t = zlen names /\ forall i, 0 <= i < zlen names -> symbol_at m t i = Ok (nth (Z.to_nat i) names []).
