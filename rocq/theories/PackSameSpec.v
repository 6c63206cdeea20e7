(** The documents whose texts do not depend on where they are stored. *)
From Verif Require Import Base Types Symtab SymtabSpec Sort Xb XbWrite DocSpec.

(** Values that are not padded to a multiple of eight, and not hexadecimal data; attributes other than dates, which are read at a wild place (see C29). *)
Definition movable_value (v : list Z) : Prop := ~ In (XBT_Detect v) [XBT_INT64; XBT_UINT64; XBT_UNIX_TIME64_MSEC; XBT_HEX].
Definition movable_attr (root : node) (a : list Z * list Z) : Prop :=
  fst a <> lit "et-tecera" /\ XBT_Detect2 (snd a) (column_type (values_of (fst a) (flat_map attrs_of (elements root)))) <> XBT_UNIX_DATE.
Definition movable (root : node) : Prop :=
  forall u, In u (elements root) -> (forall v, value_of u = Some v -> movable_value v) /\ forall a, In a (attrs_of u) -> movable_attr root a.
