(** What giving another type to an element and to a name should do. *)
From Verif Require Import Base Types Sort Xb Bw BwSpec BwSym BwNamesSpec BwLifeSpec BwAttr.

(** Types with values of 4 and of 8 bytes, and those that start with their length. *)
Definition four : list Z := [XBT_INT32; XBT_UINT32; XBT_INT32_DECI; XBT_INT32_CENTI; XBT_INT32_MILI; XBT_INT32_MICRO; XBT_INT32_NANO; XBT_FLOAT; XBT_UNIX_TIME; XBT_IPv4].
Definition eight : list Z := [XBT_INT64; XBT_UINT64; XBT_DOUBLE; XBT_UNIX_TIME64_MSEC].
Definition counted : list Z := [XBT_BLOB; XBT_HEX; XBT_BLOB_STRING].
(** Values of both types look the same. *)
Definition alike old ty : Prop := old = ty \/ In old four /\ In ty four \/ In old eight /\ In ty eight \/ In old counted /\ In ty counted.
(** [e] has the type [ty], and the same id, the same bytes as value, and the same data as before. *)
Definition retyped (s : Z -> Z) m F e old ty m' : Prop :=
  el_type m' e = Ok ty /\ el_id m' e = el_id m e /\ (forall q n, e + 24 <= q -> 0 <= n -> rd m' q n = rd m q n) /\ (forall d c, bw_getData m e = Ok (old, d, c) -> bw_getData m' e = Ok (ty, d, c)) /\
  (forall x, In x (members F) -> x <> e -> rd m' x (s x) = rd m x (s x)).
(** A name with the type [old] can have the type [ty] instead. *)
Definition converts old ty : Prop := old = ty \/ ty = XBT_BLOB \/ ty = XBT_BLOB_STRING \/ ty = XBT_STRING /\ old <> XBT_BLOB /\ old <> XBT_HEX \/ ty = XBT_INT32 /\ (old = XBT_UNIX_TIME \/ old = XBT_UNIX_DATE).
Definition known ty : Prop := XBT_NULL <= ty < XBT_LAST.
(** The name number [id] of [L] may become one of type [ty]. *)
Definition may_alter (L : names) id ty : Prop := known ty /\ 0 <= id /\ exists nm old, nth_error L (Z.to_nat id) = Some (nm, old) /\ converts old ty.
