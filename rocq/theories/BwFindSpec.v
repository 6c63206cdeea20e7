(** What looking for a child by the value of an attribute should do. *)
From Verif Require Import Base Types Sort Xb XbWrite XbBin BinSpec Bw BwSpec BwKeysSpec.

(** Types whose values are found *)
Definition found_types : list Z := [XBT_INT32; XBT_INT32_DECI; XBT_INT32_CENTI; XBT_INT32_MILI; XBT_INT32_MICRO; XBT_INT32_NANO; XBT_UINT32; XBT_UNIX_TIME; XBT_IPv4; XBT_INT64; XBT_UINT64; XBT_UNIX_TIME64_MSEC; XBT_GUID; XBT_IPv6; XBT_STRING].
(** What a client hands over for the value [v]: a pointer to it and its size; the size of a text is not looked at. *)
Definition handed ty (v data : list Z) size : Prop := (exists rest, data = v ++ rest) /\ v = value_bytes ty v /\ zlen v = value_size ty v /\ (ty = XBT_STRING \/ size = zlen v).
(** The child [c] is called [tag] and has an attribute [id] with the value [v]. *)
Definition having s m (F : forest) tag id ty v c : Prop := el_id m c = Ok tag /\ exists A a, owned F c false A /\ In a A /\ attr_at s m a (id, ty, v).
(** All attributes [id] of the children [tag] have values of type [ty]. *)
Definition valued s m (F : forest) L tag id ty : Prop := forall c A a, In c L -> el_id m c = Ok tag -> owned F c false A -> In a A -> el_id m a = Ok id -> exists v, attr_at s m a (id, ty, v).
(** [r] is the first element of [L] with [Q]; there is none if it is null. *)
Definition first_with (Q : Z -> Prop) (L : list Z) (r : option Z) : Prop :=
  match r with
  | Some c => exists l1 l2, L = l1 ++ c :: l2 /\ Q c /\ forall e, In e l1 -> ~ Q e
  | None => forall e, In e L -> ~ Q e
  end.
