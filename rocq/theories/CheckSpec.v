(** Reachability in a file. *)
From Verif Require Import Base Types Xb.
From Coq Require Import Relations.

(** [y] is one of the children that the element at [x] names. *)
Definition child m (x y : Z) : Prop := exists i, getChildByIndex m (Some x) i = Ok (Some y).
Definition reach m : Z -> Z -> Prop := clos_refl_trans_1n Z (child m).
Definition cyclic m (x : Z) : Prop := exists y, child m x y /\ reach m y x.
(** The three counts of the element are not negative. *)
Definition counts_ok m x : Prop :=
  forall l p c, it_length m x = Ok l -> it_paramcount m x = Ok p -> it_childcount m x = Ok c -> 0 <= l /\ 0 <= p /\ 0 <= c.
(** All attributes are of the types that the check regards as stored in the record. *)
Definition inline_only m x : Prop :=
  forall i q ty, getParamByIndex m (Some x) i = Ok (Some q) -> pd_type m q = Ok ty -> In ty [XBT_NULL; XBT_INT32; XBT_FLOAT; XBT_UNIX_TIME; XBT_IPv4].
(** The element with its records and links lies in the file. *)
Definition element_inside m x : Prop :=
  exists l p c, it_length m x = Ok l /\ it_paramcount m x = Ok p /\ it_childcount m x = Ok c /\
    0 <= x /\ x mod 4 = 0 /\ 0 <= p /\ 0 <= c /\ 12 + 8 * p + 4 * c <= l /\ x + l <= zlen m.
(** A text or wide value at offset [d] of the element at [x] lies in the element. *)
Definition link_inside m x length ty d : Prop :=
  0 <= d < length /\
  (ty = XBT_STRING /\ (exists s, rd_str m (x + d) = Ok s /\ d + zlen s < length) \/
   In ty [XBT_INT64; XBT_UINT64; XBT_UNIX_TIME64_MSEC; XBT_DOUBLE] /\ d + 8 <= length \/
   ty = XBT_SHA1 /\ d + 24 <= length \/ In ty [XBT_GUID; XBT_IPv6] /\ d + 16 <= length).
(** Depth of recursion that suffices. *)
Definition enough (m : list Z) : nat := S (S (List.length m)).
