(** C44 for children that are a SHA-1. *)
From Verif Require Import Base Types Sort Xb XbWrite Bw BwSpec BwNamesSpec BwLifeSpec BwSetExamples BwSetSha BwSetShaProofs BwSetShaExamples.

(** The child with this id is found and has the value; it is the element returned, either the old one or a new one behind the last child; nothing else
    changes.  Missing: a child of another type is neither set nor replaced, null is returned. *)
Theorem C44_sha1_partial : forall k s m T P F p L i nm v fuel disk t m', life k s m T P F -> In p (members F) -> owned F p true L -> (forall e, In e L -> k e = true) ->
  nth_error T i = Some (nm, XBT_SHA1) -> t_index m TAGS <> Ok 0 -> zlen v = 20 -> (List.length L <= fuel)%nat ->
  tagSetSHA1 fuel disk m p (Z.of_nat i) (Some v) = rret (Some t, m') ->
  set_done k s m T P F p L (Z.of_nat i) t t 20 m' /\ t_index m' TAGS = t_index m TAGS /\ el_type m' t = Ok XBT_SHA1 /\ rd m' (t + 24) 20 = Ok v /\
  forall fuel', (List.length L < fuel')%nat -> tagGet fuel' m' p (Z.of_nat i) = rret (Some t).
Proof. exact set_sha1. Qed.
Print Assumptions C44_sha1_partial.
(** Null clears the value of a child that is there ... *)
Theorem C44_sha1_clear : forall k s m T P F p l1 t l2 id fuel disk r m', life k s m T P F -> In p (members F) -> owned F p true (l1 ++ t :: l2) -> (forall e, In e (l1 ++ t :: l2) -> k e = true) -> (List.length (l1 ++ t :: l2) <= fuel)%nat ->
  el_id m t = Ok id -> (forall e, In e l1 -> el_id m e <> Ok id) -> tagSetSHA1 fuel disk m p id None = rret (Some r, m') -> r = t /\ set_done k s m T P F p (l1 ++ t :: l2) id t t 20 m' /\ rd m' (t + 24) 20 = Ok (zrepeat 0 20).
Proof. exact clear_sha1. Qed.
Print Assumptions C44_sha1_clear.
Example C44_sha1_met : life kd4 zd4 d4 tags2 [] [(None, [116])] /\ t_index d4 TAGS <> Ok 0 /\ tagSetSHA1 9 true d4 116 1 (Some digest) = rret (Some 140, d5) /\
  life kd5 zd5 d5 tags2 [] Fd5 /\ el_id d5 140 = Ok 1 /\ exists m', tagSetSHA1 9 true d5 116 1 None = rret (Some 140, m').
Proof. split; [exact d4_life|]. split; [vm_compute; discriminate|]. split; [vm_compute; reflexivity|]. split; [exact d5_life|]. split; [vm_compute; reflexivity|eexists; vm_compute; reflexivity]. Qed.
(** ... but is read when there is none yet. *)
Theorem C44_sha1_null_refuted : forall k s m T P F p L i nm fuel disk m1 x, life k s m T P F -> In p (members F) -> owned F p true L -> nth_error T i = Some (nm, XBT_SHA1) -> t_index m TAGS <> Ok 0 -> (List.length L <= fuel)%nat ->
  (forall e, In e L -> el_id m e <> Ok (Z.of_nat i)) -> pool_tagSHA1 disk m (Z.of_nat i) (zrepeat 0 20) = Ok (Some x, m1) -> tagSetSHA1 fuel disk m p (Z.of_nat i) None = Some Ub.
Proof. exact null_sha1. Qed.
Print Assumptions C44_sha1_null_refuted.
Example C44_sha1_null_met : tagSetSHA1 9 true d4 116 1 None = Some Ub.
Proof. vm_compute. reflexivity. Qed.

(** Tags of unsigned and floating numbers accept tagSetInt64; the value is stored, but getInt64 of the new child is null. *)
Theorem C44_unread_refuted : forall k s m T P F p L i nm ty v fuel disk t m', life k s m T P F -> In p (members F) -> owned F p true L -> (forall e, In e L -> el_id m e <> Ok (Z.of_nat i)) ->
  nth_error T i = Some (nm, ty) -> ty = XBT_UINT64 \/ ty = XBT_DOUBLE -> t_index m TAGS <> Ok 0 -> (List.length L <= fuel)%nat ->
  tagSetInt64 fuel disk m p (Z.of_nat i) v = rret (Some t, m') ->
  set_done k s m T P F p L (Z.of_nat i) t t 8 m' /\ rd m' (t + 24) 8 = Ok (le 8 v) /\ bw_getInt64 m' t = Ok None.
Proof. exact long_unread. Qed.
Print Assumptions C44_unread_refuted.
Example C44_unread_met : life kd4 zd4 u4 tagsu [] [(None, [116])] /\ t_index u4 TAGS <> Ok 0 /\ tagSetInt64 9 true u4 116 1 7 = rret (Some 144, u5) /\ bw_getInt64 u5 144 = Ok None.
Proof. split; [exact u4_life|]. split; [vm_compute; discriminate|]. split; vm_compute; reflexivity. Qed.
