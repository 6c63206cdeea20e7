(** Adding attributes to XBW elements. *)
From Verif Require Import Base Types Sort Xb XbWrite Bw BwSpec BwHist BwSym BwNamesSpec BwLifeSpec BwAttr BwAttrSpec BwRoomSpec BwAttrTop BwAttrRoom BwSetExamples BwFileExamples BwAttrExamples.

(** C62: in a pool with any history, a value added under a registered and indexed attribute name becomes the last attribute of the element, is
    delivered by getData and the typed getters, is found by its name if it is the first one with it, and changes no other element and no other list.  If there is no
    room, NULL is returned and everything is as before.
    Missing: an attribute of this name that is there already (see C62_hidden_refuted); times (see C62_time_refuted); sizes beyond INT_MAX, and not
    enough readable memory, are undefined. *)
Theorem C62_partial : forall c k s m T P F p A i nm ty disk r m', life k s m T P F -> In p (members F) -> owned F p false A -> nth_error P i = Some (nm, ty) -> t_index m PARAMS <> Ok 0 -> attr_args c -> In ty (attr_types c) ->
  attr_run c disk m p (Z.of_nat i) = Ok (r, m') ->
  r = None /\ life k s m' T P F /\ (forall e, In e (members F) -> rd m' e (s e) = rd m e (s e)) \/
  r = Some p /\ exists n data, attr_done k s m T P F p A (Z.of_nat i) n m' /\ bw_getData m' n = Ok (ty, data, attr_value c) /\ attr_getter c m' n /\ t_index m' PARAMS = t_index m PARAMS /\ t_index m' TAGS = t_index m TAGS /\
    forall fuel, (List.length A < fuel)%nat -> (forall e, In e A -> el_id m e <> Ok (Z.of_nat i)) -> attrGet fuel m' p (Z.of_nat i) = rret (Some n).
Proof. exact attr_adds. Qed.
Print Assumptions C62_partial.
Example C62_met : life kr sr q1 tags1 params4 Fr /\ In root (members Fr) /\ owned Fr root false [] /\ t_index q1 PARAMS = Ok 136 /\ attr_args (CBlob [1; 0; 2]) /\
  (exists m', attr_run (CBlob [1; 0; 2]) true q1 root 2 = Ok (Some root, m')) /\ exists m', attr_run (CStr (lit "ab")) true q1 root 1 = Ok (Some root, m').
Proof.
  split; [exact q1_life|]. split; [exact root_in|]. split; [exact q1_none|]. split; [vm_compute; reflexivity|]. split; [split; [repeat constructor; lia|vm_compute; discriminate]|]. split; eexists; vm_compute; reflexivity.
Qed.
(** It does so whenever the file can grow: the space of the mapping is enough and the disk has room.  24 bytes are for the element, 4095 for whole pages and 8 for the alignment. *)
Theorem C62_succeeds : forall c k s m T P F p A i nm ty a M, life k s m T P F -> In p (members F) -> owned F p false A -> nth_error P i = Some (nm, ty) -> t_index m PARAMS <> Ok 0 -> attr_args c -> In ty (attr_types c) ->
  bytes m -> p_allocator m = Ok a -> p_mmap_size m = Ok M -> a + attr_size c + 4127 <= M -> exists m', attr_run c true m p (Z.of_nat i) = Ok (Some p, m').
Proof. exact attr_succeeds. Qed.
Print Assumptions C62_succeeds.
(** Here the file of 4096 bytes has to grow. *)
Example C62_succeeds_met : life kr sr q1 tags1 params4 Fr /\ In root (members Fr) /\ owned Fr root false [] /\ nth_error params4 2 = Some (lit "raw", XBT_BLOB) /\ t_index q1 PARAMS <> Ok 0 /\ attr_args (CBlobZero 9000) /\ In XBT_BLOB (attr_types (CBlobZero 9000)) /\
  bytes q1 /\ p_allocator q1 = Ok 176 /\ p_mmap_size q1 = Ok 131072 /\ 176 + attr_size (CBlobZero 9000) + 4127 <= 131072 /\ zlen q1 = 4096.
Proof.
  split; [exact q1_life|]. split; [exact root_in|]. split; [exact q1_none|]. split; [reflexivity|]. split; [vm_compute; discriminate|]. split; [split; vm_compute; (reflexivity || discriminate)|]. split; [left; reflexivity|].
  split; [exact q1_bytes|]. split; [vm_compute; reflexivity|]. split; [vm_compute; reflexivity|]. split; [vm_compute; discriminate|vm_compute; reflexivity].
Qed.
(** Values of other types are refused without any effect. *)
Theorem C62_refused : forall c k s m T P F p i nm ty disk, life k s m T P F -> In p (members F) -> nth_error P i = Some (nm, ty) -> t_index m PARAMS <> Ok 0 -> attr_args c -> ~ In ty (attr_types c) ->
  attr_run c disk m p (Z.of_nat i) = Ok (None, m).
Proof. exact attr_refuses. Qed.
Print Assumptions C62_refused.
Example C62_refused_met : life kr sr q1 tags1 params4 Fr /\ In root (members Fr) /\ nth_error params4 2 = Some (lit "raw", XBT_BLOB) /\ ~ In XBT_BLOB (attr_types (CInt32 1)).
Proof. split; [exact q1_life|]. split; [exact root_in|]. split; [reflexivity|]. intros [E|[]]. discriminate. Qed.
(** A second value of a name is never found: the first one stays. *)
Theorem C62_hidden_refuted : forall c k s m T P F p l1 t l2 i nm ty disk m' fuel, life k s m T P F -> In p (members F) -> owned F p false (l1 ++ t :: l2) -> nth_error P i = Some (nm, ty) -> t_index m PARAMS <> Ok 0 -> attr_args c -> In ty (attr_types c) ->
  el_id m t = Ok (Z.of_nat i) -> (forall e, In e l1 -> el_id m e <> Ok (Z.of_nat i)) -> attr_run c disk m p (Z.of_nat i) = Ok (Some p, m') -> (List.length (l1 ++ t :: l2) < fuel)%nat ->
  attrGet fuel m' p (Z.of_nat i) = rret (Some t) /\ same_data s m m' t.
Proof. exact attr_hidden. Qed.
Print Assumptions C62_hidden_refuted.
Example C62_hidden_met : (exists k s F, life k s q2 tags1 params4 F /\ In root (members F) /\ owned F root false ([] ++ 176 :: [])) /\ el_id q2 176 = Ok (Z.of_nat 1) /\
  exists m', attr_run (CStr (lit "cd")) true q2 root (Z.of_nat 1) = Ok (Some root, m') /\ attrGet 9 m' root 1 = rret (Some 176) /\ bw_getStr m' 176 = Ok (Some (lit "ab")).
Proof. split; [exact q2_life|]. split; [vm_compute; reflexivity|]. eexists. split; [vm_compute; reflexivity|]. split; vm_compute; reflexivity. Qed.
(** getTime reads eight bytes where attrTime stored four: after the next attribute it delivers another time. *)
Theorem C62_time_refuted : exists disk m p n m1 m2 v, (exists k s T P F, life k s m T P F /\ In p (members F)) /\ attrTime disk m p 3 v = Ok (Some p, m1) /\ attrInt32 disk m1 p 0 9 = Ok (Some p, m2) /\
  attrGet 9 m2 p 3 = rret (Some n) /\ bw_getTime m1 n = Ok (Some v) /\ exists w, bw_getTime m2 n = Ok (Some w) /\ w <> v.
Proof.
  exists true, q2, root, 204, q3, q4, 7. split; [destruct q2_life as (k & s & F & LI & IP & _); exists k, s, tags1, params4, F; auto|]. split; [vm_compute; reflexivity|]. split; [vm_compute; reflexivity|]. split; [vm_compute; reflexivity|]. split; [vm_compute; reflexivity|].
  eexists. split; [vm_compute; reflexivity|]. discriminate.
Qed.
Print Assumptions C62_time_refuted.
