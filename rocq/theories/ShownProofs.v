(** Shown texts: independence of history, and the way from a text through its type back to a text. *)
From Verif Require Import Base BaseFacts NumSpec CalSpec Base64Spec Scan ScanProofs Base64 Base64Proofs Dates DatesProofs
  Types ScalarSpec ListFacts ChunkProofs ScalarProofs RingProofs DetectProofs.

(** ** Independence of the history *)

Lemma cstr_app0 t r : cstr (t ++ 0 :: r) = cstr t.
Proof. induction t as [|c t IH]; [reflexivity|]. cbn [app cstr]. destruct (c =? 0); [reflexivity|]. rewrite IH. reflexivity. Qed.

Lemma cstr_bput0 dst t : cstr (bput dst 0 (t ++ [0])) = cstr t.
Proof. rewrite bput_0, <- app_assoc. cbn [app]. apply cstr_app0. Qed.

(** The values whose text does not depend on the history. *)
Definition history_free (ty : Z) (data : list Z) : Prop :=
  ty <> XBT_INT64 /\ ty <> XBT_UINT64 /\
  (ty = XBT_UNIX_DATE -> exists d, valid_date d /\ day_number d (s32 (unle (ztake 4 data))) /\ last_of_leap_year d = false) /\
  (ty = XBT_BLOB -> zlen data >= 4 + unle (ztake 4 data) /\ unle (ztake 4 data) mod 3 = 0).

Lemma whole_cstr dst off t c : whole dst off t = Ok c -> cstr (ck_dst c) = cstr t.
Proof. intros H. unfold whole in H. inversion H. cbn [ck_dst]. apply cstr_bput0. Qed.

Definition day_text (data : list Z) : list Z := date_text (gm_date (s32 (unle (ztake 4 data)))).

Lemma chunk_indep fl ty data d1 d2 c1 c2 : In ty ring_types -> history_free ty data -> 256 < zlen d1 -> zlen d1 = zlen d2 ->
  XBT_ToStringChunk fl ty data 0 d1 = Ok c1 -> XBT_ToStringChunk fl ty data 0 d2 = Ok c2 ->
  cstr (ck_dst c1) = cstr (ck_dst c2).
Proof.
  intros Hin (Hf1 & Hf2 & Hf3 & Hf4) L1 L2 H1 H2. assert (L2' : 256 < zlen d2) by lia.
  assert (Hfx : forall k, In (ty, k) fixed_types -> cstr (ck_dst c1) = cstr (ck_dst c2)).
  { intros k Hk. rewrite (chunk_fixed fl ty k) in H1, H2 by assumption. cbv zeta in H1, H2.
    destruct (_ =? INT_MIN); [discriminate H1|]. rewrite (whole_cstr _ _ _ _ H1), (whole_cstr _ _ _ _ H2). reflexivity. }
  unfold ring_types in Hin. cbn [In] in Hin.
  destruct Hin as [E|[E|[E|[E|[E|[E|[E|[E|[E|[E|[E|[E|[E|[E|[]]]]]]]]]]]]]]]; subst ty; try contradiction.
  - rewrite chunk_int32 in H1, H2 by assumption. rewrite (whole_cstr _ _ _ _ H1), (whole_cstr _ _ _ _ H2). reflexivity.
  - apply (Hfx 1). cbn; tauto.
  - apply (Hfx 2). cbn; tauto.
  - apply (Hfx 3). cbn; tauto.
  - apply (Hfx 6). cbn; tauto.
  - apply (Hfx 9). cbn; tauto.
  - rewrite chunk_uint32 in H1, H2 by assumption. rewrite (whole_cstr _ _ _ _ H1), (whole_cstr _ _ _ _ H2). reflexivity.
  - rewrite chunk_float in H1, H2 by assumption. rewrite (whole_cstr _ _ _ _ H1), (whole_cstr _ _ _ _ H2). reflexivity.
  - rewrite chunk_unix_time in H1, H2 by assumption. cbv zeta in H1, H2. rewrite (whole_cstr _ _ _ _ H1), (whole_cstr _ _ _ _ H2). reflexivity.
  - rewrite chunk_unix_date in H1, H2 by assumption.
    destruct (Hf3 eq_refl) as (d & V & N & Hl). pose proof (s32_range (unle (ztake 4 data))) as R.
    destruct (UnixDate2Str (s32 (unle (ztake 4 data)))) as [t| |] eqn:E; [| |discriminate H1].
    + rewrite (whole_cstr _ _ _ _ H1), (whole_cstr _ _ _ _ H2). reflexivity.
    + exfalso. assert (Hm : INT_MIN + 10957 <= s32 (unle (ztake 4 data))).
      { unfold UnixDate2Str in E. destruct (int32b (s32 (unle (ztake 4 data)) - 10957)) eqn:E1; cbn [negb] in E; [|discriminate E].
        unfold int32b in E1. unfold INT_MIN. lia. }
      rewrite (UnixDate2Str_ok _ d R Hm V N), Hl in E. discriminate E.
  - rewrite chunk_time64 in H1, H2 by assumption. cbv zeta in H1, H2. rewrite (whole_cstr _ _ _ _ H1), (whole_cstr _ _ _ _ H2). reflexivity.
  - rewrite chunk_sha1 in H1, H2 by assumption. inversion H1; inversion H2. cbn [ck_dst]. rewrite !cstr_bput0. reflexivity.
Qed.

Lemma ring_buf st i : ring_ok st -> 0 <= i < 64 -> zlen (nth (Z.to_nat i) (rg_bufs st) []) = 257.
Proof.
  intros (H1 & H2 & _) Hi. rewrite Forall_forall in H2. apply H2, nth_In. unfold zlen in H1. lia.
Qed.

Lemma shown_indep fl ty data o1 o2 st1 st2 s1 s2 st1' st2' :
  bytes data -> history_free ty data -> ring_ok st1 -> ring_ok st2 ->
  XBT_ToString fl ty data o1 st1 = Ok (s1, st1') -> XBT_ToString fl ty data o2 st2 = Ok (s2, st2') ->
  shown_text s1 st1' = shown_text s2 st2'.
Proof.
  intros Hb Hf Hr1 Hr2 H1 H2.
  pose proof (ring_buf st1 (rg_idx st1) Hr1 (proj2 (proj2 Hr1))) as B1.
  pose proof (ring_buf st2 (rg_idx st2) Hr2 (proj2 (proj2 Hr2))) as B2.
  pose proof Hr1 as (RL1 & _ & RI1). pose proof Hr2 as (RL2 & _ & RI2).
  unfold XBT_ToString in H1, H2. cbv zeta in H1, H2.
  destruct (ty =? XBT_NULL); [inversion H1; inversion H2; reflexivity|].
  destruct (ty =? XBT_STRING); [inversion H1; inversion H2; reflexivity|].
  destruct (ty =? XBT_GUID).
  { inversion H1; inversion H2; subst. unfold shown_text. cbn [rg_bufs]. rewrite !set_nth_same by lia. rewrite !cstr_bput0. reflexivity. }
  change [XBT_INT32; XBT_INT32_DECI; XBT_INT32_CENTI; XBT_INT32_MILI; XBT_INT32_MICRO; XBT_INT32_NANO; XBT_UINT32; XBT_INT64; XBT_UINT64;
      XBT_FLOAT; XBT_UNIX_TIME; XBT_UNIX_DATE; XBT_UNIX_TIME64_MSEC; XBT_SHA1] with ring_types in *.
  destruct (isin ty ring_types) eqn:Ein.
  { apply isin_true in Ein.
    destruct (XBT_ToStringChunk fl ty data 0 (nth (Z.to_nat (rg_idx st1)) (rg_bufs st1) [])) as [c1| |] eqn:E1; cbn [obind] in H1; [|discriminate H1|discriminate H1].
    destruct (XBT_ToStringChunk fl ty data 0 (nth (Z.to_nat (rg_idx st2)) (rg_bufs st2) [])) as [c2| |] eqn:E2; cbn [obind] in H2; [|discriminate H2|discriminate H2].
    inversion H1; inversion H2; subst. unfold shown_text. cbn [rg_bufs]. rewrite !set_nth_same by lia. f_equal.
    apply (chunk_indep fl ty data _ _ _ _ Ein Hf) with (3 := E1) (4 := E2); lia. }
  destruct (ty =? XBT_BLOB_STRING).
  { destruct (_ =? 0) in H1, H2; inversion H1; inversion H2; reflexivity. }
  destruct (Z.eqb_spec ty XBT_BLOB) as [Eb|_].
  { destruct Hf as (_ & _ & _ & Hf). destruct (Hf Eb) as [Hlen Hmod].
    pose proof (bytes_unle_take 4 data Hb ltac:(lia)) as H4. set (size := unle (ztake 4 data)) in *.
    destruct (size =? 0); [inversion H1; inversion H2; reflexivity|].
    assert (L : zlen (ztake size (zskip 4 data)) = size).
    { rewrite zlen_take, zlen_skip by lia. lia. }
    pose proof (b64_text_length (ztake size (zskip 4 data))) as LB. rewrite L in LB.
    assert (E64 : base64_encode (ztake size (zskip 4 data)) (size / 3 * 4 + 5) = (b64_text (ztake size (zskip 4 data)), true)).
    { rewrite base64_encode_spec; [|apply bytes_take, bytes_skip, Hb|lia]. f_equal. lia. }
    rewrite E64 in H1, H2. inversion H1; inversion H2. unfold shown_text. rewrite !cstr_bput0. reflexivity. }
  destruct (ty =? XBT_HEX).
  { destruct (_ =? 0) in H1, H2; inversion H1; inversion H2; reflexivity. }
  inversion H1; inversion H2; reflexivity.
Qed.

Lemma history_indep fl ty data o1 o2 h1 h2 st1 st2 s1 s2 st1' st2' :
  floats_ok fl -> Forall (fun c => bytes (cl_data c)) h1 -> Forall (fun c => bytes (cl_data c)) h2 ->
  bytes data -> history_free ty data ->
  run_calls fl h1 ring0 = Ok st1 -> run_calls fl h2 ring0 = Ok st2 ->
  XBT_ToString fl ty data o1 st1 = Ok (s1, st1') -> XBT_ToString fl ty data o2 st2 = Ok (s2, st2') ->
  shown_text s1 st1' = shown_text s2 st2'.
Proof.
  intros Hfl Hh1 Hh2 Hb Hf R1 R2. apply shown_indep; try assumption.
  - apply (run_calls_ok fl h1 ring0 st1 Hfl Hh1 ring0_ok R1).
  - apply (run_calls_ok fl h2 ring0 st2 Hfl Hh2 ring0_ok R2).
Qed.

(** The text stays readable during the next 63 calls. *)
Lemma shown_survives fl ty data o h h' st s st' st2 :
  floats_ok fl -> Forall (fun c => bytes (cl_data c)) h -> Forall (fun c => bytes (cl_data c)) h' -> bytes data ->
  run_calls fl h ring0 = Ok st -> XBT_ToString fl ty data o st = Ok (s, st') ->
  run_calls fl h' st' = Ok st2 -> (List.length h' <= 63)%nat ->
  shown_text s st2 = shown_text s st'.
Proof.
  intros Hfl Hh Hh' Hb R H R' Hl.
  pose proof (run_calls_ok fl h ring0 st Hfl Hh ring0_ok R) as Hok.
  destruct (ToString_ring fl ty data o st s st' Hfl Hb Hok H) as (Hok' & _ & Hs).
  destruct s as [|t|i]; try reflexivity. destruct (Hs i eq_refl) as [-> Hi].
  unfold shown_text. do 2 f_equal.
  apply (slot_survives fl h' st' st2 (rg_idx st) Hfl Hh' Hok' R' Hl).
  - apply Hok.
  - intros n Hn. rewrite Hi. pose proof (proj2 (proj2 Hok)). unfold zlen in Hn. lia.
Qed.

(** INT64: what an earlier text left in the slot shows behind the new one. *)
Definition fl0 : floats := mkfloats (fun _ => 0) (fun _ => [48]).
Lemma int64_stale : exists h st s st' s0 st0,
  run_calls fl0 h ring0 = Ok st /\ XBT_ToString fl0 XBT_INT64 (le 8 5) [] st = Ok (s, st') /\ XBT_ToString fl0 XBT_INT64 (le 8 5) [] ring0 = Ok (s0, st0) /\ shown_text s0 st0 = Some (lit "5") /\ shown_text s st' = Some (lit "50000").
Proof.
  exists (repeat (mkcall XBT_INT32 (le 4 10000) []) 64).
  eexists _, _, _, _, _. split; [vm_compute; reflexivity|]. split; [vm_compute; reflexivity|].
  split; [vm_compute; reflexivity|]. split; vm_compute; reflexivity.
Qed.

Lemma uint64_stale : exists h st s st' s0 st0,
  run_calls fl0 h ring0 = Ok st /\ XBT_ToString fl0 XBT_UINT64 (le 8 5) [] st = Ok (s, st') /\ XBT_ToString fl0 XBT_UINT64 (le 8 5) [] ring0 = Ok (s0, st0) /\ shown_text s0 st0 = Some (lit "5") /\ shown_text s st' = Some (lit "50000").
Proof.
  exists (repeat (mkcall XBT_INT32 (le 4 10000) []) 64).
  eexists _, _, _, _, _. split; [vm_compute; reflexivity|]. split; [vm_compute; reflexivity|].
  split; [vm_compute; reflexivity|]. split; vm_compute; reflexivity.
Qed.

(** UNIX_DATE, December 31 of a leap year: the old text of the slot shows. *)
Lemma leap_stale : exists h st s st',
  run_calls fl0 h ring0 = Ok st /\ XBT_ToString fl0 XBT_UNIX_DATE (le 4 18627) [] st = Ok (s, st') /\ day_number (mkdate 2020 12 31) 18627 /\ shown_text s st' = Some (lit "10000").
Proof.
  exists (repeat (mkcall XBT_INT32 (le 4 10000) []) 64).
  eexists _, _, _. split; [vm_compute; reflexivity|]. split; [vm_compute; reflexivity|].
  split; [|vm_compute; reflexivity]. change 18627 with (rata (mkdate 2020 12 31)). apply rata_day_number. split; cbv; split; discriminate.
Qed.

(** BLOB: the text is not terminated when the size is no multiple of three. *)
Lemma blob_stale fl : exists data out, zlen out = 9 /\ XBT_ToString fl XBT_BLOB data out ring0 = Ok (Text (lit "QUJDRA==!"), ring0) /\ data = le 4 4 ++ lit "ABCD".
Proof. exists (le 4 4 ++ lit "ABCD"), (lit "!!!!!!!!!"). split; [reflexivity|]. split; [vm_compute; reflexivity|reflexivity]. Qed.
