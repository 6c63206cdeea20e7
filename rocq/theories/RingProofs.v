(** XBT_ToString and its ring of static buffers. *)
From Verif Require Import Base BaseFacts NumSpec CalSpec Scan ScanProofs Base64 Base64Spec Base64Proofs Dates DatesProofs
  Types ScalarSpec ListFacts ChunkProofs ScalarProofs.

(** ** gmtime_r gives the Gregorian date *)

Lemma gm_month_spec y r : 0 <= r < year_len y ->
  let m := gm_month (leap y) r in 1 <= m <= 12 /\ month_off y m <= r < month_off y m + month_days y m.
Proof.
  intros Hr. cbv zeta.
  assert (H : forallb (fun k => let m := gm_month (leap y) (Z.of_nat k) in
     (1 <=? m) && (m <=? 12) && (month_off y m <=? Z.of_nat k) && (Z.of_nat k <? month_off y m + month_days y m))
     (seq 0 (Z.to_nat (year_len y))) = true).
  { unfold year_len, month_off, month_days. destruct (leap y); vm_compute; reflexivity. }
  rewrite forallb_forall in H. specialize (H (Z.to_nat r)).
  rewrite Z2Nat.id in H by lia. cbv zeta in H.
  assert (In (Z.to_nat r) (seq 0 (Z.to_nat (year_len y)))) as Hin by (apply in_seq; lia).
  specialize (H Hin). lia.
Qed.

Lemma gm_date_ok v : valid_date (gm_date v) /\ day_number (gm_date v) v.
Proof.
  assert (H : valid_date (gm_date v) /\ rata (gm_date v) = v).
  { unfold gm_date. pose proof (c_year_day_spec v) as Hs. destruct (c_year_day v) as [[y lp] r].
    destruct Hs as (_ & Hr & Hv). pose proof (gm_month_spec y r Hr) as Hm. cbv zeta in Hm.
    unfold valid_date, rata. cbn [yr mo dy]. fold (month_off y (gm_month (leap y) r)). lia. }
  destruct H as [H1 H2]. split; [exact H1|]. rewrite <- H2 at 2. apply rata_day_number, H1.
Qed.

Lemma year_bound y r v : v = year_start y + r -> 0 <= r < year_len y -> -10 ^ 12 <= v <= 10 ^ 12 -> -10 ^ 10 < y < 10 ^ 10.
Proof.
  change (10 ^ 12) with 1000000000000. change (10 ^ 10) with 10000000000. unfold year_start, year_len.
  intros Hv Hr Hb. destruct (leap y); lia.
Qed.

Lemma gm_date_bounds v : -10 ^ 12 <= v <= 10 ^ 12 ->
  -10 ^ 10 < yr (gm_date v) < 10 ^ 10 /\ 1 <= mo (gm_date v) <= 12 /\ 1 <= dy (gm_date v) <= 31.
Proof.
  intros Hb. pose proof (gm_date_ok v) as [[Hm Hd] _]. pose proof (month_days_pos (yr (gm_date v)) (mo (gm_date v))).
  split; [|lia]. unfold gm_date. pose proof (c_year_day_spec v) as Hs. destruct (c_year_day v) as [[y lp] r].
  destruct Hs as (_ & Hr & Hv). cbn [yr]. apply (year_bound y r v Hv Hr Hb).
Qed.

Lemma date_text_len d : -10 ^ 10 < yr d < 10 ^ 10 -> 1 <= mo d <= 12 -> 1 <= dy d <= 31 -> zlen (date_text d) <= 20.
Proof.
  intros Hy Hm Hd. unfold date_text. rewrite !zlen_app. change (zlen [45]) with 1.
  pose proof (fmt0_len_le 4 (yr d) 10 ltac:(lia) Hy). pose proof (fmt0_len_le 2 (mo d) 2). pose proof (fmt0_len_le 2 (dy d) 2).
  change (10 ^ 2) with 100 in *. lia.
Qed.

Lemma fmt2_len n : 0 <= n < 100 -> zlen (fmt0 2 n) = 2.
Proof. intros H. apply fmt0_len; change (10 ^ 2) with 100; lia. Qed.

Lemma fmtsp2_len n : 0 <= n < 100 -> zlen (fmtsp 2 n) = 2.
Proof.
  intros H. unfold fmtsp. rewrite zlen_app, zrepeat_len. unfold sdec. destruct (Z.ltb_spec n 0); [lia|].
  pose proof (udec_len n 2). change (10 ^ 2) with 100 in *. lia.
Qed.

Lemma bytes_unle_take k l : bytes l -> 0 <= k -> 0 <= unle (ztake k l) < 256 ^ k.
Proof.
  intros Hb Hk. pose proof (unle_bound (ztake k l) (bytes_take k l Hb)) as H.
  assert (zlen (ztake k l) <= k) by (rewrite zlen_take by lia; lia).
  pose proof (Z.pow_le_mono_r 256 (zlen (ztake k l)) k). lia.
Qed.

(** ** The texts *)

Definition unix_time_text (w : Z) : list Z :=
  time_text 32 (gm_date (w / 86400)) (w mod 86400 / 3600) (w mod 3600 / 60) (w mod 60).

Definition time64_text (value : Z) : list Z :=
  let t := Z.quot value 1000 in
  date_text (gm_date (t / 86400)) ++ [32] ++ fmtsp 2 (t mod 86400 / 3600) ++ [58] ++ fmt0 2 (t mod 3600 / 60)
               ++ [58] ++ fmt0 2 (t mod 60) ++ [46] ++ fmt0 3 (Z.rem value 1000).

Lemma unix_time_text_len w : 0 <= w < 4294967296 -> zlen (unix_time_text w) <= 40.
Proof.
  intros H. unfold unix_time_text, time_text, clock_text. rewrite !zlen_app, !fmt2_len by lia.
  change (zlen [32]) with 1. change (zlen [58]) with 1.
  destruct (gm_date_bounds (w / 86400)) as (H1 & H2 & H3); [change (10 ^ 12) with 1000000000000; lia|].
  pose proof (date_text_len _ H1 H2 H3). lia.
Qed.

Lemma time64_text_len v : int64 v -> zlen (time64_text v) <= 50.
Proof.
  intros H. unfold int64 in H. unfold time64_text. cbv zeta. set (t := Z.quot v 1000).
  assert (Ht : -9223372036854776 <= t <= 9223372036854776) by (unfold t; lia).
  rewrite !zlen_app, !fmt2_len, fmtsp2_len by lia. change (zlen [32]) with 1. change (zlen [58]) with 1. change (zlen [46]) with 1.
  pose proof (fmt0_len_le 3 (Z.rem v 1000) 3 ltac:(lia)) as Hr. change (10 ^ 3) with 1000 in Hr.
  destruct (gm_date_bounds (t / 86400)) as (H1 & H2 & H3); [change (10 ^ 12) with 1000000000000; lia|].
  pose proof (date_text_len _ H1 H2 H3). lia.
Qed.

Lemma time64_cstring v : cstring (time64_text v).
Proof.
  unfold time64_text. cbv zeta.
  repeat first [apply fmt0_cstring | apply date_text_cstring | apply fmtsp_cstring
               | apply cstring_1; unfold is_cchar; lia | apply cstring_app; split].
Qed.

Lemma UnixDate2Str_text v t : int32 v -> UnixDate2Str v = Ok t -> t = date_text (gm_date v).
Proof.
  intros Hv H. assert (Hm : INT_MIN + 10957 <= v).
  { unfold UnixDate2Str in H. destruct (int32b (v - 10957)) eqn:E; cbn [negb] in H; [|discriminate H].
    unfold int32b in E. unfold INT_MIN. lia. }
  destruct (gm_date_ok v) as [H1 H2]. rewrite (UnixDate2Str_ok v (gm_date v) Hv Hm H1 H2) in H.
  destruct (last_of_leap_year (gm_date v)); [discriminate H|]. inversion H. reflexivity.
Qed.

(** Float texts: what is assumed of printf("%f"): no NUL, at most 255 characters. *)
Definition floats_ok (fl : floats) : Prop := forall w, cstring (f_print fl w) /\ zlen (f_print fl w) <= 255.

(** The types shown through a ring buffer. *)
Definition ring_types : list Z :=
  [XBT_INT32; XBT_INT32_DECI; XBT_INT32_CENTI; XBT_INT32_MILI; XBT_INT32_MICRO; XBT_INT32_NANO; XBT_UINT32;
   XBT_INT64; XBT_UINT64; XBT_FLOAT; XBT_UNIX_TIME; XBT_UNIX_DATE; XBT_UNIX_TIME64_MSEC; XBT_SHA1].

Lemma whole_len dst off t c : whole dst off t = Ok c -> zlen t < zlen dst -> zlen (ck_dst c) = zlen dst.
Proof.
  intros H Hl. unfold whole in H. inversion H; subst. cbn [ck_dst]. apply bput_len; [lia|].
  rewrite zlen_app. change (zlen [0]) with 1. lia.
Qed.

Lemma zeroed_len (dst : list Z) : 256 < zlen dst -> zlen (zrepeat 0 (zlen dst - 1) ++ [0]) = zlen dst.
Proof. intros H. rewrite zlen_app, zlen_repeat by lia. change (zlen [0]) with 1. lia. Qed.

Lemma s32_range x : int32 (s32 x).
Proof. unfold int32, s32. lia. Qed.
Lemma s64_range x : int64 (s64 x).
Proof. unfold int64, s64. lia. Qed.

Lemma chunk_len fl ty data dst c : floats_ok fl -> In ty ring_types -> bytes data -> 256 < zlen dst ->
  XBT_ToStringChunk fl ty data 0 dst = Ok c -> zlen (ck_dst c) = zlen dst.
Proof.
  intros Hfl Hin Hb Hd H.
  assert (Hop : zlen (opened dst) = zlen dst) by (apply opened_len, Hd).
  pose proof (bytes_unle_take 4 data Hb ltac:(lia)) as H4. change (256 ^ 4) with 4294967296 in H4.
  pose proof (bytes_unle_take 8 data Hb ltac:(lia)) as H8. change (256 ^ 8) with 18446744073709551616 in H8.
  unfold ring_types in Hin. cbn [In] in Hin.
  assert (Hfx : forall k, In (ty, k) fixed_types -> zlen (ck_dst c) = zlen dst).
  { intros k Hk. rewrite (chunk_fixed fl ty k) in H by assumption. cbv zeta in H.
    destruct (_ =? INT_MIN); [discriminate H|]. rewrite <- Hop. apply (whole_len _ _ _ _ H).
    pose proof (fixed_len k (s32 (unle (ztake 4 data))) (fixed_k _ _ Hk) (s32_range _)). lia. }
  destruct Hin as [E|[E|[E|[E|[E|[E|[E|[E|[E|[E|[E|[E|[E|[E|[]]]]]]]]]]]]]]]; subst ty.
  - rewrite chunk_int32 in H by assumption. rewrite <- Hop. apply (whole_len _ _ _ _ H).
    pose proof (s32_range (unle (ztake 4 data))) as R. unfold int32 in R.
    pose proof (sdec_len (s32 (unle (ztake 4 data))) 10 ltac:(lia)) as L. change (10 ^ 10) with 10000000000 in L. lia.
  - apply (Hfx 1). cbn; tauto.
  - apply (Hfx 2). cbn; tauto.
  - apply (Hfx 3). cbn; tauto.
  - apply (Hfx 6). cbn; tauto.
  - apply (Hfx 9). cbn; tauto.
  - rewrite chunk_uint32 in H by assumption. rewrite <- Hop. apply (whole_len _ _ _ _ H).
    pose proof (udec_len (unle (ztake 4 data)) 10) as L. change (10 ^ 10) with 10000000000 in L. lia.
  - rewrite chunk_int64 in H by assumption. cbv zeta in H. set (v := s64 _) in H.
    pose proof (s64_range (unle (ztake 8 data))) as R. fold v in R. unfold int64 in R.
    destruct (v =? 0).
    { inversion H; subst. cbn [ck_dst]. rewrite bput_len; rewrite ?Hop; [reflexivity|lia|change (zlen [48; 0]) with 2; lia]. }
    destruct (v =? -576460752303423488).
    { rewrite <- Hop. apply (whole_len _ _ _ _ H). change (zlen (lit "9223372036854775808")) with 19. lia. }
    destruct (v =? INT64_MIN); [discriminate H|].
    destruct (Z.eq_dec v 0) as [Ez|Ez].
    { rewrite Ez in H. change (dec_loop 38 (Z.abs 0) []) with (Some (@nil Z)) in H. change (0 <? 0) with false in H. cbv iota in H.
      destruct (number_delivers dst [] Hd ltac:(change (zlen (@nil Z)) with 0; lia)) as (c' & E' & _ & _ & _ & L). congruence. }
    rewrite dec_loop_udec in H by (change (10 ^ Z.of_nat 38) with 100000000000000000000000000000000000000; lia).
    assert (L : zlen (udec (Z.abs v)) <= 38).
    { apply udec_len; [|lia]. change (10 ^ 38) with 100000000000000000000000000000000000000. lia. }
    destruct (number_delivers dst (if v <? 0 then 45 :: udec (Z.abs v) else udec (Z.abs v)) Hd) as (c' & E' & _ & _ & _ & L').
    { destruct (v <? 0); rewrite ?zlen_cons; lia. }
    congruence.
  - rewrite chunk_uint64 in H by assumption. cbv zeta in H. set (v := unle _) in *.
    destruct (Z.eqb_spec v 0).
    { inversion H; subst. cbn [ck_dst]. rewrite bput_len; rewrite ?Hop; [reflexivity|lia|change (zlen [48; 0]) with 2; lia]. }
    rewrite dec_loop_udec in H by (change (10 ^ Z.of_nat 38) with 100000000000000000000000000000000000000; lia).
    assert (L : zlen (udec v) <= 38).
    { apply udec_len; [|lia]. change (10 ^ 38) with 100000000000000000000000000000000000000. lia. }
    destruct (number_delivers dst (udec v) Hd ltac:(lia)) as (c' & E' & _ & _ & _ & L'). congruence.
  - rewrite chunk_float in H by assumption. rewrite <- Hop. apply (whole_len _ _ _ _ H).
    destruct (Hfl (unle (ztake 4 data))). lia.
  - rewrite chunk_unix_time in H by assumption. cbv zeta in H. rewrite <- (zeroed_len dst) by assumption. apply (whole_len _ _ _ _ H).
    rewrite zeroed_len by assumption. pose proof (unix_time_text_len (unle (ztake 4 data)) ltac:(lia)). unfold unix_time_text in *. lia.
  - rewrite chunk_unix_date in H by assumption. destruct (UnixDate2Str (s32 (unle (ztake 4 data)))) as [t| |] eqn:E; [| |discriminate H].
    + rewrite <- Hop. apply (whole_len _ _ _ _ H). apply UnixDate2Str_text in E; [|apply s32_range]. subst t.
      pose proof (s32_range (unle (ztake 4 data))) as R. unfold int32 in R.
      destruct (gm_date_bounds (s32 (unle (ztake 4 data)))) as (H1 & H2 & H3); [change (10 ^ 12) with 1000000000000; lia|].
      pose proof (date_text_len _ H1 H2 H3). lia.
    + inversion H; subst. exact Hop.
  - rewrite chunk_time64 in H by assumption. cbv zeta in H. rewrite <- (zeroed_len dst) by assumption. apply (whole_len _ _ _ _ H).
    rewrite zeroed_len by assumption. pose proof (time64_text_len (s64 (unle (ztake 8 data))) (s64_range _)) as L. unfold time64_text in L. cbv zeta in L. lia.
  - rewrite chunk_sha1 in H by assumption. inversion H; subst. cbn [ck_dst]. rewrite bput_len; rewrite ?Hop; [reflexivity|lia|].
    rewrite zlen_app, Hex2Str_length, zlen_take by lia. change (zlen [0]) with 1. lia.
Qed.

(** ** Histories *)

Record call := mkcall { cl_type : Z; cl_data : list Z; cl_out : list Z }.

Fixpoint run_calls (fl : floats) (h : list call) (st : ring) : outcome ring :=
  match h with
  | [] => Ok st
  | c :: h' => obind (XBT_ToString fl (cl_type c) (cl_data c) (cl_out c) st) (fun '(_, st') => run_calls fl h' st')
  end.

Definition ring_ok (st : ring) : Prop :=
  zlen (rg_bufs st) = 64 /\ Forall (fun b => zlen b = 257) (rg_bufs st) /\ 0 <= rg_idx st < 64.

Lemma ring0_ok : ring_ok ring0.
Proof.
  unfold ring_ok, ring0. cbn [rg_bufs rg_idx]. split; [reflexivity|]. split; [|lia].
  apply Forall_forall. intros b Hb. apply repeat_spec in Hb. subst. apply zlen_repeat. lia.
Qed.

Lemma set_nth_len {A} (l : list A) i x : 0 <= i < zlen l -> zlen (set_nth l i x) = zlen l.
Proof. intros H. unfold set_nth. rewrite !zlen_app, zlen_take, zlen_skip by lia. change (zlen [x]) with 1. lia. Qed.

Lemma Forall_ztake {A} (P : A -> Prop) n l : Forall P l -> Forall P (ztake n l).
Proof. intros H. rewrite <- (ztake_zskip n l) in H. apply Forall_app in H. tauto. Qed.
Lemma Forall_zskip {A} (P : A -> Prop) n l : Forall P l -> Forall P (zskip n l).
Proof. intros H. rewrite <- (ztake_zskip n l) in H. apply Forall_app in H. tauto. Qed.

Lemma set_nth_Forall {A} (P : A -> Prop) l i x : Forall P l -> P x -> Forall P (set_nth l i x).
Proof.
  intros Hl Hx. unfold set_nth. apply Forall_app. split; [apply Forall_ztake, Hl|].
  constructor; [exact Hx|apply Forall_zskip, Hl].
Qed.

Lemma set_nth_same {A} (l : list A) i x d : 0 <= i < zlen l -> nth (Z.to_nat i) (set_nth l i x) d = x.
Proof.
  intros H. unfold set_nth. rewrite app_nth2.
  - assert (L : List.length (ztake i l) = Z.to_nat i) by (unfold ztake, zlen in *; rewrite firstn_length; lia).
    rewrite L, Nat.sub_diag. reflexivity.
  - unfold ztake. rewrite firstn_length. lia.
Qed.

Lemma nth_skipn_ {A} (l : list A) n m d : nth m (skipn n l) d = nth (n + m) l d.
Proof. revert l; induction n as [|n IH]; intros l; [reflexivity|]. destruct l; [destruct m; reflexivity|]. apply IH. Qed.

Lemma nth_firstn_ {A} (l : list A) n m d : (m < n)%nat -> nth m (firstn n l) d = nth m l d.
Proof. revert l m; induction n as [|n IH]; intros l m H; [lia|]. destruct l; [reflexivity|]. destruct m; [reflexivity|]. cbn [firstn nth]. apply IH. lia. Qed.

Lemma set_nth_other {A} (l : list A) i j x d : 0 <= i < zlen l -> 0 <= j -> i <> j ->
  nth (Z.to_nat j) (set_nth l i x) d = nth (Z.to_nat j) l d.
Proof.
  intros Hi Hj Hne. unfold set_nth, ztake, zskip.
  assert (L : List.length (firstn (Z.to_nat i) l) = Z.to_nat i) by (unfold zlen in *; rewrite firstn_length; lia).
  destruct (Z.lt_ge_cases j i).
  - rewrite app_nth1 by lia. apply nth_firstn_. lia.
  - rewrite app_nth2 by lia. rewrite L. replace (Z.to_nat j - Z.to_nat i)%nat with (S (Z.to_nat j - Z.to_nat i - 1)) by lia.
    cbn [app nth]. rewrite nth_skipn_. f_equal. lia.
Qed.

Lemma GUID2Str_len l : zlen (GUID2Str l) <= 36.
Proof.
  unfold GUID2Str. cbv zeta. rewrite !zlen_app. change (zlen [45]) with 1. unfold zlen. rewrite !firstn_length. lia.
Qed.

(** One call: it shows a text and moves on; only the slot it used changes. *)
Lemma ToString_ring fl ty data out st s st' :
  floats_ok fl -> bytes data -> ring_ok st -> XBT_ToString fl ty data out st = Ok (s, st') ->
  ring_ok st' /\
  (st' = st \/ rg_idx st' = (rg_idx st + 1) mod 64 /\
     forall j, 0 <= j < 64 -> j <> rg_idx st -> nth (Z.to_nat j) (rg_bufs st') [] = nth (Z.to_nat j) (rg_bufs st) []) /\
  (forall i, s = Slot i -> i = rg_idx st /\ rg_idx st' = (rg_idx st + 1) mod 64).
Proof.
  intros Hfl Hb (HL & HF & HI) H. unfold XBT_ToString in H. cbv zeta in H.
  set (i := rg_idx st) in *.
  assert (Hnext : (if 64 <=? i + 1 then 0 else i + 1) = (i + 1) mod 64) by (destruct (Z.leb_spec 64 (i + 1)); lia).
  rewrite Hnext in H.
  assert (Hbuf : zlen (nth (Z.to_nat i) (rg_bufs st) []) = 257).
  { rewrite Forall_forall in HF. apply HF. apply nth_In. unfold zlen in HL. lia. }
  assert (Hslot : forall buf, zlen buf = 257 ->
     let st1 := mkring (set_nth (rg_bufs st) i buf) ((i + 1) mod 64) in
     ring_ok st1 /\ (st1 = st \/ rg_idx st1 = (i + 1) mod 64 /\
       forall j, 0 <= j < 64 -> j <> i -> nth (Z.to_nat j) (rg_bufs st1) [] = nth (Z.to_nat j) (rg_bufs st) [])).
  { intros buf Hl. cbv zeta. split.
    - unfold ring_ok. cbn [rg_bufs rg_idx]. rewrite set_nth_len by lia. split; [exact HL|]. split; [|lia].
      apply set_nth_Forall; assumption.
    - right. split; [reflexivity|]. intros j Hj Hne. cbn [rg_bufs]. apply set_nth_other; lia. }
  assert (Hsame : ring_ok st) by (unfold ring_ok; auto).
  destruct (ty =? XBT_NULL). { inversion H; subst. split; [assumption|]. split; [auto|intros ? [=]]. }
  destruct (ty =? XBT_STRING). { inversion H; subst. split; [assumption|]. split; [auto|intros ? [=]]. }
  destruct (ty =? XBT_GUID).
  { inversion H; subst. destruct (Hslot (bput (nth (Z.to_nat i) (rg_bufs st) []) 0 (GUID2Str (ztake 16 data) ++ [0]))) as [A B].
    - rewrite bput_len; [exact Hbuf|lia|]. rewrite zlen_app, Hbuf. change (zlen [0]) with 1. pose proof (GUID2Str_len (ztake 16 data)). lia.
    - split; [exact A|]. split; [exact B|]. intros k [= <-]. split; reflexivity. }
  destruct (isin ty _) eqn:Ein.
  { apply isin_true in Ein.
    destruct (XBT_ToStringChunk fl ty data 0 _) as [c| |] eqn:Ec; cbn [obind] in H; [|discriminate H|discriminate H].
    inversion H; subst. destruct (Hslot (ck_dst c)) as [A B].
    - rewrite <- Hbuf. apply (chunk_len fl ty data _ c); try assumption. lia.
    - split; [exact A|]. split; [exact B|]. intros k [= <-]. split; reflexivity. }
  destruct (ty =? XBT_BLOB_STRING).
  { destruct (_ =? 0); inversion H; subst; (split; [assumption|]; split; [auto|intros ? [=]]). }
  destruct (ty =? XBT_BLOB).
  { destruct (_ =? 0); [inversion H; subst; split; [assumption|]; split; [auto|intros ? [=]]|].
    destruct (base64_encode _ _) as [t0 term]. inversion H; subst. split; [assumption|]. split; [auto|intros ? [=]]. }
  destruct (ty =? XBT_HEX).
  { destruct (_ =? 0); inversion H; subst; (split; [assumption|]; split; [auto|intros ? [=]]). }
  inversion H; subst. split; [assumption|]. split; [auto|intros ? [=]].
Qed.

Lemma run_calls_ok fl h st st' : floats_ok fl -> Forall (fun c => bytes (cl_data c)) h -> ring_ok st ->
  run_calls fl h st = Ok st' -> ring_ok st'.
Proof.
  intros Hfl. revert st. induction h as [|c h IH]; intros st Hh Hst H; cbn [run_calls] in H.
  - inversion H; subst. exact Hst.
  - inversion Hh as [|? ? Hc Hh']; subst.
    destruct (XBT_ToString fl (cl_type c) (cl_data c) (cl_out c) st) as [[s st1]| |] eqn:E; cbn [obind] in H; [|discriminate H|discriminate H].
    apply (IH st1 Hh'); [|exact H]. apply (ToString_ring _ _ _ _ _ _ _ Hfl Hc Hst E).
Qed.

(** A slot survives 63 further calls. *)
Lemma slot_survives fl h st st' j : floats_ok fl -> Forall (fun c => bytes (cl_data c)) h -> ring_ok st ->
  run_calls fl h st = Ok st' -> (List.length h <= 63)%nat -> 0 <= j < 64 ->
  (forall n, 0 <= n < zlen h -> (rg_idx st + n) mod 64 <> j) ->
  nth (Z.to_nat j) (rg_bufs st') [] = nth (Z.to_nat j) (rg_bufs st) [].
Proof.
  intros Hfl. revert st. induction h as [|c h IH]; intros st Hh Hst H Hl Hj Hn; cbn [run_calls] in H.
  - inversion H; subst. reflexivity.
  - inversion Hh as [|? ? Hc Hh']; subst.
    destruct (XBT_ToString fl (cl_type c) (cl_data c) (cl_out c) st) as [[s st1]| |] eqn:E; cbn [obind] in H; [|discriminate H|discriminate H].
    destruct (ToString_ring _ _ _ _ _ _ _ Hfl Hc Hst E) as (Hok & Hcase & _).
    assert (Hi : 0 <= rg_idx st < 64) by (destruct Hst as (_ & _ & ?); assumption).
    cbn [List.length] in Hl.
    pose proof (zlen_nonneg h).
    destruct Hcase as [->|[Hidx Hother]].
    + rewrite (IH st Hh' Hst H); [reflexivity|lia|exact Hj|]. intros n Hnn. apply Hn. rewrite zlen_cons. lia.
    + rewrite (IH st1 Hh' Hok H); [|lia|exact Hj|].
      * apply Hother; [exact Hj|]. specialize (Hn 0). rewrite zlen_cons in Hn. rewrite Z.add_0_r, Z.mod_small in Hn by lia. intros ->. apply Hn; lia.
      * intros n Hnn. rewrite Hidx. specialize (Hn (1 + n)). rewrite zlen_cons in Hn.
        replace (((rg_idx st + 1) mod 64 + n) mod 64) with ((rg_idx st + (1 + n)) mod 64); [apply Hn; lia|].
        rewrite Zplus_mod_idemp_l. f_equal. lia.
Qed.
