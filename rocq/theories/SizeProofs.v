(** The reserve of resizable strings, and copying of values. *)
From Verif Require Import Base BaseFacts Types ListFacts.

(** The sizes of reserves: powers of two from 16 on, and three quarters of them from 24 on. *)
Definition reserve (s : Z) : Prop := exists k, 0 <= k /\ (s = 16 * 2 ^ k \/ s = 24 * 2 ^ k).

Lemma double_until_ok length : length <= 2 ^ 30 -> forall fuel a, 0 <= a <= 30 -> (Z.to_nat (30 - a) <= fuel)%nat ->
  exists b, a <= b <= 30 /\ double_until fuel (2 ^ a) length = Ok (2 ^ b) /\ length <= 2 ^ b /\ (a < b -> 2 ^ (b - 1) < length).
Proof.
  intros Hl. induction fuel as [|f IH]; intros a Ha Hf.
  - assert (a = 30) by lia. subst a. exists 30. split; [lia|]. cbn [double_until]. destruct (Z.ltb_spec (2 ^ 30) length); [lia|].
    split; [reflexivity|]. split; lia.
  - cbn [double_until]. destruct (Z.ltb_spec (2 ^ a) length) as [H|H].
    + assert (a < 30). { destruct (Z.eq_dec a 30) as [->|]; lia. }
      assert (Hp : 2 ^ a * 2 = 2 ^ (a + 1)) by (rewrite Z.pow_add_r by lia; lia).
      assert (2 ^ (a + 1) <= 2 ^ 30) by (apply Z.pow_le_mono_r; lia).
      destruct (Z.ltb_spec INT_MAX (2 ^ a * 2)) as [H3|_]; [rewrite Hp in H3; unfold INT_MAX in H3; change (2 ^ 30) with 1073741824 in *; lia|].
      rewrite Hp. destruct (IH (a + 1) ltac:(lia) ltac:(lia)) as (b & B1 & B2 & B3 & B4).
      exists b. split; [lia|]. split; [exact B2|]. split; [exact B3|]. intros _.
      destruct (Z.eq_dec b (a + 1)) as [->|]; [replace (a + 1 - 1) with a by lia; exact H|apply B4; lia].
    + exists a. split; [lia|]. split; [reflexivity|]. split; [lia|lia].
Qed.

Lemma pow2_lt a b : 0 <= b -> 2 ^ a < 2 ^ b -> a < b.
Proof. intros Hb H. apply Z.pow_lt_mono_r_iff with (a := 2); lia. Qed.

Lemma blob_string_reserve n : 0 <= n < 2 ^ 30 ->
  exists s, XBT_GetBLOB_STRING_Size n = Ok s /\ reserve s /\ n + 1 <= s /\ s <= 2 ^ 30 /\ (forall s', reserve s' -> n + 1 <= s' -> s <= s').
Proof.
  intros Hn. change (2 ^ 30) with 1073741824 in Hn. unfold XBT_GetBLOB_STRING_Size. destruct (Z.ltb_spec INT_MAX (n + 1)) as [H|_]; [unfold INT_MAX in H; lia|].
  cbv zeta. assert (Hmin : forall s', reserve s' -> 16 <= s').
  { intros s' (k & Hk & Hs). assert (1 <= 2 ^ k) by (change 1 with (2 ^ 0); apply Z.pow_le_mono_r; lia). lia. }
  destruct (Z.leb_spec (n + 1) 16).
  - exists 16. split; [reflexivity|]. split; [exists 0; split; [lia|left; reflexivity]|]. split; [lia|].
    split; [change (2 ^ 30) with 1073741824; lia|]. intros s' Hs' _. apply Hmin, Hs'.
  - destruct (double_until_ok (n + 1) ltac:(change (2 ^ 30) with 1073741824; lia) 31 4 ltac:(lia) ltac:(lia)) as (b & Hb & E & Hge & Hlt).
    change (2 ^ 4) with 16 in E. rewrite E. cbn [obind].
    assert (Hb5 : 5 <= b). { destruct (Z.eq_dec b 4) as [->|]; [change (2 ^ 4) with 16 in Hge; lia|lia]. }
    assert (Hp : 2 ^ b = 32 * 2 ^ (b - 5)).
    { replace b with (5 + (b - 5)) at 1 by lia. rewrite Z.pow_add_r by lia. reflexivity. }
    assert (Hp1 : 2 ^ (b - 1) = 16 * 2 ^ (b - 5)).
    { replace (b - 1) with (4 + (b - 5)) by lia. rewrite Z.pow_add_r by lia. reflexivity. }
    specialize (Hlt ltac:(lia)). rewrite shr_div by lia. change (2 ^ 2) with 4.
    set (p := 2 ^ (b - 5)) in *. assert (0 < p) by (apply Z.pow_pos_nonneg; lia).
    replace (2 ^ b - 2 ^ b / 4) with (24 * p) by lia.
    assert (Hcap : 2 ^ b <= 2 ^ 30) by (apply Z.pow_le_mono_r; lia).
    (* any reserve above 16 p is at least 24 p, any above 24 p at least 32 p *)
    assert (Hgap : forall s', reserve s' -> (16 * p < s' -> 24 * p <= s') /\ (24 * p < s' -> 32 * p <= s')).
    { intros s' (k & Hk & Hs'). set (q := 2 ^ k) in *. assert (0 < q) by (apply Z.pow_pos_nonneg; lia).
      assert (Hpq : q <= p \/ 2 * p <= q).
      { destruct (Z.le_gt_cases k (b - 5)); [left; apply Z.pow_le_mono_r; lia|right].
        unfold p, q. replace k with (1 + (b - 5) + (k - 1 - (b - 5))) by lia. rewrite !Z.pow_add_r by lia.
        assert (0 < 2 ^ (b - 5)) by (apply Z.pow_pos_nonneg; lia).
        assert (1 <= 2 ^ (k - 1 - (b - 5))) by (change 1 with (2 ^ 0); apply Z.pow_le_mono_r; lia). nia. }
      assert (Hpq' : 2 * q <= p \/ p <= q).
      { destruct (Z.le_gt_cases (b - 5) k); [right; apply Z.pow_le_mono_r; lia|left].
        unfold p, q. replace (b - 5) with (1 + k + (b - 5 - 1 - k)) by lia. rewrite !Z.pow_add_r by lia.
        assert (0 < 2 ^ k) by (apply Z.pow_pos_nonneg; lia).
        assert (1 <= 2 ^ (b - 5 - 1 - k)) by (change 1 with (2 ^ 0); apply Z.pow_le_mono_r; lia). nia. }
      lia. }
    destruct (Z.leb_spec (n + 1) (24 * p)) as [Hq|Hq].
    + exists (24 * p). split; [reflexivity|]. split; [exists (b - 5); split; [lia|right; reflexivity]|]. split; [exact Hq|]. split; [lia|].
      intros s' Hs' Hle. apply (Hgap s' Hs'). lia.
    + exists (2 ^ b). split; [reflexivity|]. split; [exists (b - 4); split; [lia|left]|].
      { replace b with (4 + (b - 4)) at 1 by lia. rewrite Z.pow_add_r by lia. reflexivity. }
      split; [exact Hge|]. split; [exact Hcap|]. intros s' Hs' Hle. rewrite Hp. apply (Hgap s' Hs'). lia.
Qed.

Lemma blob_string_monotone n m s t : 0 <= n <= m -> m < 2 ^ 30 ->
  XBT_GetBLOB_STRING_Size n = Ok s -> XBT_GetBLOB_STRING_Size m = Ok t -> s <= t.
Proof.
  intros Hn Hm Es Et. destruct (blob_string_reserve n ltac:(lia)) as (s' & E1 & _ & _ & _ & Hmin).
  destruct (blob_string_reserve m ltac:(lia)) as (t' & E2 & R & G & _). rewrite E1 in Es. rewrite E2 in Et. inversion Es; inversion Et; subst.
  apply Hmin; [exact R|lia].
Qed.

Lemma blob_string_thrifty n s : 16 <= n < 2 ^ 30 -> XBT_GetBLOB_STRING_Size n = Ok s -> 2 * s <= 3 * n.
Proof.
  intros Hn E. destruct (blob_string_reserve n ltac:(lia)) as (s' & E1 & _ & _ & _ & Hmin). rewrite E1 in E. inversion E; subst s'. clear E E1.
  (* the next reserve above n is at most half as much again *)
  set (k := Z.log2 n). pose proof (Z.log2_spec n ltac:(lia)) as Hk. fold k in Hk. destruct Hk as [Hk1 Hk2].
  assert (Hk4 : 4 <= k). { apply Z.log2_le_pow2; [lia|]. change (2 ^ 4) with 16. lia. }
  assert (Hp : 2 ^ k = 16 * 2 ^ (k - 4)) by (replace k with (4 + (k - 4)) at 1 by lia; rewrite Z.pow_add_r by lia; reflexivity).
  rewrite Z.pow_succ_r in Hk2 by lia.
  destruct (Z.le_gt_cases (n + 1) (24 * 2 ^ (k - 4))).
  - assert (s <= 24 * 2 ^ (k - 4)) by (apply Hmin; [exists (k - 4); split; [lia|right; reflexivity]|lia]). lia.
  - assert (s <= 16 * 2 ^ (k - 3)).
    { apply Hmin; [exists (k - 3); split; [lia|left; reflexivity]|]. replace (k - 3) with (1 + (k - 4)) by lia. rewrite Z.pow_add_r by lia. change (2 ^ 1) with 2. lia. }
    replace (k - 3) with (1 + (k - 4)) in * by lia. rewrite Z.pow_add_r in * by lia. change (2 ^ 1) with 2 in *. lia.
Qed.

Lemma blob_string_too_long n : 2 ^ 30 <= n <= INT_MAX -> XBT_GetBLOB_STRING_Size n = Ub.
Proof.
  intros Hn. change (2 ^ 30) with 1073741824 in Hn. unfold XBT_GetBLOB_STRING_Size. destruct (INT_MAX <? n + 1); [reflexivity|]. cbv zeta.
  destruct (Z.leb_spec (n + 1) 16); [lia|].
  assert (H1 : forall fuel a, 0 <= a <= 30 -> (30 - a < Z.of_nat fuel) -> double_until fuel (2 ^ a) (n + 1) = Ub).
  { induction fuel as [|f IH]; intros a Ha Hf; [lia|]. cbn [double_until].
    assert (2 ^ a <= 2 ^ 30) by (apply Z.pow_le_mono_r; lia). change (2 ^ 30) with 1073741824 in *.
    destruct (Z.ltb_spec (2 ^ a) (n + 1)); [|lia].
    destruct (Z.ltb_spec INT_MAX (2 ^ a * 2)) as [_|H2]; [reflexivity|].
    replace (2 ^ a * 2) with (2 ^ (a + 1)) by (rewrite Z.pow_add_r by lia; lia). apply IH; [|lia].
    destruct (Z.eq_dec a 30) as [->|]; [unfold INT_MAX in H2; change (2 ^ 30) with 1073741824 in H2; lia|lia]. }
  change 16 with (2 ^ 4). rewrite (H1 31%nat 4) by lia. reflexivity.
Qed.

(** ** Copying (C15) *)

(** The value lies inside [wp, limit) and the write position ends up right behind it. *)
Definition inside (wp limit : Z) (r : stored) : Prop :=
  wp <= st_pos r /\ st_pos r + zlen (st_bytes r) <= limit /\ st_wp r = st_pos r + zlen (st_bytes r).

Lemma Align_cases ty : XBT_Align ty = 0 \/ XBT_Align ty = 4 \/ XBT_Align ty = 8.
Proof. unfold XBT_Align. destruct (isin ty _); [auto|]. destruct (isin ty _); auto. Qed.

Lemma align_up_bound a x : 0 < a -> x <= align_up a x < x + a.
Proof. intros Ha. unfold align_up. pose proof (Z.div_mod (x + a - 1) a). pose proof (Z.mod_pos_bound (x + a - 1) a). nia. Qed.
Lemma align_up_aligned a x : 0 < a -> align_up a x mod a = 0.
Proof. intros Ha. unfold align_up. apply Z.mod_mul. lia. Qed.

Lemma copy_aligned src ty size wp limit r : XBT_Align ty <> 0 -> XBT_Copy src ty size wp limit = Ok r ->
  inside wp limit r /\ st_pos r mod XBT_Align ty = 0 /\ st_pos r < wp + XBT_Align ty /\
  Ok (zlen (st_bytes r)) = XBT_Size2 ty size /\ exists rest, src = st_bytes r ++ rest.
Proof.
  intros Ha H. unfold XBT_Copy in H. destruct (XBT_Size2 ty size) as [v| |] eqn:E; cbn [obind] in H; try discriminate.
  destruct (Z.ltb_spec (limit - wp) (v + XBT_Align ty)) as [|Hroom]; [discriminate|].
  destruct (Z.eqb_spec ty XBT_STRING) as [->|Hty]; [exfalso; apply Ha; reflexivity|].
  assert (HA : XBT_Align ty = 4 \/ XBT_Align ty = 8) by (pose proof (Align_cases ty); tauto).
  replace ((XBT_Align ty =? 4) || (XBT_Align ty =? 8)) with true in H by lia. cbv zeta in H.
  destruct ((v <? 0) || (zlen src <? v)) eqn:Hv; [discriminate|]. inversion H; subst r. cbn [st_pos st_bytes st_wp].
  assert (Hl : zlen (ztake v src) = v) by (rewrite zlen_take; lia).
  unfold inside. cbn [st_pos st_bytes st_wp]. rewrite Hl.
  destruct HA as [HA|HA]; rewrite HA in *; unfold align_to; cbn [Z.eqb];
    [change (4 =? 4) with true|change (8 =? 4) with false; change (8 =? 8) with true]; cbv iota;
    match goal with |- context [align_up ?a wp] => pose proof (align_up_bound a wp ltac:(lia)); pose proof (align_up_aligned a wp ltac:(lia)) end;
    (split; [lia|]; split; [assumption|]; split; [lia|]; split; [reflexivity|]; exists (zskip v src); symmetry; apply ztake_zskip).
Qed.

Lemma copy_string s rest size wp limit r : cstring s -> zlen s <= size ->
  XBT_Copy (s ++ 0 :: rest) XBT_STRING size wp limit = Ok r ->
  st_pos r = wp /\ st_bytes r = s ++ [0] /\ wp + zlen (st_bytes r) <= limit /\ (size = zlen s -> inside wp limit r).
Proof.
  intros Hs Hsz H. unfold XBT_Copy in H. change (XBT_Size2 XBT_STRING size) with (Ok (size + 1)) in H. cbn [obind] in H.
  change (XBT_Align XBT_STRING) with 0 in H. destruct (Z.ltb_spec (limit - wp) (size + 1 + 0)) as [|Hroom]; [discriminate|].
  change (XBT_STRING =? XBT_STRING) with true in H. cbv iota in H. rewrite cstr_app in H by assumption.
  destruct (zlen s =? zlen (s ++ 0 :: rest)); [discriminate|]. inversion H; subst r. unfold inside. cbn [st_pos st_bytes st_wp].
  rewrite zlen_app, zlen_cons. change (zlen (@nil Z)) with 0. repeat split; lia.
Qed.

(** The copy is refused only for want of room: [need] bytes and the largest possible padding. *)
Lemma copy_works src ty size need wp limit : XBT_Align ty <> 0 -> XBT_Size2 ty size = Ok need -> 0 <= need <= zlen src ->
  (limit - wp < need + XBT_Align ty /\ XBT_Copy src ty size wp limit = Fail) \/ exists r, XBT_Copy src ty size wp limit = Ok r.
Proof.
  intros Ha E Hn. unfold XBT_Copy. rewrite E. cbn [obind]. destruct (Z.ltb_spec (limit - wp) (need + XBT_Align ty)); [left; split; [assumption|reflexivity]|right].
  destruct (Z.eqb_spec ty XBT_STRING) as [->|Hty]; [exfalso; apply Ha; reflexivity|].
  assert (HA : XBT_Align ty = 4 \/ XBT_Align ty = 8) by (pose proof (Align_cases ty); tauto).
  replace ((XBT_Align ty =? 4) || (XBT_Align ty =? 8)) with true by lia. cbv zeta.
  replace ((need <? 0) || (zlen src <? need)) with false by lia. eexists. reflexivity.
Qed.

(** Bad: a string with the content size 0, as the creator gives it (src/bin_xml_creator.cpp:949),
    is written past the limit, and the write position ends inside it. *)
Lemma copy_string_past_limit : exists src r, XBT_Copy src XBT_STRING 0 0 1 = Ok r /\ 1 < st_pos r + zlen (st_bytes r) /\ st_wp r < st_pos r + zlen (st_bytes r).
Proof. exists (lit "hello" ++ [0]). eexists. split; [vm_compute; reflexivity|]. split; vm_compute; reflexivity. Qed.

(** Bad: a VARIANT "succeeds" and moves the write position back. *)
Lemma copy_variant_backwards src size wp limit : wp <= limit -> exists r, XBT_Copy src XBT_VARIANT size wp limit = Ok r /\ st_wp r = wp - 1.
Proof.
  intros H. unfold XBT_Copy. change (XBT_Size2 XBT_VARIANT size) with (Ok (-1)). cbn [obind].
  change (XBT_Align XBT_VARIANT) with 0. destruct (Z.ltb_spec (limit - wp) (-1 + 0)); [lia|].
  eexists. split; [reflexivity|]. cbn [st_wp]. lia.
Qed.

(** Bad: a wrong content size asks memcpy for 2^64-1 bytes. *)
Lemma copy_wrong_size src size wp limit : size <> 0 -> size <> 4 -> wp + 3 <= limit -> XBT_Copy src XBT_INT32 size wp limit = Ub.
Proof.
  intros H0 H4 Hl. unfold XBT_Copy.
  replace (XBT_Size2 XBT_INT32 size) with (@Ok Z (-1)).
  2: { change (XBT_Size2 XBT_INT32 size) with (Ok (if (size =? 0) || (size =? 4) then 4 else -1)).
       replace ((size =? 0) || (size =? 4)) with false by lia. reflexivity. }
  cbn [obind]. change (XBT_Align XBT_INT32) with 4. destruct (Z.ltb_spec (limit - wp) (-1 + 4)); [lia|].
  change (XBT_INT32 =? XBT_STRING) with false. cbv iota. reflexivity.
Qed.

(** Bad: a SHA1 of 20 bytes is read as 24. *)
Lemma copy_sha1_overread src wp limit : zlen src = 20 -> wp + 28 <= limit -> XBT_Copy src XBT_SHA1 20 wp limit = Ub.
Proof.
  intros Hs Hl. unfold XBT_Copy. change (XBT_Size2 XBT_SHA1 20) with (@Ok Z 24). cbn [obind]. change (XBT_Align XBT_SHA1) with 4.
  destruct (Z.ltb_spec (limit - wp) (24 + 4)); [lia|]. change (XBT_SHA1 =? XBT_STRING) with false. cbv iota.
  change ((4 =? 4) || (4 =? 8)) with true. cbv iota zeta. rewrite Hs. reflexivity.
Qed.
