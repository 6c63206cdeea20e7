From Verif Require Import Base BaseFacts Scan Base64 Base64Spec Base64Proofs ScanProofs Types OutBuf OutBufSpec.

Lemma s32_small x : 0 <= x <= INT_MAX -> s32 x = x.
Proof. unfold s32, INT_MAX. intros H. rewrite Z.mod_small; lia. Qed.

(** ** The buffer *)
Lemma buffer_enough have want : 0 <= have -> want <= INT_MAX - 8192 -> exists h, XBT_Buffer have want = Ok h /\ want <= h /\ have <= h.
Proof.
  intros H W. unfold XBT_Buffer. destruct (Z.leb_spec want have); [exists have; repeat split; lia|]. pose proof (Z.div_mod want 4096). pose proof (Z.mod_pos_bound want 4096).
  rewrite (proj2 (Z.leb_le _ _)) by (unfold INT_MAX in *; lia). eexists. split; [reflexivity|]. lia.
Qed.
Lemma requests_enough wants : forall have, 0 <= have -> Forall (fun w => w <= INT_MAX - 8192) wants -> exists h, requests have wants = Ok h /\ have <= h /\ Forall (fun w => w <= h) wants.
Proof.
  induction wants as [|w r IH]; intros have H F; [exists have; repeat split; [lia|constructor]|]. inversion F as [|? ? W F']; subst. destruct (buffer_enough have w H W) as (h & E & W1 & W2). destruct (IH h ltac:(lia) F') as (h' & E' & L & A).
  exists h'. cbn. rewrite E. cbn. split; [exact E'|]. split; [lia|]. constructor; [lia|exact A].
Qed.
Lemma hex_lines_length : forall fuel l, (List.length l <= 16 * fuel)%nat -> zlen (hex_lines fuel l) = 2 * zlen l + (zlen l + 15) / 16.
Proof.
  induction fuel as [|k IH]; intros l L; [destruct l; [reflexivity|cbn in L; lia]|]. cbn [hex_lines]. destruct l as [|b r]; [reflexivity|]. set (l := b :: r) in *.
  rewrite !zlen_app, Hex2Str_length. rewrite IH by (rewrite skipn_length; lia). change (zlen [10]) with 1.
  assert (L0 : 0 < zlen l) by (unfold l; rewrite zlen_cons; pose proof (zlen_nonneg r); lia). unfold zlen in *. rewrite firstn_length, skipn_length.
  destruct (Nat.le_gt_cases (List.length l) 16) as [Q|Q].
  - replace (List.length l - 16)%nat with 0%nat by lia. rewrite Nat.min_r by lia. change (Z.of_nat 0) with 0. replace ((Z.of_nat (List.length l) + 15) / 16) with 1 by (apply Z.div_unique with (Z.of_nat (List.length l) - 1); lia). change ((0 + 15) / 16) with 0. lia.
  - rewrite Nat.min_l by lia. replace (Z.of_nat (List.length l) + 15) with (Z.of_nat (List.length l - 16) + 15 + 1 * 16) by lia. rewrite Z.div_add by lia. lia.
Qed.
Lemma hex_fits have l : 0 <= have -> hex_room (zlen l) = zlen l * 2 + zlen l / 16 + 2 -> hex_room (zlen l) <= INT_MAX - 8192 ->
  exists h, XBT_Buffer have (hex_room (zlen l)) = Ok h /\ have <= h /\ zlen (hex_lines (S (Z.to_nat (zlen l / 16))) l) + 1 <= h.
Proof.
  intros H R W. destruct (buffer_enough have _ H W) as (h & E & W1 & W2). exists h. split; [exact E|]. split; [exact W2|].
  pose proof (zlen_nonneg l). pose proof (Z.div_mod (zlen l) 16). pose proof (Z.mod_pos_bound (zlen l) 16). pose proof (Z.div_pos (zlen l) 16). rewrite hex_lines_length by (unfold zlen in *; lia).
  pose proof (Z.div_mod (zlen l + 15) 16). pose proof (Z.mod_pos_bound (zlen l + 15) 16). lia.
Qed.
Lemma hex_fits_all have l : 0 <= have -> zlen l <= 1041200000 -> exists h, XBT_Buffer have (hex_room (zlen l)) = Ok h /\ have <= h /\ zlen (hex_lines (S (Z.to_nat (zlen l / 16))) l) + 1 <= h.
Proof.
  intros H L. pose proof (zlen_nonneg l). assert (D : 0 <= zlen l / 16 <= 65075000) by (pose proof (Z.div_mod (zlen l) 16); pose proof (Z.mod_pos_bound (zlen l) 16); lia).
  assert (R : hex_room (zlen l) = zlen l * 2 + zlen l / 16 + 2) by (apply s32_small; unfold INT_MAX; lia). apply hex_fits; [exact H|exact R|rewrite R; unfold INT_MAX; lia].
Qed.
Lemma blob_fits_all have l : bytes l -> 0 <= have -> zlen l <= 1610000000 -> exists h, XBT_Buffer have (blob_room (zlen l)) = Ok h /\ have <= h /\
  let '(t, ended) := base64_encode l (blob_room (zlen l)) in t = b64_text l /\ zlen (t ++ if ended then [0] else []) <= h.
Proof.
  intros B H L. pose proof (zlen_nonneg l). pose proof (Z.div_mod (zlen l) 3). pose proof (Z.mod_pos_bound (zlen l) 3).
  assert (R : blob_room (zlen l) = zlen l / 3 * 4 + 5) by (apply s32_small; unfold INT_MAX; lia). destruct (buffer_enough have (blob_room (zlen l)) H) as (h & E & W1 & W2); [rewrite R; unfold INT_MAX; lia|].
  exists h. split; [exact E|]. split; [exact W2|]. pose proof (b64_text_length l). pose proof (Z.div_mod (zlen l + 2) 3). pose proof (Z.mod_pos_bound (zlen l + 2) 3).
  rewrite base64_encode_spec by (exact B || lia). split; [reflexivity|]. rewrite zlen_app. destruct (Z.ltb_spec 1 (blob_room (zlen l) - zlen (b64_text l))); [change (zlen [0]) with 1|change (zlen []) with 0]; lia.
Qed.
(** From about a gigabyte on the size is negative and any buffer will do. *)
Lemma hex_negative have l : 0 <= have <= INT_MAX -> 1041204193 <= zlen l -> zlen l * 2 + zlen l / 16 + 2 < 4294967296 ->
  XBT_Buffer have (hex_room (zlen l)) = Ok have /\ have < zlen (hex_lines (S (Z.to_nat (zlen l / 16))) l) + 1.
Proof.
  intros H L U. pose proof (Z.div_mod (zlen l) 16). pose proof (Z.mod_pos_bound (zlen l) 16). split.
  - unfold XBT_Buffer. rewrite (proj2 (Z.leb_le _ _)); [reflexivity|]. unfold hex_room, s32. replace (zlen l * 2 + zlen l / 16 + 2 + 2147483648) with (zlen l * 2 + zlen l / 16 + 2 - 2147483648 + 1 * 4294967296) by lia. rewrite Z.mod_add, Z.mod_small by lia. lia.
  - rewrite hex_lines_length by (unfold zlen in *; lia). pose proof (Z.div_mod (zlen l + 15) 16). pose proof (Z.mod_pos_bound (zlen l + 15) 16). unfold INT_MAX in H. lia.
Qed.

(** ** The numbers *)
Lemma lor_split a b n : 0 <= n -> 0 <= b < 2 ^ n -> Z.lor (Z.shiftl a n) b = a * 2 ^ n + b.
Proof.
  intros N B. assert (D : Z.land (Z.shiftl a n) b = 0).
  { apply Z.bits_inj'. intros i I. rewrite Z.land_spec, Z.shiftl_spec, Z.bits_0 by lia. destruct (Z.lt_ge_cases i n); [rewrite Z.testbit_neg_r by lia; reflexivity|].
    rewrite andb_comm. destruct (Z.eq_dec b 0) as [->|]; [rewrite Z.bits_0; reflexivity|]. rewrite Z.bits_above_log2; [reflexivity|lia|]. apply Z.log2_lt_pow2; [lia|]. apply Z.lt_le_trans with (2 ^ n); [lia|]. apply Z.pow_le_mono_r; lia. }
  rewrite <- Z.lxor_lor by exact D. rewrite <- Z.shiftl_mul_pow2 by lia. symmetry. apply Z.add_nocarry_lxor, D.
Qed.
Lemma lxor_small a b n : 0 < n -> 0 <= a < 2 ^ n -> 0 <= b < 2 ^ n -> 0 <= Z.lxor a b < 2 ^ n.
Proof.
  intros N A B. assert (P : 0 <= Z.lxor a b) by (apply Z.lxor_nonneg; lia). split; [exact P|]. destruct (Z.eq_dec (Z.lxor a b) 0) as [->|NZ]; [lia|]. apply Z.log2_lt_pow2; [lia|].
  pose proof (Z.log2_lxor a b ltac:(lia) ltac:(lia)). assert (X : forall x, 0 <= x < 2 ^ n -> Z.log2 x < n).
  { intros x I. destruct (Z.eq_dec x 0) as [->|]; [cbn; lia|apply Z.log2_lt_pow2; lia]. }
  pose proof (X a A). pose proof (X b B). lia.
Qed.
Lemma lxor_cancel a b c : Z.lxor a c = Z.lxor b c -> a = b.
Proof. intros E. rewrite <- (Z.lxor_0_r a), <- (Z.lxor_0_r b), <- (Z.lxor_nilpotent c), <- !Z.lxor_assoc, E. reflexivity. Qed.
Lemma pow_31 : 2 ^ 31 = 2147483648. Proof. reflexivity. Qed.
Lemma pow_32 : 2 ^ 32 = 4294967296. Proof. reflexivity. Qed.
Lemma pow_62 : 2 ^ 62 = 4611686018427387904. Proof. reflexivity. Qed.
Lemma pow_63 : 2 ^ 63 = 9223372036854775808. Proof. reflexivity. Qed.

Lemma seeded_ok b c : clocked b -> clocked c -> clocked (seeded b c).
Proof. unfold seeded. destruct (b =? 0); auto. Qed.
Lemma next_ok b : clocked b -> next b = Ok (b + 1).
Proof. unfold clocked, next, INT64_MAX. intros H. rewrite (proj2 (Z.leb_le _ _)) by lia. reflexivity. Qed.
Lemma signed_range b c r1 r2 : clocked b -> clocked c -> drawn r1 -> drawn r2 -> exists v, genI64 b c r1 r2 = Ok (v, seeded b c + 1) /\ 0 <= v < 4611686018427387904.
Proof.
  intros B C R1 R2. pose proof (seeded_ok b c B C) as S. unfold genI64. rewrite next_ok by exact S. eexists. split; [reflexivity|]. unfold clocked, drawn in *. rewrite <- pow_62 in *. apply lxor_small; [lia| |lia].
  rewrite lor_split by (rewrite ?pow_31; lia). rewrite pow_31, pow_62. lia.
Qed.
Lemma unsigned_range b c r1 r2 : clocked b -> clocked c -> drawn r1 -> drawn r2 -> exists v, genU64 b c r1 r2 = Ok (v, seeded b c + 1) /\ 0 <= v < 9223372036854775808.
Proof.
  intros B C R1 R2. pose proof (seeded_ok b c B C) as S. unfold genU64. rewrite next_ok by exact S. eexists. split; [reflexivity|]. unfold clocked, drawn in *.
  assert (X : 0 <= Z.lxor (Z.lor (Z.shiftl r1 32) r2) (seeded b c) < 2 ^ 63). { apply lxor_small; [lia| |rewrite pow_63; lia]. rewrite lor_split by (rewrite ?pow_32; lia). rewrite pow_32, pow_63. lia. }
  unfold u64. rewrite pow_63 in X. rewrite Z.mod_small by lia. lia.
Qed.
Lemma signed_injective b c r1 r2 q1 q2 v b1 b2 : drawn r1 -> drawn r2 -> drawn q1 -> drawn q2 -> genI64 b c r1 r2 = Ok (v, b1) -> genI64 b c q1 q2 = Ok (v, b2) -> r1 = q1 /\ r2 = q2.
Proof.
  unfold drawn, genI64. intros R1 R2 Q1 Q2 E F. destruct (next _) as [n| |]; try discriminate. cbn [obind] in *. injection E as E _. injection F as F _. rewrite <- F in E. apply lxor_cancel in E. rewrite !lor_split, pow_31 in E by (rewrite ?pow_31; lia). lia.
Qed.
Lemma unsigned_injective b c r1 r2 q1 q2 v b1 b2 : clocked b -> clocked c -> drawn r1 -> drawn r2 -> drawn q1 -> drawn q2 -> genU64 b c r1 r2 = Ok (v, b1) -> genU64 b c q1 q2 = Ok (v, b2) -> r1 = q1 /\ r2 = q2.
Proof.
  intros B C R1 R2 Q1 Q2 E F. pose proof (seeded_ok b c B C) as S. unfold drawn, clocked in *. assert (X : forall r q, 0 <= r < 2147483648 -> 0 <= q < 2147483648 -> 0 <= Z.lxor (Z.lor (Z.shiftl r 32) q) (seeded b c) < 2 ^ 63).
  { intros r q R Q. apply lxor_small; [lia| |rewrite pow_63; lia]. rewrite lor_split by (rewrite ?pow_32; lia). rewrite pow_32, pow_63. lia. }
  pose proof (X r1 r2 R1 R2) as X1. pose proof (X q1 q2 Q1 Q2) as X2. rewrite pow_63 in *. unfold genU64 in *. destruct (next _) as [n| |]; try discriminate. cbn [obind] in *. injection E as E _. injection F as F _. rewrite <- F in E. unfold u64 in E. rewrite !Z.mod_small in E by lia. apply lxor_cancel in E. rewrite !lor_split, pow_32 in E by (rewrite ?pow_32; lia). lia.
Qed.
(** Every series of fewer than 2^61 numbers can be generated. *)
Lemma series_total l : forall b, 0 <= b -> b + zlen l <= 4611686018427387904 -> Forall (fun '(c, r1, r2) => 0 <= c /\ c + zlen l < 4611686018427387904 /\ drawn r1 /\ drawn r2) l -> exists vs, series genI64 b l = Ok vs /\ List.length vs = List.length l /\ Forall (fun v => 0 <= v < 4611686018427387904) vs.
Proof.
  induction l as [|[[c r1] r2] l IH]; intros b B1 B2 F; [exists []; repeat split; constructor|]. inversion F as [|x y H F' E1]; subst. cbv beta iota in H. destruct H as (C0 & C1 & R1 & R2). rewrite zlen_cons in *. pose proof (zlen_nonneg l).
  destruct (signed_range b c r1 r2) as (v & E & V); try (unfold clocked; lia); try assumption. destruct (IH (seeded b c + 1)) as (vs & E' & L & A).
  - unfold seeded. destruct (b =? 0); lia.
  - unfold seeded. destruct (b =? 0); lia.
  - eapply Forall_impl; [|exact F']. intros [[c' q1] q2]. cbv beta iota. intros (P1 & P2 & P3). split; [lia|]. split; [lia|exact P3].
  - exists (v :: vs). cbn [series]. rewrite E. cbn [obind]. rewrite E'. cbn. split; [reflexivity|]. split; [lia|]. constructor; assumption.
Qed.
(** Bit 31 of genU64 is that of the counter, whatever is drawn. *)
Lemma bit_fixed b c r1 r2 v b1 : drawn r1 -> drawn r2 -> genU64 b c r1 r2 = Ok (v, b1) -> Z.testbit v 31 = Z.testbit (seeded b c) 31.
Proof.
  unfold genU64. intros R1 R2 E. destruct (next _) as [n| |]; try discriminate. cbn [obind] in E. injection E as <- _. unfold u64. change 18446744073709551616 with (2 ^ 64). rewrite Z.mod_pow2_bits_low by lia. rewrite Z.lxor_spec, Z.lor_spec, Z.shiftl_spec by lia. rewrite (Z.testbit_neg_r r1) by lia.
  assert (T : Z.testbit r2 31 = false). { destruct (Z.eq_dec r2 0) as [->|]; [apply Z.bits_0|]. unfold drawn in R2. apply Z.bits_above_log2; [lia|]. apply Z.log2_lt_pow2; [lia|]. rewrite pow_31. lia. }
  rewrite T. cbn [orb]. apply xorb_false_l.
Qed.
Lemma any_length n : 0 <= n -> exists l : list Z, zlen l = n.
Proof. intros N. exists (zrepeat 0 n). unfold zlen, zrepeat. rewrite repeat_length. apply Z2Nat.id, N. Qed.
