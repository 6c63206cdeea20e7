(** Feeding a message in pieces, padding, and reading a file. *)
From Verif Require Import Base BaseFacts ListFacts Sha1 Sha1Spec Sha1Proofs.

Opaque compress blk_SHA1_Block regs.

Lemma hash_blocks_app n : forall h l r, 64 * Z.of_nat n <= zlen l -> hash_blocks n h (l ++ r) = hash_blocks n h l.
Proof.
  induction n as [|n IH]; intros h l r Hl; cbn [hash_blocks]; [reflexivity|].
  rewrite ztake_app_l, zskip_app_le by lia. apply IH. rewrite zlen_skip by lia. lia.
Qed.

Lemma hash_blocks_plus a b : forall h l, hash_blocks (a + b) h l = hash_blocks b (hash_blocks a h l) (zskip (64 * Z.of_nat a) l).
Proof.
  induction a as [|a IH]; intros h l; cbn [hash_blocks Nat.add].
  - rewrite zskip_neg by lia. reflexivity.
  - rewrite IH. rewrite zskip_zskip by lia. f_equal. f_equal. lia.
Qed.

Definition nblocks (l : list Z) : nat := Z.to_nat (zlen l / 64).

Lemma block_loop_ok fuel : forall s data, bytes data -> (List.length data < fuel)%nat ->
  block_loop fuel (regs s) data = Some (regs (hash_blocks (nblocks data) s data), zskip (64 * (zlen data / 64)) data).
Proof.
  induction fuel as [|k IH]; intros s data Hb Hf; [lia|]. cbn [block_loop]. unfold nblocks. destruct (Z.leb_spec 64 (zlen data)) as [H|H].
  - rewrite block_ok by (auto using bytes_take; rewrite zlen_take by lia; lia). rewrite IH.
    + unfold nblocks. rewrite zlen_skip by lia. replace (Z.max 0 (zlen data - 64)) with (zlen data - 64) by lia.
      replace (Z.to_nat (zlen data / 64)) with (S (Z.to_nat ((zlen data - 64) / 64))) by lia. cbn [hash_blocks].
      rewrite zskip_zskip by lia. do 3 f_equal. lia.
    + apply bytes_skip; exact Hb.
    + assert (zlen (zskip 64 data) = zlen data - 64) by (rewrite zlen_skip by lia; lia). unfold zlen in *. lia.
  - pose proof (zlen_nonneg data). replace (zlen data / 64) with 0 by lia. cbn [hash_blocks Z.to_nat]. rewrite zskip_neg by lia. reflexivity.
Qed.

Definition Inv (c : blk_SHA_CTX) (m : list Z) : Prop :=
  bytes m /\ ctx_size c = zlen m /\ ctx_H c = regs (hash_blocks (nblocks m) H0 m) /\ zlen (ctx_W c) = 64 /\
  ztake (zlen m mod 64) (ctx_W c) = zskip (64 * (zlen m / 64)) m.

Lemma store_len W i bs : 0 <= i -> i + zlen bs <= zlen W -> zlen (store W i bs) = zlen W.
Proof. intros. pose proof (zlen_nonneg bs). unfold store. rewrite !zlen_app, zlen_take, zlen_skip by lia. lia. Qed.

Lemma land63 x : Z.land x 63 = x mod 64.
Proof. change 63 with (2 ^ 6 - 1). rewrite land_mod by lia. reflexivity. Qed.

(** The common tail of an update, after the buffered bytes have been dealt with. *)
Lemma tail_ok W m0 data size : bytes m0 -> bytes data -> zlen m0 mod 64 = 0 -> zlen W = 64 -> size = zlen m0 + zlen data ->
  exists c, match block_loop (S (List.length data)) (regs (hash_blocks (nblocks m0) H0 m0)) data with
            | None => None
            | Some (H', rest) => Some (mkctx size H' (if zlen rest =? 0 then W else store W 0 rest))
            end = Some c /\ Inv c (m0 ++ data).
Proof.
  intros Hm Hd Hmod HW ->. rewrite block_loop_ok by (try assumption; lia). eexists. split; [reflexivity|].
  pose proof (zlen_nonneg m0). pose proof (zlen_nonneg data).
  assert (Hn : zlen (m0 ++ data) = zlen m0 + zlen data) by apply zlen_app.
  assert (Lr : zlen (zskip (64 * (zlen data / 64)) data) = zlen data mod 64) by (rewrite zlen_skip by lia; lia).
  repeat split; cbn [ctx_size ctx_H ctx_W].
  - apply bytes_app; auto.
  - lia.
  - unfold nblocks. rewrite Hn. replace (Z.to_nat ((zlen m0 + zlen data) / 64)) with (Z.to_nat (zlen m0 / 64) + Z.to_nat (zlen data / 64))%nat by lia.
    rewrite hash_blocks_plus. rewrite hash_blocks_app by lia. rewrite zskip_app_len by lia. reflexivity.
  - rewrite Lr. destruct (Z.eqb_spec (zlen data mod 64) 0); [exact HW|]. rewrite store_len by lia. exact HW.
  - rewrite Hn, Lr. rewrite zskip_app_ge by lia.
    replace (64 * ((zlen m0 + zlen data) / 64) - zlen m0) with (64 * (zlen data / 64)) by lia.
    destruct (Z.eqb_spec (zlen data mod 64) 0) as [E|E].
    + rewrite ztake_0 by lia. rewrite zskip_all by lia. reflexivity.
    + unfold store. rewrite (ztake_0 0) by lia. cbn [app]. apply ztake_app_len. lia.
Qed.

Lemma update_ok c m d : Inv c m -> bytes d -> zlen m + zlen d < 2 ^ 64 -> exists c', blk_SHA1_Update c d = Some c' /\ Inv c' (m ++ d).
Proof.
  intros (Hm & Hs & HH & HWl & HW) Hd Hsz. unfold blk_SHA1_Update. rewrite Hs. cbv zeta. rewrite land63.
  pose proof (zlen_nonneg m) as Hm0. pose proof (zlen_nonneg d) as Hd0.
  replace (u64 (zlen m + zlen d)) with (zlen m + zlen d) by (unfold u64; lia).
  destruct (Z.eqb_spec (zlen m mod 64) 0) as [E|E].
  - rewrite HH. apply tail_ok; auto.
  - set (left := if zlen d <? 64 - zlen m mod 64 then zlen d else 64 - zlen m mod 64).
    assert (Hl : left = Z.min (zlen d) (64 - zlen m mod 64)) by (subst left; destruct (Z.ltb_spec (zlen d) (64 - zlen m mod 64)); lia).
    clearbody left. rewrite land63. assert (Lt : zlen (ztake left d) = left) by (rewrite zlen_take by lia; lia).
    assert (LW : zlen (store (ctx_W c) (zlen m mod 64) (ztake left d)) = 64) by (rewrite store_len by lia; exact HWl).
    assert (TW : ztake (zlen m mod 64 + left) (store (ctx_W c) (zlen m mod 64) (ztake left d)) = zskip (64 * (zlen m / 64)) m ++ ztake left d).
    { unfold store. rewrite HW, app_assoc. apply ztake_app_len. rewrite zlen_app, Lt, zlen_skip by lia. lia. }
    assert (Lmd : zlen (m ++ ztake left d) = zlen m + left) by (rewrite zlen_app; lia).
    destruct (Z.eqb_spec ((zlen m mod 64 + left) mod 64) 0) as [E'|E']; cbn [negb].
    + assert (zlen m mod 64 + left = 64) by lia.
      assert (HB : blk_SHA1_Block (ctx_H c) (store (ctx_W c) (zlen m mod 64) (ztake left d)) =
        regs (hash_blocks (nblocks (m ++ ztake left d)) H0 (m ++ ztake left d))).
      { rewrite ztake_all in TW by lia. rewrite TW, HH.
        rewrite block_ok.
        - unfold nblocks. rewrite Lmd. replace (Z.to_nat ((zlen m + left) / 64)) with (Z.to_nat (zlen m / 64) + 1)%nat by lia.
          rewrite hash_blocks_plus. rewrite hash_blocks_app by lia. cbn [hash_blocks]. rewrite zskip_app_le by lia.
          replace (64 * Z.of_nat (Z.to_nat (zlen m / 64))) with (64 * (zlen m / 64)) by lia.
          rewrite (ztake_all 64) by (rewrite zlen_app, Lt, zlen_skip by lia; lia). reflexivity.
        - apply bytes_app. split; [apply bytes_skip; exact Hm|apply bytes_take; exact Hd].
        - rewrite zlen_app, Lt, zlen_skip by lia. lia. }
      rewrite HB. assert (Hd' : d = ztake left d ++ zskip left d) by (symmetry; apply ztake_zskip).
      replace (m ++ d) with ((m ++ ztake left d) ++ zskip left d) by (rewrite <- app_assoc, ztake_zskip; reflexivity).
      apply tail_ok; auto using bytes_skip.
      * apply bytes_app. auto using bytes_take.
      * lia.
      * rewrite Lmd, zlen_skip by lia. lia.
    + assert (Hlt : zlen m mod 64 + left < 64) by lia. assert (left = zlen d) by lia. rewrite (ztake_all left d) in * by lia.
      eexists. split; [reflexivity|]. repeat split; cbn [ctx_size ctx_H ctx_W].
      * apply bytes_app. auto.
      * lia.
      * unfold nblocks. rewrite Lmd. replace ((zlen m + left) / 64) with (zlen m / 64) by lia. rewrite hash_blocks_app by lia. exact HH.
      * exact LW.
      * rewrite Lmd. replace ((zlen m + left) mod 64) with (zlen m mod 64 + left) by lia. rewrite TW.
        replace ((zlen m + left) / 64) with (zlen m / 64) by lia. rewrite zskip_app_le by lia. reflexivity.
Qed.

Lemma init_ok W : zlen W = 64 -> Inv (blk_SHA1_Init W) [].
Proof. Transparent regs. intros H. repeat split; [constructor|exact H]. Opaque regs. Qed.

Lemma updates_ok pieces : forall c m, Inv c m -> Forall bytes pieces -> zlen m + zlen (List.concat pieces) < 2 ^ 64 ->
  exists c', updates c pieces = Some c' /\ Inv c' (m ++ List.concat pieces).
Proof.
  induction pieces as [|p r IH]; intros c m Hi Hb Hs; cbn [updates List.concat].
  - exists c. rewrite app_nil_r. auto.
  - inversion Hb as [|? ? Hp Hr]; subst. cbn [List.concat] in Hs. rewrite zlen_app in Hs. pose proof (zlen_nonneg (List.concat r)).
    destruct (update_ok c m p Hi Hp ltac:(lia)) as (c1 & -> & Hi1).
    destruct (IH c1 (m ++ p) Hi1 Hr) as (c2 & E2 & Hi2); [rewrite zlen_app; lia|]. exists c2. rewrite app_assoc. auto.
Qed.

Lemma be_app a b : forall x, 0 <= x -> be (a + b) x = be a (x / 256 ^ Z.of_nat b) ++ be b x.
Proof.
  induction b as [|b IH]; intros x Hx.
  - change (256 ^ Z.of_nat 0) with 1. rewrite Z.div_1_r. replace (a + 0)%nat with a by lia. cbn [be]. rewrite app_nil_r. reflexivity.
  - replace (a + S b)%nat with (S (a + b)) by lia. cbn [be]. rewrite IH by (apply Z.div_pos; lia). rewrite app_assoc. f_equal. f_equal. f_equal.
    rewrite Z.div_div by lia. f_equal. rewrite Nat2Z.inj_succ, Z.pow_succ_r by lia. lia.
Qed.

Lemma be_mod n : forall x, 0 <= x -> be n (x mod 256 ^ Z.of_nat n) = be n x.
Proof.
  induction n as [|n IH]; intros x Hx; [reflexivity|]. cbn [be]. rewrite Nat2Z.inj_succ, Z.pow_succ_r by lia.
  rewrite Z.rem_mul_r by lia. assert (0 < 256 ^ Z.of_nat n) by (apply Z.pow_pos_nonneg; lia).
  replace ((x mod 256 + 256 * (x / 256 mod 256 ^ Z.of_nat n)) / 256) with (x / 256 mod 256 ^ Z.of_nat n) by lia.
  rewrite IH by lia. f_equal. f_equal. lia.
Qed.

Lemma be_bytes n : forall x, bytes (be n x).
Proof. induction n as [|n IH]; intros x; cbn [be]; [constructor|]. apply bytes_app. split; [apply IH|]. constructor; [unfold is_byte; lia|constructor]. Qed.
Lemma be_len n : forall x, zlen (be n x) = Z.of_nat n.
Proof. induction n as [|n IH]; intros x; cbn [be]; [reflexivity|]. rewrite zlen_app, IH. change (zlen [x mod 256]) with 1. lia. Qed.

Lemma padlen_ok n : 0 <= n < 2 ^ 61 ->
  le 4 (htonl (u32 (Z.shiftr n 29))) ++ le 4 (htonl (u32 (u64 (Z.shiftl n 3)))) = be 8 (8 * n).
Proof.
  intros Hn. rewrite shr_div, Z.shiftl_mul_pow2 by lia. rewrite !le_htonl by (unfold u32; lia).
  change 8%nat with (4 + 4)%nat. rewrite be_app by lia. f_equal.
  - f_equal. unfold u32. change (256 ^ Z.of_nat 4) with (2 ^ 32). lia.
  - rewrite <- (be_mod 4 (8 * n)) by lia. f_equal. unfold u32, u64. change (256 ^ Z.of_nat 4) with (2 ^ 32). lia.
Qed.

Lemma pad_ok n : 0 <= n -> ztake (1 + Z.land 63 (55 - Z.land n 63)) (128 :: zrepeat 0 63) = 128 :: zrepeat 0 ((55 - n) mod 64).
Proof.
  intros Hn. rewrite Z.land_comm, !land63. replace ((55 - n mod 64) mod 64) with ((55 - n) mod 64) by lia. set (k := (55 - n) mod 64).
  assert (0 <= k < 64) by (subst k; lia). clearbody k. unfold ztake. replace (Z.to_nat (1 + k)) with (S (Z.to_nat k)) by lia. cbn [firstn]. f_equal.
  unfold zrepeat. change (Z.to_nat 63) with 63%nat. assert (Hk : (Z.to_nat k <= 63)%nat) by lia. revert Hk. generalize (Z.to_nat k). generalize 63%nat.
  induction n0 as [|q IH]; intros p Hp; destruct p; cbn [firstn repeat]; try reflexivity; [lia|]. f_equal. apply IH. lia.
Qed.

Definition words (s : state) : Prop := 0 <= sa s < 2 ^ 32 /\ 0 <= sb s < 2 ^ 32 /\ 0 <= sc s < 2 ^ 32 /\ 0 <= sd s < 2 ^ 32 /\ 0 <= se s < 2 ^ 32.

Lemma hash_blocks_words n : forall h l, words h -> words (hash_blocks n h l).
Proof.
  induction n as [|n IH]; intros h l Hh; cbn [hash_blocks]; [exact Hh|]. apply IH. Transparent compress. unfold compress. Opaque compress. cbv zeta.
  generalize (steps 80 (W_of (ztake 64 l)) 0 h). intros s. unfold words, word. cbn [sa sb sc sd se]. lia.
Qed.

Lemma digest_ok s : words s -> flat_map (fun h => le 4 (htonl h)) (regs s) = digest s.
Proof.
  Transparent regs. intros (A & B & C & D & E). unfold regs, digest. cbn [flat_map]. rewrite !le_htonl by assumption. rewrite app_nil_r. reflexivity. Opaque regs.
Qed.

Lemma final_ok c m : Inv c m -> zlen m < 2 ^ 61 -> blk_SHA1_Final c = Some (sha1 m).
Proof.
  intros Hi Hl. pose proof (zlen_nonneg m). assert (Hsz : ctx_size c = zlen m) by apply Hi. unfold blk_SHA1_Final. rewrite Hsz. cbv zeta.
  rewrite pad_ok, padlen_ok by lia.
  set (k := (55 - zlen m) mod 64). assert (0 <= k < 64) by (subst k; lia).
  assert (Lz : zlen (zrepeat 0 k) = k) by (apply zlen_repeat; lia).
  destruct (update_ok c m (128 :: zrepeat 0 k) Hi) as (c1 & -> & Hi1).
  { constructor; [unfold is_byte; lia|]. apply Forall_forall. intros x Hx. apply repeat_spec in Hx. subst x. unfold is_byte. lia. }
  { rewrite zlen_cons, Lz. lia. }
  destruct (update_ok c1 _ (be 8 (8 * zlen m)) Hi1) as (c2 & -> & Hi2).
  { apply be_bytes. }
  { rewrite zlen_app, zlen_cons, Lz, be_len. lia. }
  destruct Hi2 as (_ & _ & HH & _). rewrite HH. rewrite digest_ok.
  - unfold sha1. replace ((m ++ 128 :: zrepeat 0 k) ++ be 8 (8 * zlen m)) with (padded m).
    + reflexivity.
    + unfold padded. fold k. rewrite <- app_assoc. reflexivity.
  - apply hash_blocks_words. unfold words, Sha1Spec.H0. cbn [sa sb sc sd se]. lia.
Qed.

Lemma sha1_pieces W pieces : zlen W = 64 -> Forall bytes pieces -> zlen (List.concat pieces) < 2 ^ 61 ->
  exists c, updates (blk_SHA1_Init W) pieces = Some c /\ blk_SHA1_Final c = Some (sha1 (List.concat pieces)).
Proof.
  intros HW Hb Hl. destruct (updates_ok pieces (blk_SHA1_Init W) [] (init_ok W HW) Hb) as (c & E & Hi); [change (zlen (@nil Z)) with 0; lia|].
  exists c. split; [exact E|]. apply final_ok; assumption.
Qed.

Lemma SHA1_ok W m : zlen W = 64 -> bytes m -> zlen m < 2 ^ 61 -> SHA1 W m = Some (sha1 m).
Proof.
  intros HW Hb Hl. unfold SHA1. destruct (update_ok (blk_SHA1_Init W) [] m (init_ok W HW) Hb) as (c & -> & Hi); [change (zlen (@nil Z)) with 0; lia|].
  apply final_ok; assumption.
Qed.

(** ** Files *)

(** Reads that deliver all that was asked for: the first [n] at least 4096 bytes each. *)
Lemma sha1_reads_ok reads : forall c m file, Inv c m -> bytes file -> zlen m + zlen file < 2 ^ 61 ->
  Forall (fun n => 4096 <= n) reads -> zlen file / 4096 < zlen reads ->
  sha1_reads reads c file = Some (Some (sha1 (m ++ file))).
Proof.
  induction reads as [|n r IH]; intros c m file Hi Hb Hl Hr Hn; pose proof (zlen_nonneg file) as Hf; pose proof (zlen_nonneg m).
  - change (zlen (@nil Z)) with 0 in Hn. lia.
  - inversion Hr as [|? ? Hn1 Hr1]; subst. rewrite zlen_cons in Hn. cbn [sha1_reads]. destruct (Z.ltb_spec n 0); [lia|]. cbv zeta.
    replace (Z.min n (Z.min 4096 (zlen file))) with (Z.min 4096 (zlen file)) by lia.
    destruct (update_ok c m (ztake (Z.min 4096 (zlen file)) file) Hi) as (c1 & -> & Hi1).
    { apply bytes_take; exact Hb. } { rewrite zlen_take by lia. lia. }
    destruct (Z.ltb_spec (Z.min 4096 (zlen file)) 4096) as [H4|H4].
    + rewrite (ztake_all _ file) in Hi1 by lia. rewrite (final_ok c1 (m ++ file)) by (try assumption; rewrite zlen_app; lia). reflexivity.
    + rewrite (IH c1 (m ++ ztake (Z.min 4096 (zlen file)) file) (zskip (Z.min 4096 (zlen file)) file)); try assumption.
      * rewrite <- app_assoc, ztake_zskip. reflexivity.
      * apply bytes_skip; exact Hb.
      * rewrite zlen_app, zlen_take, zlen_skip by lia. lia.
      * rewrite zlen_skip by lia. replace (Z.max 0 (zlen file - Z.min 4096 (zlen file))) with (zlen file - 4096) by lia. lia.
Qed.

Lemma file_full W reads file : zlen W = 64 -> bytes file -> zlen file < 2 ^ 61 -> Forall (fun n => 4096 <= n) reads -> zlen file / 4096 < zlen reads ->
  file_getsha1 W reads file = Some (Some (sha1 file)).
Proof. intros HW Hb Hl Hr Hn. unfold file_getsha1. apply (sha1_reads_ok reads (blk_SHA1_Init W) [] file (init_ok W HW)); assumption. Qed.

(** Whatever the reads deliver, the answer is the digest of a beginning of the file: of what had
    been delivered up to the first short read. *)
Lemma sha1_reads_prefix reads : forall c m file out, Inv c m -> bytes file -> zlen m + zlen file < 2 ^ 61 ->
  sha1_reads reads c file = Some (Some out) -> exists n, 0 <= n <= zlen file /\ out = sha1 (m ++ ztake n file).
Proof.
  induction reads as [|n r IH]; intros c m file out Hi Hb Hl E; pose proof (zlen_nonneg file) as Hf; pose proof (zlen_nonneg m); cbn [sha1_reads] in E; [discriminate|].
  destruct (Z.ltb_spec n 0); [discriminate|]. cbv zeta in E. set (k := Z.min n (Z.min 4096 (zlen file))) in *. assert (0 <= k <= zlen file) by lia.
  destruct (update_ok c m (ztake k file) Hi) as (c1 & E1 & Hi1); [apply bytes_take; exact Hb|rewrite zlen_take by lia; lia|]. rewrite E1 in E.
  destruct (k <? 4096).
  - rewrite (final_ok c1 (m ++ ztake k file)) in E by (try assumption; rewrite zlen_app, zlen_take by lia; lia). inversion E. exists k. auto.
  - destruct (IH c1 (m ++ ztake k file) (zskip k file) out Hi1) as (j & Hj & ->).
    { apply bytes_skip; exact Hb. } { rewrite zlen_app, zlen_take, zlen_skip by lia. lia. } { exact E. }
    rewrite zlen_skip in Hj by lia. exists (k + j). split; [lia|]. rewrite <- app_assoc. f_equal. f_equal.
    rewrite <- (ztake_zskip k file) at 3. rewrite ztake_app_ge by (rewrite zlen_take by lia; lia). f_equal. f_equal. rewrite zlen_take by lia. lia.
Qed.

(** A first read of three bytes: the digest is that of the three bytes. *)
Lemma file_short : exists W reads file, zlen W = 64 /\ bytes file /\ (exists out, file_getsha1 W reads file = Some (Some out) /\ out <> sha1 file).
Proof.
  Transparent regs compress blk_SHA1_Block.
  exists (zrepeat 0 64), [3; 4096; 4096], (lit "abcd"). split; [reflexivity|]. split.
  { apply Forall_forall. intros x Hx. vm_compute in Hx. unfold is_byte. intuition lia. }
  exists (sha1 (lit "abc")). split; vm_compute; [reflexivity|discriminate].
Qed.
