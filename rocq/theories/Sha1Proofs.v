(** The SHA-1 functions compute the SHA-1 of FIPS 180-4. *)
From Verif Require Import Base BaseFacts ListFacts Sha1 Sha1Spec.

(** ** Words *)

Lemma ntohl_be a b c d : is_byte a -> is_byte b -> is_byte c -> is_byte d ->
  ntohl (a + 256 * (b + 256 * (c + 256 * d))) = ((a * 256 + b) * 256 + c) * 256 + d.
Proof.
  unfold is_byte. intros. unfold ntohl.
  change 255 with (2 ^ 8 - 1). rewrite !land_mod by lia. rewrite !shr_div by lia.
  set (x := a + _).
  assert (E0 : x mod 2 ^ 8 = a) by (subst x; lia). assert (E1 : x / 2 ^ 8 mod 2 ^ 8 = b) by (subst x; lia).
  assert (E2 : x / 2 ^ 16 mod 2 ^ 8 = c) by (subst x; lia). assert (E3 : x / 2 ^ 24 mod 2 ^ 8 = d) by (subst x; lia).
  rewrite E0, E1, E2, E3. clearbody x.
  rewrite (lor_shl_add c d 8) by lia.
  rewrite <- Z.lor_assoc. rewrite (lor_shl_add b (c * 2 ^ 8 + d) 16) by lia.
  rewrite (lor_shl_add a _ 24) by lia. unfold u32. lia.
Qed.

Lemma four {A} (l : list A) : 4 <= zlen l -> exists a b c d r, l = a :: b :: c :: d :: r.
Proof.
  unfold zlen. destruct l as [|a [|b [|c [|d r]]]]; cbn [List.length]; try lia. intros _. repeat eexists.
Qed.

Lemma get_be32_word l : bytes l -> 4 <= zlen l -> get_be32 l = be_word (ztake 4 l).
Proof.
  intros Hb Hl. destruct (four l Hl) as (a & b & c & d & r & ->). unfold get_be32. cbn [ztake Z.to_nat].
  change (ztake 4 (a :: b :: c :: d :: r)) with [a; b; c; d]. cbn [unle be_word fold_left].
  inversion Hb as [|? ? Ha Hb1]; subst. inversion Hb1 as [|? ? Hbb Hb2]; subst. inversion Hb2 as [|? ? Hc Hb3]; subst. inversion Hb3 as [|? ? Hd Hb4]; subst.
  replace (a + 256 * (b + 256 * (c + 256 * (d + 256 * 0)))) with (a + 256 * (b + 256 * (c + 256 * d))) by lia.
  rewrite ntohl_be by assumption. unfold be_word. cbn [fold_left]. lia.
Qed.

Lemma be_words_nth n : forall l i, 0 <= i < Z.of_nat n -> znth (be_words n l) i = be_word (ztake 4 (zskip (i * 4) l)).
Proof.
  induction n as [|n IH]; intros l i Hi; [lia|]. cbn [be_words]. unfold znth. destruct (Z.ltb_spec i 0); [lia|].
  destruct (Z.eq_dec i 0) as [->|Hne].
  - reflexivity.
  - replace (Z.to_nat i) with (S (Z.to_nat (i - 1))) by lia. cbn [nth]. specialize (IH (zskip 4 l) (i - 1) ltac:(lia)).
    unfold znth in IH. destruct (Z.ltb_spec (i - 1) 0); [lia|]. rewrite IH. rewrite zskip_zskip by lia. replace ((i - 1) * 4 + 4) with (i * 4) by lia. reflexivity.
Qed.

Lemma be_words_len n : forall l, zlen (be_words n l) = Z.of_nat n.
Proof. induction n as [|n IH]; intros l; cbn [be_words]; [reflexivity|]. rewrite zlen_cons, IH. lia. Qed.

Lemma le_htonl x : 0 <= x < 2 ^ 32 -> le 4 (htonl x) = be 4 x.
Proof.
  intros Hx. unfold htonl. set (a := x mod 256). set (b := x / 256 mod 256). set (c := x / 65536 mod 256). set (d := x / 16777216 mod 256).
  assert (x = a + 256 * (b + 256 * (c + 256 * d))) as E by (subst a b c d; lia).
  rewrite E at 1. rewrite ntohl_be by (unfold is_byte; subst a b c d; lia).
  assert (0 <= a < 256 /\ 0 <= b < 256 /\ 0 <= c < 256 /\ 0 <= d < 256) by (subst a b c d; lia).
  assert (E1 : x / 256 = b + 256 * (c + 256 * d)) by lia.
  assert (E2 : x / 256 / 256 = c + 256 * d) by lia. assert (E3 : x / 256 / 256 / 256 = d) by lia.
  cbn [le be app]. rewrite E3, E2, E1. clearbody a b c d.
  repeat (f_equal; [lia|]). f_equal. lia.
Qed.

(** ** The round functions *)

Lemma fn_f t B C D : fn t B C D = f_t t B C D.
Proof.
  unfold fn, f_t. destruct (t <? 20); [|destruct (t <? 40); [reflexivity|destruct (t <? 60); [|reflexivity]]].
  - unfold Ch. apply Z.bits_inj'. intros n Hn. rewrite !Z.lxor_spec, !Z.land_spec, Z.lxor_spec, Z.lnot_spec by assumption.
    destruct (Z.testbit B n), (Z.testbit C n), (Z.testbit D n); reflexivity.
  - unfold Maj. rewrite Z.add_nocarry_lxor.
    + apply Z.bits_inj'. intros n Hn. rewrite !Z.lxor_spec, !Z.land_spec, Z.lxor_spec.
      destruct (Z.testbit B n), (Z.testbit C n), (Z.testbit D n); reflexivity.
    + apply Z.bits_inj'. intros n Hn. rewrite !Z.land_spec, Z.lxor_spec, Z.bits_0.
      destruct (Z.testbit B n), (Z.testbit C n), (Z.testbit D n); reflexivity.
Qed.

Lemma constant_K t : constant t = K_t t.
Proof. reflexivity. Qed.

Lemma rol_ROTL x n : SHA_ROL x n = ROTL n x.
Proof. reflexivity. Qed.

Lemma ror_ROTL x : SHA_ROR x 2 = ROTL 30 x.
Proof. unfold SHA_ROR, ROTL. rewrite Z.lor_comm. reflexivity. Qed.

(** ** The schedule *)

Lemma znth_app_l l r i : i < zlen l -> znth (l ++ r) i = znth l i.
Proof. intros H. unfold znth. destruct (Z.ltb_spec i 0); [reflexivity|]. rewrite app_nth1; [reflexivity|]. unfold zlen in H. lia. Qed.
Lemma znth_app_mid l x r i : i = zlen l -> znth (l ++ x :: r) i = x.
Proof.
  intros ->. unfold znth. pose proof (zlen_nonneg l). destruct (Z.ltb_spec (zlen l) 0); [lia|]. rewrite app_nth2 by (unfold zlen; lia).
  replace (Z.to_nat (zlen l) - List.length l)%nat with 0%nat by (unfold zlen; lia). reflexivity.
Qed.

Definition mix (W : list Z) (t : Z) : Z :=
  ROTL 1 (Z.lxor (Z.lxor (Z.lxor (znth W (t - 3)) (znth W (t - 8))) (znth W (t - 14))) (znth W (t - 16))).

Lemma schedule_ok n : forall ws, 16 <= zlen ws ->
  zlen (schedule n ws) = zlen ws + Z.of_nat n /\
  (forall i, i < zlen ws -> znth (schedule n ws) i = znth ws i) /\
  (forall t, zlen ws <= t < zlen ws + Z.of_nat n -> znth (schedule n ws) t = mix (schedule n ws) t).
Proof.
  induction n as [|n IH]; intros ws Hl; cbn [schedule].
    split; [lia|]. split; [auto|]. intros; lia.
  - cbv zeta. match goal with |- context [schedule n (ws ++ [?w])] => set (x := w) end.
    assert (L : zlen (ws ++ [x]) = zlen ws + 1) by (rewrite zlen_app; reflexivity).
    destruct (IH (ws ++ [x]) ltac:(lia)) as (E & P & R). rewrite L in *.
    assert (P' : forall i, i < zlen ws -> znth (schedule n (ws ++ [x])) i = znth ws i).
    { intros i Hi. rewrite P by lia. apply znth_app_l. exact Hi. }
    split; [lia|]. split; [exact P'|]. intros t Ht. destruct (Z.eq_dec t (zlen ws)) as [->|Hne].
    + rewrite P by lia. rewrite znth_app_mid by reflexivity. unfold mix. rewrite !P' by lia. reflexivity.
    + apply R. lia.
Qed.

(** ** One round *)

Definition phys (t : Z) (s : state) : list Z :=
  let m := t mod 5 in
  if m =? 0 then [sa s; sb s; sc s; sd s; se s] else if m =? 1 then [sb s; sc s; sd s; se s; sa s]
  else if m =? 2 then [sc s; sd s; se s; sa s; sb s] else if m =? 3 then [sd s; se s; sa s; sb s; sc s]
  else [se s; sa s; sb s; sc s; sd s].

Definition arr_ok (t : Z) (arr W : list Z) : Prop :=
  zlen arr = 16 /\ forall i, 0 <= i < t -> t - 16 <= i -> znth arr (i mod 16) = znth W i.

Lemma land15 x : Z.land x 15 = x mod 16.
Proof. change 15 with (2 ^ 4 - 1). rewrite land_mod by lia. reflexivity. Qed.

Lemma set_reg_len (r : list Z) i x : (i < List.length r)%nat -> List.length (set_reg r i x) = List.length r.
Proof. intros H. unfold set_reg. rewrite !app_length, firstn_length, skipn_length. cbn [List.length]. lia. Qed.

Lemma set_reg_nth (r : list Z) i x j : (i < List.length r)%nat -> nth j (set_reg r i x) 0 = if Nat.eqb j i then x else nth j r 0.
Proof.
  intros H. unfold set_reg. destruct (Nat.eqb_spec j i) as [->|Hne].
  - rewrite app_nth2; rewrite firstn_length; [|lia]. replace (i - Nat.min i (List.length r))%nat with 0%nat by lia. reflexivity.
  - destruct (Nat.lt_ge_cases j i) as [Hj|Hj].
    + rewrite app_nth1 by (rewrite firstn_length; lia). rewrite <- (firstn_skipn i r) at 2. rewrite app_nth1 by (rewrite firstn_length; lia). reflexivity.
    + rewrite app_nth2 by (rewrite firstn_length; lia). rewrite firstn_length. replace (Nat.min i (List.length r)) with i by lia.
      replace (j - i)%nat with (S (j - S i)) by lia. cbn [nth app]. rewrite <- (firstn_skipn (S i) r) at 2.
      rewrite (app_nth2 (firstn (S i) r)) by (rewrite firstn_length; lia). rewrite firstn_length. f_equal. lia.
Qed.

Lemma setW_ok t arr W v : 0 <= t -> arr_ok t arr W -> v = znth W t -> arr_ok (t + 1) (setW arr t v) W.
Proof.
  intros Ht [L N] ->. unfold setW. rewrite land15. assert (Hm : (Z.to_nat (t mod 16) < List.length arr)%nat) by (unfold zlen in L; lia).
  split; [unfold zlen in *; rewrite set_reg_len; lia|]. intros i Hi Hi'. unfold znth at 1. destruct (Z.ltb_spec (i mod 16) 0); [lia|].
  rewrite set_reg_nth by assumption. destruct (Nat.eqb_spec (Z.to_nat (i mod 16)) (Z.to_nat (t mod 16))) as [E|E].
  - f_equal. lia.
  - rewrite <- N by lia. unfold znth. destruct (Z.ltb_spec (i mod 16) 0); [lia|reflexivity].
Qed.

Lemma W_first block t : 0 <= t < 16 -> znth (W_of block) t = be_word (ztake 4 (zskip (t * 4) block)).
Proof.
  intros Ht. unfold W_of. generalize 64%nat. intros n. destruct (schedule_ok n (be_words 16 block)) as (_ & P & _); [rewrite be_words_len; lia|].
  rewrite P by (rewrite be_words_len; lia). apply be_words_nth. lia.
Qed.

Lemma W_next block t : 16 <= t < 80 -> znth (W_of block) t = mix (W_of block) t.
Proof.
  intros Ht. unfold W_of. remember 64%nat as n eqn:En. destruct (schedule_ok n (be_words 16 block)) as (_ & _ & R); [rewrite be_words_len; lia|].
  apply R. rewrite be_words_len. lia.
Qed.

Lemma temp_ok block W t arr : bytes block -> zlen block = 64 -> 0 <= t < 80 -> arr_ok t arr W ->
  (0 <= t < 16 -> znth W t = be_word (ztake 4 (zskip (t * 4) block))) -> (16 <= t < 80 -> znth W t = mix W t) ->
  (if t <? 16 then get_be32 (zskip (t * 4) block)
   else SHA_ROL (Z.lxor (Z.lxor (Z.lxor (Wx arr (t + 13)) (Wx arr (t + 8))) (Wx arr (t + 2))) (Wx arr t)) 1) = znth W t.
Proof.
  intros Hb Hl Ht [L N] P R.
  destruct (Z.ltb_spec t 16) as [H|H].
  - rewrite P by lia. apply get_be32_word; [apply bytes_skip; exact Hb|]. rewrite zlen_skip by lia. lia.
  - rewrite R by lia. unfold mix, Wx. rewrite !land15, rol_ROTL.
    replace ((t + 13) mod 16) with ((t - 3) mod 16) by lia. replace ((t + 8) mod 16) with ((t - 8) mod 16) by lia.
    replace ((t + 2) mod 16) with ((t - 14) mod 16) by lia. replace (t mod 16) with ((t - 16) mod 16) by lia.
    rewrite !N by lia. reflexivity.
Qed.

Lemma round_ok block t s arr : bytes block -> zlen block = 64 -> 0 <= t < 80 -> arr_ok t arr (W_of block) ->
  exists arr', round block t (phys t s, arr) = (phys (t + 1) (step (W_of block) t s), arr') /\ arr_ok (t + 1) arr' (W_of block).
Proof.
  intros Hb Hl Ht Ha. pose proof (temp_ok block (W_of block) t arr Hb Hl Ht Ha (W_first block t) (W_next block t)) as HT.
  generalize dependent (W_of block). intros W Ha HT. unfold round.
  set (TEMP := if t <? 16 then _ else _) in *. clearbody TEMP. exists (setW arr t TEMP). split; [|apply setW_ok; [lia|assumption|assumption]].
  unfold step. rewrite <- HT. unfold phys, call_regs. destruct s as [a b c d e]. cbn [sa sb sc sd se].
  assert (M : t mod 5 = 0 \/ t mod 5 = 1 \/ t mod 5 = 2 \/ t mod 5 = 3 \/ t mod 5 = 4) by lia.
  destruct M as [M|[M|[M|[M|M]]]]; rewrite M;
    match type of M with _ = ?k => let k' := eval vm_compute in ((k + 1) mod 5) in replace ((t + 1) mod 5) with k' by lia end;
    repeat match goal with |- context [?x =? ?y] => let v := eval vm_compute in (x =? y) in change (x =? y) with v end; cbv iota; unfold reg, set_reg; cbn [nth firstn skipn app];
    rewrite fn_f, constant_K, !rol_ROTL, ror_ROTL; unfold word, u32;
    (replace (e + TEMP + ROTL 5 a + f_t t b c d + K_t t) with (ROTL 5 a + f_t t b c d + e + K_t t + TEMP) by lia); reflexivity.
Qed.

Lemma rounds_ok n : forall block t s arr, bytes block -> zlen block = 64 -> 0 <= t -> t + Z.of_nat n <= 80 -> arr_ok t arr (W_of block) ->
  exists arr', rounds n block t (phys t s, arr) = (phys (t + Z.of_nat n) (steps n (W_of block) t s), arr').
Proof.
  induction n as [|n IH]; intros block t s arr Hb Hl Ht Hn Ha; cbn [rounds steps].
  - exists arr. f_equal. f_equal. lia.
  - destruct (round_ok block t s arr Hb Hl ltac:(lia) Ha) as (arr1 & -> & Ha1).
    destruct (IH block (t + 1) (step (W_of block) t s) arr1 Hb Hl ltac:(lia) ltac:(lia) Ha1) as (arr2 & ->).
    exists arr2. f_equal. f_equal. lia.
Qed.

Definition regs (s : state) : list Z := [sa s; sb s; sc s; sd s; se s].

Lemma block_ok s block : bytes block -> zlen block = 64 -> blk_SHA1_Block (regs s) block = regs (compress s block).
Proof.
  intros Hb Hl. unfold blk_SHA1_Block. change (regs s) with (phys 0 s) at 1.
  destruct (rounds_ok 80 block 0 s (zrepeat 0 16) Hb Hl) as (arr & ->); [lia|lia| |].
  { split; [vm_compute; reflexivity|intros; lia]. }
  unfold compress. cbv zeta. set (s80 := steps 80 (W_of block) 0 s). clearbody s80. change (0 + Z.of_nat 80) with 80.
  change (phys 80 s80) with (regs s80).
  unfold regs. cbn [combine map sa sb sc sd se]. unfold word, u32. 
  rewrite (Z.add_comm (sa s)), (Z.add_comm (sb s)), (Z.add_comm (sc s)), (Z.add_comm (sd s)), (Z.add_comm (se s)). reflexivity.
Qed.
