(** What allocating does to a pool. *)
From Verif Require Import Base BaseFacts Types ListFacts Sort Xb XbSpec XbFacts XbWrite WriteProofs Bw BwFacts BwSpec BwHist.

(** Everything below [a] but the words of the allocator stays. *)
Definition extends m a m' : Prop :=
  zlen m <= zlen m' /\ forall q k, 0 <= k -> q + k <= 32 \/ (36 <= q /\ q + k <= 52) \/ (60 <= q /\ q + k <= a) -> rd m' q k = rd m q k.
Lemma extends_refl m a : extends m a m.
Proof. split; [lia|auto]. Qed.
Lemma extends_trans m1 a m2 b m3 : extends m1 a m2 -> extends m2 b m3 -> a <= b -> extends m1 a m3.
Proof. intros [L1 H1] [L2 H2] B. split; [lia|]. intros q k K D. rewrite H2, H1 by lia. reflexivity. Qed.

Lemma rd_len m p n b : 0 <= n -> rd m p n = Ok b -> 0 <= p /\ p + n <= zlen m.
Proof. intros N R. apply rd_inv in R; [|exact N]. tauto. Qed.
Lemma s32_len m p v : rd_s32 m p = Ok v -> 0 <= p /\ p + 4 <= zlen m.
Proof. unfold rd_s32. destruct (rd m p 4) eqn:E; cbn [obind]; [|discriminate..]. intros _. eapply rd_len; [|exact E]. lia. Qed.
Lemma int_inv {A} x (k : Z -> outcome A) v : int_ x k = Ok v -> int32 x /\ k x = Ok v.
Proof. unfold int_, int32b. destruct ((-2147483648 <=? x) && (x <=? 2147483647)) eqn:E; [|discriminate]. unfold int32. split; [lia|auto]. Qed.
Lemma obind_inv {A B} (x : outcome A) (k : A -> outcome B) v : obind x k = Ok v -> exists y, x = Ok y /\ k y = Ok v.
Proof. destruct x; cbn; [eauto|discriminate..]. Qed.
Lemma align4_ge x : x <= align_up 4 x < x + 4 /\ align_up 4 x mod 4 = 0.
Proof. unfold align_up. split; [lia|]. apply Z.mod_mul. lia. Qed.
Lemma align8_ge x : x <= align_up 8 x < x + 8 /\ align_up 8 x mod 8 = 0.
Proof. unfold align_up. split; [lia|]. apply Z.mod_mul. lia. Qed.

Lemma pool_len m a : pool m a -> int32 (zlen m) /\ int32 a.
Proof. intros (A & L & _). split; eapply rd_s32_range; [exact L|exact A]. Qed.

(** Moving the allocator and clearing what it passed *)
Lemma take_block m a p e m1 m2 : pool m a -> a <= p -> p <= e -> e <= zlen m -> e mod 4 = 0 ->
  wr32 m 52 e = Ok m1 -> wr m1 p (zrepeat 0 (e - p)) = Ok m2 ->
  pool m2 e /\ extends m a m2 /\ zlen m2 = zlen m /\ rd m2 p (e - p) = Ok (zrepeat 0 (e - p)).
Proof.
  intros PO AP PE EL E4 W1 W2. pose proof (pool_len _ _ PO) as [IL IA]. destruct PO as (A & L & FS & (M & MM & MB) & B & A4 & PG). unfold HEADER in *.
  assert (IE : int32 e) by (unfold int32 in *; lia).
  destruct (wr32_kept _ _ _ _ W1 IE) as (_ & _ & K1 & G1). apply wr_kept in W2. rewrite zlen_repeat in W2 by lia. destruct W2 as (_ & _ & K2 & G2).
  pose proof (kept_len _ _ _ _ K1). pose proof (kept_len _ _ _ _ K2). assert (zlen m2 = zlen m) by lia.
  split; [|split; [|split; [lia|exact G2]]].
  - unfold pool, p_allocator, p_limit, p_file_size, p_mmap_size in *. rewrite !(kept_s32 _ _ _ _ _ K2) by lia. rewrite G1. rewrite !(kept_s32 _ _ _ _ _ K1) by lia.
    replace (zlen m2) with (zlen m) by lia. repeat split; eauto; unfold HEADER; lia.
  - split; [lia|]. intros q k K D. destruct K1 as [_ K1]. destruct K2 as [_ K2]. rewrite K2, K1 by lia. reflexivity.
Qed.

Lemma allocate_ok m a n r m' : pool m a -> allocate m n = Ok (r, m') ->
  match r with
  | None => m' = m /\ (0 < n -> zlen m < a + align_up 4 n)
  | Some p => 0 < n /\ p = a /\ pool m' (a + align_up 4 n) /\ extends m a m' /\ zlen m' = zlen m /\ rd m' p (align_up 4 n) = Ok (zrepeat 0 (align_up 4 n))
  end.
Proof.
  intros PO. unfold allocate. destruct (n <=? 0) eqn:N0; [intro E; injection E as <- <-; split; [reflexivity|lia]|].
  intro E. apply int_inv in E as [_ E]. pose proof PO as (A & L & _ & _ & B & A4 & PG). rewrite A, L in E. cbn [obind] in E. apply int_inv in E as [IE E].
  destruct (zlen m <? a + align_up 4 n) eqn:C; [injection E as <- <-; split; [reflexivity|lia]|].
  apply obind_inv in E as (m1 & W1 & E). apply obind_inv in E as (m2 & W2 & E). injection E as <- <-.
  pose proof (align4_ge n) as [G G4].
  assert (T := take_block m a a (a + align_up 4 n) m1 m2 PO). replace (a + align_up 4 n - a) with (align_up 4 n) in T by lia.
  destruct T as (T1 & T2 & T3 & T4); auto; try lia. repeat split; auto; try lia; try apply T1; try apply T2.
Qed.

Lemma round_allocator m a m1 : pool m a -> wr32 m 52 (align_up 8 a) = Ok m1 -> pool m1 (align_up 8 a) /\ extends m a m1 /\ zlen m1 = zlen m.
Proof.
  intros PO W. pose proof PO as (A & L & _ & _ & B & A4 & PG). pose proof (align8_ge a) as [G G8]. unfold HEADER in *.
  assert (align_up 8 a <= zlen m) by (unfold align_up in *; lia). assert (align_up 8 a mod 4 = 0) by lia.
  assert (T := take_block m a (align_up 8 a) (align_up 8 a) m1). rewrite Z.sub_diag in T.
  assert (W0 : wr m1 (align_up 8 a) (zrepeat 0 0) = Ok m1).
  { pose proof (pool_len _ _ PO) as [I1 I2]. destruct (wr32_kept _ _ _ _ W) as (_ & _ & K & _); [unfold int32 in *; lia|]. unfold wr.
    rewrite (kept_len _ _ _ _ K). change (zlen (zrepeat 0 0)) with 0. replace ((0 <=? align_up 8 a) && (align_up 8 a + 0 <=? zlen m)) with true by lia.
    f_equal. unfold bput. change (zlen (zrepeat 0 0)) with 0. rewrite Z.add_0_r. cbn [zrepeat repeat Z.to_nat app]. unfold ztake, zskip. apply firstn_skipn. }
  destruct (T m1) as (T1 & T2 & T3 & _); auto; lia.
Qed.

Lemma allocate8_ok m a n r m' : pool m a -> allocate8 m n = Ok (r, m') ->
  match r with
  | None => (exists a', pool m' a' /\ a <= a') /\ extends m a m' /\ zlen m' = zlen m /\ (0 < n -> zlen m < align_up 8 a + align_up 8 n)
  | Some p => 0 < n /\ p = align_up 8 a /\ pool m' (p + align_up 8 n) /\ extends m a m' /\ zlen m' = zlen m /\ rd m' p (align_up 8 n) = Ok (zrepeat 0 (align_up 8 n))
  end.
Proof.
  intros PO. unfold allocate8. destruct (n <=? 0) eqn:N0.
  { intro E. injection E as <- <-. split; [exists a; split; [exact PO|lia]|]. split; [apply extends_refl|]. split; [reflexivity|lia]. }
  intro E. pose proof PO as (A & L & _ & _ & B & A4 & PG). rewrite A in E. cbn [obind] in E. apply int_inv in E as [_ E].
  apply obind_inv in E as (m1 & W1 & E). destruct (round_allocator _ _ _ PO W1) as (PO1 & X1 & L1). apply int_inv in E as [_ E].
  pose proof PO1 as (_ & L' & _). rewrite L' in E. cbn [obind] in E. apply int_inv in E as [IE E]. rewrite L1 in E. pose proof (align8_ge a) as [G G8]. pose proof (align8_ge n) as [Gn Gn8].
  destruct (zlen m <? align_up 8 a + align_up 8 n) eqn:C.
  { injection E as <- <-. split; [exists (align_up 8 a); split; [exact PO1|lia]|]. split; [exact X1|]. split; [exact L1|lia]. }
  apply obind_inv in E as (m2 & W2 & E). apply obind_inv in E as (m3 & W3 & E). injection E as <- <-.
  assert (T := take_block m1 (align_up 8 a) (align_up 8 a) (align_up 8 a + align_up 8 n) m2 m3 PO1).
  replace (align_up 8 a + align_up 8 n - align_up 8 a) with (align_up 8 n) in T by lia.
  destruct T as (T1 & T2 & T3 & T4); auto; try lia.
  split; [lia|]. split; [reflexivity|]. split; [exact T1|]. split; [|split; [lia|exact T4]]. eapply extends_trans; eauto. lia.
Qed.

Lemma resize_grow m n : zlen m <= n -> zlen (resize m n) = n /\ forall q k, 0 <= k -> q + k <= zlen m -> rd (resize m n) q k = rd m q k.
Proof.
  intro G. unfold resize. pose proof (zlen_nonneg m).
  assert (L : ztake n m = m). { unfold ztake. apply firstn_all2. unfold zlen in *. lia. } rewrite L.
  split; [rewrite zlen_app, zlen_repeat by lia; lia|]. intros q k K B. unfold rd. rewrite zlen_app, zlen_repeat by lia.
  replace (q + k <=? zlen m + (n - zlen m)) with true by lia. replace (q + k <=? zlen m) with true by lia. destruct (0 <=? q) eqn:Q; [|reflexivity].
  cbn [andb]. f_equal. assert (H0 := slice_has m q k ltac:(lia) K B). destruct H0 as (x & y & E & XL).
  set (s := slice m q k) in *. assert (SL : zlen s = k) by (unfold s; apply zlen_slice; lia).
  assert (H1 : has (m ++ zrepeat 0 (n - zlen m)) q s). { exists x, (y ++ zrepeat 0 (n - zlen m)). split; [rewrite E, <- !app_assoc; reflexivity|exact XL]. }
  apply has_slice in H1. rewrite SL in H1. exact H1.
Qed.
Lemma makeSpace_ok disk m a n r m' : pool m a -> makeSpace disk m n = Ok (r, m') ->
  pool m' a /\ extends m a m' /\ (r = true -> a + n <= zlen m').
Proof.
  intro PO. pose proof PO as (A & L & FS & (M & MM & MB) & B & A4 & PG). unfold HEADER in *. unfold makeSpace. rewrite A. cbn [obind]. intro E.
  apply int_inv in E as [_ E]. apply int_inv in E as [I2 E]. rewrite MM in E. cbn [obind] in E. set (ns := (a + 4095 + n) / 4096 * 4096) in *.
  destruct (M <? ns) eqn:C; [injection E as <- <-; split; [exact PO|split; [apply extends_refl|discriminate]]|].
  rewrite FS in E. cbn [obind] in E. destruct (ns <=? zlen m) eqn:C2.
  { injection E as <- <-. split; [exact PO|]. split; [apply extends_refl|]. intros _. lia. }
  destruct disk; cbn [negb] in E; [|injection E as <- <-; split; [exact PO|split; [apply extends_refl|discriminate]]].
  apply obind_inv in E as (m1 & W1 & E). apply obind_inv in E as (m2 & W2 & E). injection E as <- <-.
  destruct (resize_grow m ns ltac:(lia)) as [RL RK]. assert (IN : int32 ns). { unfold int32 in *. lia. }
  destruct (wr32_kept _ _ _ _ W1 IN) as (_ & _ & K1 & G1). destruct (wr32_kept _ _ _ _ W2 IN) as (_ & _ & K2 & G2).
  pose proof (kept_len _ _ _ _ K1). pose proof (kept_len _ _ _ _ K2).
  assert (R4 : forall q, q + 4 <= zlen m -> rd_s32 (resize m ns) q = rd_s32 m q) by (intros q Q; unfold rd_s32; rewrite RK by lia; reflexivity).
  split; [|split].
  - unfold pool, p_allocator, p_limit, p_file_size, p_mmap_size in *. rewrite G2. rewrite !(kept_s32 _ _ _ _ _ K2) by lia. rewrite G1.
    rewrite !(kept_s32 _ _ _ _ _ K1) by lia. rewrite !R4 by lia. replace (zlen m2) with ns by lia. split; [auto|]. split; [auto|]. split; [auto|].
    split; [exists M; split; [auto|lia]|]. unfold HEADER. repeat split; lia.
  - split; [lia|]. intros q k K D. destruct K1 as [_ K1]. destruct K2 as [_ K2]. rewrite K2, K1, RK by lia. reflexivity.
  - intros _. lia.
Qed.

(** ** New elements *)
Lemma extends_wr m a m1 p bs m2 : extends m a m1 -> wr m1 p bs = Ok m2 -> a <= p -> 60 <= p -> extends m a m2.
Proof.
  intros [L H] W AP P. destruct (wr_kept _ _ _ _ W) as (_ & _ & [L2 K] & _). split; [lia|]. intros q k Q D. rewrite K by lia. apply H; auto.
Qed.
Lemma pool_wr m a p bs m' : pool m a -> wr m p bs = Ok m' -> 60 <= p -> pool m' a.
Proof.
  intros PO W P. destruct (wr_kept _ _ _ _ W) as (_ & _ & K & _). unfold pool, p_allocator, p_limit, p_file_size, p_mmap_size in *.
  rewrite !(kept_s32 _ _ _ _ _ K) by lia. rewrite (kept_len _ _ _ _ K). exact PO.
Qed.

(** One try to get [n] bytes *)
Definition get_block ty m n := if XBT_Align ty =? 8 then allocate8 m n else allocate m n.
Lemma get_block_ok ty m a n r m' : pool m a -> get_block ty m n = Ok (r, m') ->
  match r with
  | None => exists a', pool m' a' /\ a <= a' /\ extends m a m'
  | Some x => exists a', 0 < n /\ a <= x /\ x mod 4 = 0 /\ (XBT_Align ty = 8 -> x mod 8 = 0) /\ x + n <= a' /\ pool m' a' /\ extends m a m' /\ rd m' x n = Ok (zrepeat 0 n)
  end.
Proof.
  intros PO. unfold get_block. pose proof PO as (_ & _ & _ & _ & _ & A4 & _).
  assert (Z0 : forall N p, 0 < n <= N -> rd m' p N = Ok (zrepeat 0 N) -> rd m' p n = Ok (zrepeat 0 n)).
  { intros N p NN R. assert (H := R). apply rd_inv in H as (_ & _ & H & _); [|lia].
    replace (zrepeat 0 N) with (zrepeat 0 n ++ zrepeat 0 (N - n)) in H.
    - apply has_app in H as [H _]. apply has_rd in H. rewrite zlen_repeat in H by lia. exact H.
    - unfold zrepeat. rewrite <- repeat_app. f_equal. lia. }
  destruct (XBT_Align ty =? 8) eqn:AL; intro E.
  - apply (allocate8_ok _ a) in E; [|exact PO]. destruct r as [x|].
    + destruct E as (N & -> & P & X & _ & ZR). pose proof (align8_ge a). pose proof (align8_ge n). exists (align_up 8 a + align_up 8 n).
      repeat split; auto; try lia; try apply P; try apply X. eapply Z0; [|exact ZR]. lia.
    + destruct E as ((a' & P & L) & X & _). eauto.
  - apply (allocate_ok _ a) in E; [|exact PO]. destruct r as [x|].
    + destruct E as (N & -> & P & X & _ & ZR). pose proof (align4_ge n). exists (a + align_up 4 n).
      repeat split; auto; try lia; try apply P; try apply X. eapply Z0; [|exact ZR]. lia.
    + destruct E as (-> & _). exists a. split; [exact PO|]. split; [lia|apply extends_refl].
Qed.

Lemma new_element_ok disk m a ty n r m' : pool m a -> new_element disk m ty n = Ok (r, m') ->
  match r with
  | None => exists a', pool m' a' /\ a <= a' /\ extends m a m'
  | Some x => exists s2 a', XBT_Size2 ty n = Ok s2 /\ 0 <= s2 /\ a <= x /\ x mod 4 = 0 /\ (XBT_Align ty = 8 -> x mod 8 = 0) /\ x + 24 + s2 <= a' /\
      pool m' a' /\ extends m a m' /\ (XBT_IS_VARSIZE ty = false -> rd m' (x + 24) s2 = Ok (zrepeat 0 s2))
  end.
Proof.
  intros PO E. unfold new_element in E. apply obind_inv in E as (s2 & S2 & E). destruct (s2 <? 0) eqn:NEG.
  { injection E as <- <-. exists a. split; [exact PO|]. split; [lia|apply extends_refl]. }
  apply int_inv in E as [_ E]. fold (get_block ty m (24 + s2)) in E. apply obind_inv in E as ([x1 m1] & G1 & E). apply obind_inv in E as ([x2 m2] & G2 & E).
  assert (T : match x2 with
              | None => exists a', pool m2 a' /\ a <= a' /\ extends m a m2
              | Some x => exists a', a <= x /\ x mod 4 = 0 /\ (XBT_Align ty = 8 -> x mod 8 = 0) /\ x + 24 + s2 <= a' /\ pool m2 a' /\ extends m a m2 /\
                  rd m2 x (24 + s2) = Ok (zrepeat 0 (24 + s2))
              end).
  { apply (get_block_ok _ _ a) in G1; [|exact PO]. destruct x1 as [x1|].
    - injection G2 as <- <-. destruct G1 as (a' & N & AX & X4 & X8 & XA & P & X & ZR). exists a'. auto 10 with zarith.
    - destruct G1 as (a1 & P1 & A1 & X1). apply obind_inv in G2 as ([ok m3] & SP & G2). apply (makeSpace_ok _ _ a1) in SP; [|exact P1].
      destruct SP as (P3 & X3 & _). assert (X13 : extends m a m3) by (eapply extends_trans; eauto). destruct ok; [|injection G2 as <- <-; eauto].
      fold (get_block ty m3 (24 + s2)) in G2. apply (get_block_ok _ _ a1) in G2; [|exact P3]. destruct x2 as [x2|].
      + destruct G2 as (a' & N & AX & X4 & X8 & XA & P & X & ZR). exists a'. repeat split; auto; try lia; try apply P; try apply (extends_trans m a m3 a1 m2 X13 X A1).
      + destruct G2 as (a' & P & A2 & X). exists a'. split; [exact P|]. split; [lia|]. eapply extends_trans; eauto. }
  destruct x2 as [x|]; [|injection E as <- <-; exact T]. destruct T as (a' & AX & X4 & X8 & XA & P & X & ZR).
  pose proof PO as (_ & _ & _ & _ & BB & _ & _). unfold HEADER in BB.
  apply obind_inv in E as (w1 & W1 & E). apply obind_inv in E as (w2 & W2 & E). apply obind_inv in E as (w3 & W3 & E). apply obind_inv in E as (w4 & W4 & E).
  apply obind_inv in E as (w5 & W5 & E). injection E as <- <-. unfold wr32 in *.
  assert (P4 : pool w4 a') by (eapply pool_wr; [eapply pool_wr; [eapply pool_wr; [eapply pool_wr; [exact P|exact W1|]|exact W2|]|exact W3|]|exact W4|]; lia).
  assert (E4 : extends m a w4) by (eapply extends_wr; [eapply extends_wr; [eapply extends_wr; [eapply extends_wr; [exact X|exact W1| |]|exact W2| |]|exact W3| |]|exact W4| |]; lia).
  exists s2, a'. repeat (split; [solve [auto; lia]|]). split; [|split].
  - destruct (XBT_IS_VARSIZE ty); [|injection W5 as <-; exact P4]. eapply pool_wr; [exact P4|exact W5|lia].
  - destruct (XBT_IS_VARSIZE ty); [|injection W5 as <-; exact E4]. eapply extends_wr; [exact E4|exact W5|lia|lia].
  - intro V. rewrite V in W5. injection W5 as <-. apply wr_kept in W1, W2, W3, W4. destruct W1 as (_ & _ & [_ K1] & _), W2 as (_ & _ & [_ K2] & _), W3 as (_ & _ & [_ K3] & _), W4 as (_ & _ & [_ K4] & _).
    change (zlen [ty]) with 1 in K1. rewrite zlen_le4 in *. rewrite K4, K3, K2, K1 by lia.
    apply rd_inv in ZR as (_ & _ & H & _); [|lia]. replace (zrepeat 0 (24 + s2)) with (zrepeat 0 24 ++ zrepeat 0 s2) in H.
    + apply has_app in H as [_ H]. rewrite zlen_repeat in H by lia. apply has_rd in H. rewrite zlen_repeat in H by lia. exact H.
    + unfold zrepeat. rewrite <- repeat_app. f_equal. lia.
Qed.

Lemma fresh_ok disk m a id ty n flags r m' : pool m a -> fresh disk m id ty n flags = Ok (r, m') ->
  match r with
  | None => exists a', pool m' a' /\ a <= a' /\ extends m a m'
  | Some x => exists s2 a', XBT_Size2 ty n = Ok s2 /\ 0 <= s2 /\ a <= x /\ x mod 4 = 0 /\ (XBT_Align ty = 8 -> x mod 8 = 0) /\ x + 24 + s2 <= a' /\
      pool m' a' /\ extends m a m' /\ (XBT_IS_VARSIZE ty = false -> rd m' (x + 24) s2 = Ok (zrepeat 0 s2)) /\
      rd m' x 24 = Ok (le 4 x ++ le 2 id ++ [flags; ty] ++ le 4 x ++ le 4 x ++ le 4 0 ++ le 4 0)
  end.
Proof.
  intros PO E. unfold fresh in E. apply obind_inv in E as ([x m1] & NE & E). apply (new_element_ok _ _ a) in NE; [|exact PO].
  destruct x as [x|]; [|injection E as <- <-; exact NE]. apply obind_inv in E as (m2 & IN & E). injection E as <- <-.
  destruct NE as (s2 & a' & S2 & S0 & AX & X4 & X8 & XA & P & X & ZR). pose proof PO as (_ & _ & _ & _ & BB & _ & _). unfold HEADER in BB.
  unfold init in IN. apply obind_inv in IN as (b & _ & IN). destruct ((0 <? x) && (x + 24 <=? unle b)); [|discriminate].
  exists s2, a'. repeat (split; [solve [auto; lia]|]). split; [eapply pool_wr; eauto; lia|]. split; [eapply extends_wr; eauto; lia|].
  destruct (wr_kept _ _ _ _ IN) as (_ & _ & [_ K] & G). cbn [app] in *. split; [|exact G].
  intro V. rewrite K; [auto|lia|]. right. change (zlen (le 4 x ++ le 2 id ++ flags :: ty :: le 4 x ++ le 4 x ++ le 4 0 ++ le 4 0)) with 24. lia.
Qed.
Lemma put_ok m a n id ty flags x m1 m' : pool m a -> allocate8 m n = Ok (Some x, m1) -> init m1 x id ty flags = Ok m' -> 24 <= align_up 8 n ->
  a <= x /\ x mod 8 = 0 /\ pool m' (x + align_up 8 n) /\ extends m a m' /\ zlen m' = zlen m /\ rd m' x 24 = Ok (le 4 x ++ le 2 id ++ [flags; ty] ++ le 4 x ++ le 4 x ++ le 4 0 ++ le 4 0) /\
  x = align_up 8 a.
Proof.
  intros PO AL IN N. apply (allocate8_ok _ a) in AL; [|exact PO]. destruct AL as (N0 & -> & P & X & ZL & _). pose proof PO as (_ & _ & _ & _ & BB & _ & _). unfold HEADER in BB. pose proof (align8_ge a) as [G G8].
  unfold init in IN. apply obind_inv in IN as (b & _ & IN). destruct ((0 <? align_up 8 a) && (align_up 8 a + 24 <=? unle b)); [|discriminate]. destruct (wr_kept _ _ _ _ IN) as (_ & _ & K & GG).
  split; [lia|]. split; [lia|]. split; [eapply pool_wr; eauto; lia|]. split; [eapply extends_wr; eauto; lia|]. split; [rewrite (kept_len _ _ _ _ K); exact ZL|]. split; [exact GG|reflexivity].
Qed.
Lemma header_fields m x id flags ty : rd m x 24 = Ok (le 4 x ++ le 2 id ++ [flags; ty] ++ le 4 x ++ le 4 x ++ le 4 0 ++ le 4 0) -> int32 x ->
  0 <= flags < 256 ->
  el_offset m x = Ok x /\ el_flags m x = Ok flags /\ (0 <= ty < 256 -> el_type m x = Ok ty) /\ (-32768 <= id < 32768 -> el_id m x = Ok id) /\
  el_next m x = Ok x /\ el_prev m x = Ok x /\ el_child m x = Ok 0 /\ el_attr m x = Ok 0.
Proof.
  intros R I F. apply rd_inv in R as (_ & _ & H & _); [|lia].
  apply has_app in H as [H0 H]. apply has_app in H as [H4 H]. apply has_app in H as [H6 H]. apply has_app in H as [H8 H]. apply has_app in H as [H12 H]. apply has_app in H as [H16 H20].
  change [flags; ty] with ([flags] ++ [ty]) in H6. apply has_app in H6 as [H6 H7].
  change (zlen (le 4 x)) with 4 in *. change (zlen (le 2 id)) with 2 in *. change (zlen ([flags] ++ [ty])) with 2 in *. change (zlen [flags; ty]) with 2 in *. change (zlen (le 4 0)) with 4 in *. change (zlen [flags]) with 1 in *.
  assert (I0 : int32 0) by (unfold int32; lia).
  replace (x + 4 + 2) with (x + 6) in * by lia. replace (x + 6 + 1) with (x + 7) in * by lia. replace (x + 6 + 2) with (x + 8) in * by lia.
  replace (x + 8 + 4) with (x + 12) in * by lia. replace (x + 12 + 4) with (x + 16) in * by lia. replace (x + 16 + 4) with (x + 20) in * by lia.
  unfold el_offset, el_flags, el_type, el_id, el_next, el_prev, el_child, el_attr.
  repeat split; try (apply has_s32; auto); try (intros; apply has_u8; auto); try (intros; apply has_s16; auto).
Qed.
