(** Making the index and clearing the pool. *)
From Verif Require Import Base BaseFacts Types ListFacts Sort Xb XbSpec XbFacts XbWrite WriteProofs Bw BwFacts BwSpec BwHist BwAlloc BwSym BwReg BwFileSpec BwFileProofs BwNamesSpec BwNamesFacts BwNamesInv BwNamesReg BwNamesOps JsonSource.

Lemma pool_kept m m' a p n : pool m a -> kept m m' p n -> 60 <= p \/ (40 <= p /\ p + n <= 52) -> pool m' a.
Proof.
  intros PO K P. unfold pool, p_allocator, p_limit, p_file_size, p_mmap_size in *. rewrite !(kept_s32 _ _ _ _ _ K) by lia. rewrite (kept_len _ _ _ _ K). exact PO.
Qed.
Lemma index_drop n x L R a : spread (regions n x L ++ R) a -> spread (regions n 0 L ++ R) a.
Proof.
  intro S. unfold regions in *. change (index_at 0 L) with (@nil (Z * Z)). rewrite app_nil_r. rewrite <- app_assoc in S. apply (spread_perm _ (index_at x L ++ names_at n L ++ R)) in S; [apply spread_drop in S; exact S|].
  rewrite !app_assoc. apply Permutation_app_tail, Permutation_app_comm.
Qed.
Lemma no_index m m' t n x L : table m t n x L -> kept m m' (t + 8) 4 -> rd_s32 m' (t + 8) = Ok 0 -> (L <> [] -> n + zlen (stored 0 L) <= t + 8 \/ t + 12 <= n) -> table m' t n 0 L.
Proof.
  intros (MX & N & X & F & L1 & G & ND & N4 & H & IX) K Z AP. unfold tablef, t_max_id, t_names, t_index in *. rewrite (kept_s32 _ _ _ _ t K), (kept_s32 _ _ _ _ (t + 4) K) by lia. rewrite (kept_flags _ _ _ _ _ K) by lia. do 8 (split; [assumption|]). split; [|lia].
  intro NE. apply (has_read m); [apply H, NE|]. destruct K as [_ K]. specialize (AP NE). apply K; [apply zlen_nonneg|lia].
Qed.
Lemma allocate_above m n x m' : allocate m n = Ok (Some x, m') -> forall q k, 0 <= k -> 60 <= x -> x + align_up 4 n <= q -> rd m' q k = rd m q k.
Proof.
  intros E q k K X Q. unfold allocate in E. destruct (n <=? 0) eqn:N0; [discriminate|]. apply int_inv in E as [_ E]. cbv zeta in E. apply obind_inv in E as (a & A & E). apply obind_inv in E as (l & LI & E). apply int_inv in E as [I2 E]. destruct (_ <? _); [discriminate|].
  apply obind_inv in E as (m1 & W1 & E). apply obind_inv in E as (m2 & W2 & E). injection E as <- <-. apply wr32_kept in W1 as (_ & _ & [_ K1] & _); [|exact I2]. destruct (wr_kept _ _ _ _ W2) as (_ & _ & [_ K2] & _). rewrite zlen_repeat in K2 by (pose proof (align4_ge n); lia). pose proof (align4_ge n). rewrite K2, K1 by lia. reflexivity.
Qed.
Lemma makeTable_ok m a t n x L R fuel ok m' : pool m a -> istab t -> table m t n x L -> spread (regions n x L ++ R) a -> makeTable fuel m t = rret (ok, m') ->
  step m m' a t /\ exists x' a', a <= a' /\ pool m' a' /\ table m' t n x' L /\ spread (regions n x' L ++ R) a' /\ (ok = true -> (L <> [] -> x' <> 0) /\ a' = a + 4 * zlen L) /\
    (forall q k, 0 <= k -> a' <= q -> rd m' q k = rd m q k).
Proof.
  intros PO IT TB SP E. pose proof PO as (A & _ & _ & _ & B & A4 & _). pose proof (pool_len _ _ PO) as [IZ IA]. unfold makeTable in E. apply rbind_inv in E as (m1 & W1 & E). apply some_inj in W1.
  apply wr32_kept in W1 as (_ & _ & K1 & G1); [|unfold int32; lia]. assert (BN : L <> [] -> HEADER <= n /\ n + zlen (stored 0 L) <= a) by (intro; eapply table_bound; eauto). unfold HEADER in *.
  assert (PO1 : pool m1 a) by (apply (pool_kept m m1 a (t + 8) 4 PO K1); unfold istab, TAGS, PARAMS in *; lia).
  assert (TB1 : table m1 t n 0 L). { apply (no_index m m1 t n x L TB K1 G1). intro NE. specialize (BN NE). unfold istab, TAGS, PARAMS in *. lia. }
  apply index_drop in SP. rename SP into SP1. assert (ST1 : step m m1 a t) by (eapply step_tab; [exact K1|exact IT|lia|lia]). clear TB x.
  pose proof TB1 as (MX & N & X & F & L1 & G & ND & N4 & H & IX). rewrite MX, rbind_ok in E. destruct (Z.ltb_spec (zlen L - 1) 0) as [L0|L0].
  { apply rret_bool in E as [<- <-]. split; [exact ST1|]. exists 0, a. split; [lia|]. split; [exact PO1|]. split; [exact TB1|]. split; [exact SP1|]. split; [|intros q k K0 Q; destruct K1 as [_ K1]; apply K1; unfold istab, TAGS, PARAMS in *; lia]. intros _. destruct L; [|rewrite zlen_cons in L0; pose proof (zlen_nonneg L); lia]. split; [congruence|]. change (zlen (@nil (list Z * Z))) with 0. lia. }
  assert (NE : L <> []) by (intros ->; change (zlen (@nil (list Z * Z))) with 0 in L0; lia). specialize (BN NE). rewrite N, rbind_ok in E. replace (n =? 0) with false in E by lia.
  apply rbind_inv in E as ([y m2] & AL & E). apply some_inj in AL. apply int_inv in AL as [_ AL]. replace (zlen L - 1 + 1) with (zlen L) in AL by lia. pose proof AL as AB. apply (allocate_ok _ a) in AL; [|exact PO1]. destruct y as [y|].
  2:{ destruct AL as [-> _]. apply rret_bool in E as [<- <-]. split; [exact ST1|]. exists 0, a. split; [lia|]. split; [exact PO1|]. split; [exact TB1|]. split; [exact SP1|]. split; [discriminate|]. intros q k K0 Q; destruct K1 as [_ K1]; apply K1; unfold istab, TAGS, PARAMS in *; lia. }
  destruct AL as (S0 & -> & PO2 & EX & L2 & Z0). set (l := zlen L) in *. assert (AU : align_up 4 (4 * l) = 4 * l) by (unfold align_up; lia). rewrite AU in *. pose proof PO2 as (_ & _ & _ & _ & B2 & A24 & _). pose proof (pool_len _ _ PO2) as [IZ2 IA2]. unfold HEADER in *.
  pose proof PO1 as (_ & _ & _ & _ & B1 & _). assert (TT : 0 <= t /\ 60 <= t /\ t + 16 <= 92) by (unfold istab, TAGS, PARAMS in *; lia).
  assert (TB2 : table m2 t n 0 L). { apply (table_frame m1 m2 t n 0 L a TB1); try lia; [apply EX; lia|apply spread_app in SP1; apply SP1|]. intros y k I. destruct SP1 as [_ SI]. specialize (SI y k (in_or_app _ _ _ (or_introl I))). unfold HEADER in SI. apply EX; lia. }
  assert (SP2 : spread (regions n 0 L ++ R) (a + 4 * l)) by (apply (spread_up _ a); [exact SP1|lia]).
  apply rbind_inv in E as ([s m2'] & SZ & E). destruct (size_ok _ _ _ _ _ _ _ _ _ _ PO2 TB2 SP2 SZ) as [-> ->]. pose proof TB2 as (MX2 & N2 & X2 & F2 & _ & _ & _ & _ & H2 & _). rewrite MX2, rbind_ok in E. fold l in E. replace (l - 1 + 1) with l in E by lia.
  destruct (fill_index_ok (l - 1) a n L ltac:(lia) ltac:(lia) G ltac:(unfold int32 in *; pose proof (zlen_nonneg (stored 0 L)); lia) ltac:(lia) N4 ltac:(lia) L [] m2 eq_refl (H2 NE) ltac:(lia) ltac:(lia)) as (m3 & FI & K3 & V). cbn [List.length] in *.
  unfold off in FI at 1. cbn [firstn stored] in FI. change (zlen (@nil Z)) with 0 in FI. rewrite Z.add_0_r in FI. assert (LN : Z.to_nat l = List.length L) by (unfold l, zlen; lia). rewrite LN in E. rewrite FI, rbind_ok in E. cbn [negb] in E. fold l in K3.
  apply rbind_inv in E as (m4 & W4 & E). apply some_inj in W4. apply rret_bool in E as [<- <-]. apply wr32_kept in W4 as (_ & _ & K4 & G4); [|exact IA].
  assert (KL : zlen m4 = zlen m2) by (destruct K3, K4; lia).
  split. { apply (step_trans _ m1 _ a a); [exact ST1| |lia]. apply (step_trans _ m2 _ a a); [apply step_ext, EX| |lia]. apply (step_trans _ m3 _ a a); [eapply step_hi; [exact K3|lia|lia]|eapply step_tab; [exact K4|exact IT|lia|lia]|lia]. }
  exists a, (a + 4 * l). split; [lia|]. split; [apply (pool_kept m3 m4 _ (t + 8) 4); [apply (pool_kept m2 m3 _ a (4 * l) PO2 K3); lia|exact K4|lia]|].
  pose proof (zlen_nonneg (stored 0 L)). split; [|split; [|split; [split; lia|]]].
  - unfold tablef, t_max_id, t_names, t_index in *. rewrite (kept_s32 _ _ _ _ t K4), (kept_s32 _ _ _ _ (t + 4) K4), (kept_s32 _ _ _ _ t K3), (kept_s32 _ _ _ _ (t + 4) K3) by lia. rewrite (kept_flags _ _ _ _ _ K4), (kept_flags _ _ _ _ _ K3) by lia. do 8 (split; [assumption|]). split.
    + intros _. apply (has_read m2); [exact (H2 NE)|]. destruct K3 as [_ K3], K4 as [_ K4]. rewrite K4, K3 by lia. reflexivity.
    + intros _. split; [exact NE|]. intros i e NI. assert (IL : (i < List.length L)%nat) by (apply nth_error_Some; congruence). rewrite (kept_s32 _ _ _ _ _ K4) by lia. apply (V i e NI). left. lia.
  - assert (PM : Permutation ((a, 4 * l) :: regions n 0 L ++ R) (regions n a L ++ R)). { unfold regions, index_at. replace (a =? 0) with false by lia. change (0 =? 0) with true. cbv iota. rewrite app_nil_r, <- app_assoc. apply Permutation_middle. }
    apply (spread_perm _ _ _ PM). apply (spread_more _ a); auto; unfold HEADER; lia.
  - intros q k K0 Q. pose proof (allocate_above _ _ _ _ AB) as AV. rewrite AU in AV. destruct K1 as [_ K1], K3 as [_ K3], K4 as [_ K4]. rewrite K4, K3, AV, K1 by lia. reflexivity.
Qed.

(** ** Clear *)
Lemma copy_inv m src dst n m' b : copy m src dst n = Ok m' -> rd m src n = Ok b -> zlen b = n -> kept m m' dst n /\ rd m' dst n = Ok b.
Proof. unfold copy. intros W R L. rewrite R in W. cbn [obind] in W. destruct (wr_kept _ _ _ _ W) as (_ & _ & K & G). rewrite L in *. auto. Qed.
Lemma copy_nothing m src dst m' : copy m src dst 0 = Ok m' -> m' = m.
Proof.
  unfold copy. intro W. apply obind_inv in W as (b & R & W). apply rd_inv in R as (_ & _ & _ & L); [|lia]. destruct b as [|c b]; [|rewrite zlen_cons in L; pose proof (zlen_nonneg b); lia]. revert W. unfold wr. destruct (_ && _); [|discriminate]. intro E. injection E as <-. unfold bput. change (zlen (@nil Z)) with 0. rewrite Z.add_0_r. apply ztake_zskip.
Qed.
Lemma size_names L : forall i, names_size L = zlen (stored i L).
Proof. induction L as [|[n ty] L IH]; intro i; [reflexivity|]. cbn [stored names_size fold_right fst]. change (fold_right _ 0 L) with (names_size L). rewrite zlen_app, entry_len, <- IH. unfold esize, align_up. lia. Qed.
Lemma regions_fits n x T n' x' P R a : T <> [] -> P <> [] -> spread (regions n x T ++ regions n' x' P ++ R) a -> apart (n, zlen (stored 0 T)) (n', zlen (stored 0 P)).
Proof. intros NT NP S. apply spread_app in S as (_ & _ & AP). apply AP; [apply region_names, NT|apply in_or_app; left; apply region_names, NP]. Qed.
Lemma clear_ok m a T P B fuel m' : inv m TAGS PARAMS T P B a -> Clear fuel m = rret (true, m') ->
  exists a', inv m' TAGS PARAMS T P [] a' /\ p_root m' = Ok 0 /\ a' = HEADER + names_size T + names_size P + index_size T + index_size P /\
    (forall q, a' <= q < a -> rd m' q 1 = Ok [0]).
Proof.
  intros (n & x & n' & x' & PO & TT & TP & SP) E. unfold Clear in E. rewrite (size_names T 0), (size_names P 0). set (ts := zlen (stored 0 T)) in *. set (ps := zlen (stored 0 P)) in *.
  pose proof (zlen_nonneg (stored 0 T)) as TS0. pose proof (zlen_nonneg (stored 0 P)) as PS0. fold ts in TS0. fold ps in PS0.
  apply rbind_inv in E as (m0 & W0 & E). apply some_inj in W0. apply wr32_kept in W0 as (_ & _ & K0 & R0); [|unfold int32; lia].
  assert (PO0 : pool m0 a) by (apply (pool_kept m m0 a 44 4 PO K0); lia). pose proof PO0 as (A0 & _ & _ & _ & B0 & A4 & _). pose proof PO as (_ & _ & _ & _ & Bm & _). pose proof (pool_len _ _ PO0) as [IZ IA].
  assert (SPT : spread (regions n x T) a) by (apply spread_app in SP; apply SP). assert (SPP : spread (regions n' x' P) a) by (apply spread_drop, spread_app in SP; apply SP).
  assert (TT0 : table m0 TAGS n x T). { destruct K0 as [KL KK]. unfold HEADER in *. apply (table_frame m m0 TAGS n x T a TT); unfold TAGS; try lia; auto; [apply KK; lia|]. intros y k I. pose proof (spread_in _ _ _ _ SPT I). unfold HEADER in *. apply KK; lia. }
  assert (TP0 : table m0 PARAMS n' x' P). { destruct K0 as [KL KK]. unfold HEADER in *. apply (table_frame m m0 PARAMS n' x' P a TP); unfold PARAMS; try lia; auto; [apply KK; lia|]. intros y k I. pose proof (spread_in _ _ _ _ SPP I). unfold HEADER in *. apply KK; lia. }
  clear TT TP K0 PO Bm m.
  apply rbind_inv in E as ([s m1] & SZ & E). destruct (size_ok _ _ _ _ _ _ _ _ _ _ PO0 TT0 SP SZ) as [-> ->]. clear SZ. fold ts in E.
  apply rbind_inv in E as ([s m1] & SZ & E). destruct (size_ok m0 a PARAMS n' x' P B _ _ _ PO0 TP0 (spread_drop _ _ _ SP) SZ) as [-> ->]. clear SZ. fold ps in E.
  pose proof TT0 as (TMX & TN & TX & TF & TL1 & TG & TND & TN4 & TH & TIX). pose proof TP0 as (PMX & PN & PX & PF & PL1 & PG & PND & PN4 & PH & PIX).
  rewrite TN, rbind_ok, PN, rbind_ok in E. cbv zeta in E.
  assert (BT : T <> [] -> HEADER <= n /\ n + ts <= a) by (intro; eapply table_bound; eauto). assert (BP : P <> [] -> HEADER <= n' /\ n' + ps <= a) by (intro; apply (table_bound m0 PARAMS n' x' P a B PO0 TP0 (spread_drop _ _ _ SP)); auto).
  assert (T0 : T = [] -> ts = 0) by (unfold ts; intros ->; reflexivity). assert (P0 : P = [] -> ps = 0) by (unfold ps; intros ->; reflexivity).
  assert (TD : T = [] \/ T <> []) by (destruct T; [left; reflexivity|right; discriminate]). assert (PD : P = [] \/ P <> []) by (destruct P; [left; reflexivity|right; discriminate]).
  assert (AP : T <> [] -> P <> [] -> n + ts <= n' \/ n' + ps <= n). { intros NT NP. pose proof (regions_fits _ _ _ _ _ _ _ _ NT NP SP) as AP. exact AP. }
  unfold HEADER in *.
  assert (FIT : 92 + ts + ps <= a) by (destruct TD as [T1|T1], PD as [P1|P1]; try specialize (T0 T1); try specialize (P0 P1); try specialize (BT T1); try specialize (BP P1); try specialize (AP T1 P1); lia).
  destruct ((92 <? n) && (n <? 92 + ts + ps)) eqn:C1.
  { exfalso. apply rbind_inv in E as ([y m2] & W & E). apply some_inj in W. apply obind_inv in W as ([z m1] & AL & W). apply (allocate_ok _ a) in AL; [|exact PO0]. destruct z as [z|]; [|injection W as <- <-; discriminate].
    destruct AL as (PS & -> & _). apply obind_inv in W as (m3 & CP & W). injection W as <- <-. destruct (_ && _) in E; [discriminate|]. apply rbind_inv in E as (m4 & W4 & E).
    assert (NA : a <> 92 + ts) by (destruct TD as [T1|T1], PD as [P1|P1]; try specialize (T0 T1); try specialize (P0 P1); try specialize (BT T1); try specialize (BP P1); try specialize (AP T1 P1); lia).
    replace (negb (a =? 92 + ts)) with true in E by lia. replace ((n + ts <=? 92 + ts) || (92 + ts + ps <=? n)) with false in E by lia. discriminate. }
  rewrite rbind_ok in E. destruct (negb (n =? 92) && negb ((n' + ps <=? 92) || (92 + ts <=? n'))) eqn:C2; [discriminate|]. apply rbind_inv in E as (m1 & W1 & E). apply some_inj in W1.
  destruct (negb (n' =? 92 + ts) && negb ((n + ts <=? 92 + ts) || (92 + ts + ps <=? n))) eqn:C3; [discriminate|]. apply rbind_inv in E as (m2 & W2 & E). apply some_inj in W2.
  (* the names are moved *)
  assert (M1 : zlen m1 = zlen m0 /\ (T <> [] -> rd m1 92 ts = Ok (stored 0 T)) /\ (P <> [] -> rd m1 n' ps = Ok (stored 0 P)) /\ (forall q k, 0 <= k -> q + k <= 92 \/ 92 + ts <= q -> rd m1 q k = rd m0 q k)).
  { destruct (Z.eqb_spec n 92) as [N92|N92].
    - injection W1 as <-. split; [reflexivity|]. split; [intro NT; rewrite <- N92; apply has_rd, TH, NT|]. split; [intro NP; apply has_rd, PH, NP|auto].
    - destruct TD as [T1|T1]. + rewrite (T0 T1) in W1. apply copy_nothing in W1. subst m1. split; [reflexivity|]. split; [congruence|]. split; [intro NP; apply has_rd, PH, NP|auto].
      + destruct (copy_inv _ _ _ _ _ _ W1 (has_rd _ _ _ (TH T1)) eq_refl) as [[KL KK] G]. split; [exact KL|]. split; [auto|]. split; [|exact KK]. intro NP. rewrite KK; [apply has_rd, PH, NP|exact PS0|]. specialize (BP NP). lia. }
  destruct M1 as (ML1 & MT1 & MP1 & MK1).
  assert (M2 : zlen m2 = zlen m0 /\ (T <> [] -> rd m2 92 ts = Ok (stored 0 T)) /\ (P <> [] -> rd m2 (92 + ts) ps = Ok (stored 0 P)) /\ (forall q k, 0 <= k -> q + k <= 92 \/ 92 + ts + ps <= q -> rd m2 q k = rd m0 q k)).
  { destruct (Z.eqb_spec n' (92 + ts)) as [N92|N92].
    - injection W2 as <-. split; [exact ML1|]. split; [exact MT1|]. split; [rewrite <- N92; exact MP1|]. intros q k K D. apply MK1; lia.
    - destruct PD as [P1|P1]. + rewrite (P0 P1) in W2. apply copy_nothing in W2. subst m2. split; [exact ML1|]. split; [exact MT1|]. split; [congruence|]. intros q k K D. apply MK1; lia.
      + destruct (copy_inv _ _ _ _ _ _ W2 (MP1 P1) eq_refl) as [[KL KK] G]. split; [congruence|]. split; [intro NT; rewrite KK by lia; auto|]. split; [auto|]. intros q k K D. rewrite KK, MK1 by lia. reflexivity. }
  destruct M2 as (ML2 & MT2 & MP2 & MK2). clear ML1 MT1 MP1 MK1 W1 W2 C2 C3 m1.
  apply rbind_inv in E as (m6 & W & E). apply some_inj in W. apply obind_inv in W as (m3 & W3 & W). apply obind_inv in W as (m4 & W4 & W). apply obind_inv in W as (m5 & W5 & W6).
  apply wr32_kept in W3 as (_ & _ & [KL3 K3] & G3); [|unfold int32; lia]. apply wr32_kept in W4 as (_ & _ & [KL4 K4] & G4); [|unfold int32; lia]. apply wr32_kept in W5 as (_ & _ & [KL5 K5] & G5); [|unfold int32 in *; lia]. apply wr32_kept in W6 as (_ & _ & [KL6 K6] & G6); [|unfold int32; lia].
  unfold TAGS, PARAMS in K3, K4, K5, K6, G3, G4, G5, G6. change (60 + 4) with 64 in *. change (60 + 8) with 68 in *. change (60 + 12) with 72 in *. change (76 + 4) with 80 in *. change (76 + 8) with 84 in *. change (76 + 12) with 88 in *.
  assert (HD : forall q k, 0 <= k -> q + k <= 64 \/ (72 <= q /\ q + k <= 80) \/ (88 <= q /\ q + k <= 92) -> rd m6 q k = rd m0 q k). { intros q k K D. rewrite K6, K5, K4, K3, MK2 by lia. reflexivity. }
  assert (HB : forall q k, 0 <= k -> 92 <= q -> rd m6 q k = rd m2 q k). { intros q k K D. rewrite K6, K5, K4, K3 by lia. reflexivity. }
  apply rbind_inv in E as (old & OA & E). apply some_inj in OA. assert (old = a). { unfold p_allocator, rd_s32 in *. rewrite HD in OA by lia. rewrite A0 in OA. injection OA as <-. reflexivity. } subst old. clear OA.
  apply rbind_inv in E as (m8 & W & E). apply some_inj in W. apply obind_inv in W as (m7 & W7 & W8). apply wr32_kept in W7 as (_ & _ & [KL7 K7] & G7); [|unfold int32 in *; lia]. set (new := 92 + ts + ps) in *.
  assert (M8 : zlen m8 = zlen m7 /\ (forall q k, 0 <= k -> q + k <= new \/ a <= q -> rd m8 q k = rd m7 q k) /\ (forall q, new <= q < a -> rd m8 q 1 = Ok [0])).
  { destruct (Z.ltb_spec new a) as [LT|GE].
    - destruct (wr_kept _ _ _ _ W8) as (_ & _ & [KL KK] & G). rewrite zlen_repeat in KK, G by lia. split; [exact KL|]. split; [intros; apply KK; lia|]. intros q Q. exact (zeros_part m8 new q 1 (a - new) G ltac:(lia) ltac:(lia) ltac:(lia)).
    - injection W8 as <-. split; [reflexivity|]. split; [reflexivity|]. intros q Q. lia. }
  destruct M8 as (KL8 & K8 & Z8). clear W8.
  assert (PO8 : pool m8 new).
  { destruct PO0 as (Q1 & Q2 & Q3 & (M & Q4 & Q5) & Q6 & Q7 & Q8). unfold pool, p_allocator, p_limit, p_file_size, p_mmap_size, rd_s32 in *. assert (ZL : zlen m8 = zlen m0) by lia. rewrite !K8 by lia. rewrite (K7 56 4), (K7 32 4), (K7 36 4) by lia. rewrite !HD by lia. rewrite ZL.
    split; [exact G7|]. split; [exact Q2|]. split; [exact Q3|]. split; [exists M; auto|]. split; [unfold HEADER; lia|]. split; [|exact Q8]. pose proof (stored_mod T 0). pose proof (stored_mod P 0). fold ts in H. fold ps in H0. unfold new. lia. }
  assert (RT8 : p_root m8 = Ok 0). { unfold p_root, rd_s32 in *. rewrite K8, K7, HD by lia. exact R0. }
  assert (TT8 : table m8 TAGS 92 0 T).
  { unfold tablef, t_max_id, t_names, t_index, t_flags, TAGS, rd_s32 in *. change (60 + 4) with 64 in *. change (60 + 8) with 68 in *. change (60 + 12) with 72 in *. change (76 + 4) with 80 in *. change (76 + 8) with 84 in *. change (76 + 12) with 88 in *. rewrite !K8 by lia. rewrite !K7 by lia. rewrite (HD 60 4), (HD 72 4) by lia. do 1 (split; [assumption|]). split; [rewrite K6, K5, K4 by lia; exact G3|]. split; [rewrite K6, K5 by lia; exact G4|]. do 4 (split; [assumption|]). split; [reflexivity|]. split; [|lia].
    intro NT. apply has_range_rd. fold ts. rewrite K8, K7, HB by lia. auto. }
  assert (TP8 : table m8 PARAMS (92 + ts) 0 P).
  { unfold tablef, t_max_id, t_names, t_index, t_flags, PARAMS, rd_s32 in *. change (60 + 4) with 64 in *. change (60 + 8) with 68 in *. change (60 + 12) with 72 in *. change (76 + 4) with 80 in *. change (76 + 8) with 84 in *. change (76 + 12) with 88 in *. rewrite !K8 by lia. rewrite !K7 by lia. rewrite (HD 76 4), (HD 88 4) by lia. do 1 (split; [assumption|]). split; [rewrite K6 by lia; exact G5|]. split; [exact G6|]. do 4 (split; [assumption|]). split; [pose proof (stored_mod T 0); fold ts in H; lia|]. split; [|lia].
    intro NP. apply has_range_rd. fold ps. rewrite K8, K7, HB by lia. auto. }
  assert (SP8 : spread (regions 92 0 T ++ regions (92 + ts) 0 P ++ []) new).
  { unfold regions, index_at, names_at. change (0 =? 0) with true. cbv iota. rewrite !app_nil_r. fold ts. fold ps. destruct TD as [T1|T1], PD as [P1|P1]; try specialize (T0 T1); try specialize (P0 P1).
    all: destruct T as [|e T]; try congruence; destruct P as [|f P]; try congruence; cbn [app]. all: split; [repeat constructor; unfold apart; cbn [fst snd]; lia|]. all: intros y k I; cbn [In] in I; unfold HEADER.
    all: assert (forall (e : list Z * Z) (L : names) i, 0 < zlen (stored i (e :: L))) as POS by (intros [nm ty] L i; cbn [stored]; rewrite zlen_app, entry_len; pose proof (esize_ge nm); pose proof (zlen_nonneg nm); pose proof (zlen_nonneg (stored (i + 1) L)); lia).
    all: try pose proof (POS e T 0); try pose proof (POS f P 0). all: repeat match goal with H : _ \/ _ |- _ => destruct H | H : (_, _) = (_, _) |- _ => injection H as <- <- | H : False |- _ => contradiction end. all: unfold ts, ps, new in *; lia. }
  clear HD HB K3 K4 K5 K6 K7 G3 G4 G5 G6 MT2 MP2 MK2.
  apply rbind_inv in E as ([ok m9] & MT & E). destruct (makeTable_ok m8 new TAGS 92 0 T _ _ _ _ PO8 (or_introl eq_refl) TT8 SP8 MT) as (ST9 & x9 & a9 & A9 & PO9 & TT9 & SP9 & OK9 & AB9). destruct ok; [|discriminate]. cbn [negb] in E. destruct (OK9 eq_refl) as [_ EA9].
  assert (TP9 : table m9 PARAMS (92 + ts) 0 P). { apply (table_step m8 m9 new TAGS PARAMS); auto; [left; auto|]. apply spread_drop, spread_app in SP8. apply SP8. }
  assert (SP9' : spread (regions (92 + ts) 0 P ++ regions 92 x9 T ++ []) a9). { eapply spread_perm; [|exact SP9]. rewrite !app_nil_r. apply Permutation_app_comm. }
  destruct (makeTable_ok m9 a9 PARAMS (92 + ts) 0 P _ _ _ _ PO9 (or_intror eq_refl) TP9 SP9' E) as (ST' & x10 & a' & AA' & PO' & TP' & SP' & OK' & AB'). destruct (OK' eq_refl) as [_ EA'].
  exists a'. split; [|split; [|split]].
  - exists 92, x9, (92 + ts), x10. split; [exact PO'|]. split; [apply (table_step m9 m' a9 PARAMS TAGS); auto; [right; auto|apply spread_app in SP9; apply SP9]|]. split; [exact TP'|]. eapply spread_perm; [|exact SP']. rewrite !app_nil_r. apply Permutation_app_comm.
  - unfold p_root, rd_s32 in *. destruct ST' as [_ ST'], ST9 as [_ ST9]. rewrite ST', ST9 by (unfold TAGS, PARAMS; lia). exact RT8.
  - unfold index_size, HEADER. lia.
  - intros q Q. rewrite AB', AB9 by lia. apply Z8. lia.
Qed.
