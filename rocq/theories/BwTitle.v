(** What a pool is used for leaves its title. *)
From Verif Require Import Base BaseFacts Types ListFacts Sort Xb XbSpec XbFacts XbWrite WriteProofs Bw BwFacts BwRing BwSpec BwHist BwAlloc BwProofs BwRead BwTop BwSym BwReg BwFileSpec BwFileProofs BwNamesSpec BwNamesFacts BwNamesInv BwNamesReg BwNamesOps BwNamesIndex BwNamesProofs BwImport BwAlter BwLifeSpec BwImportProofs BwDetach BwLife JsonSource.

(** ** Stores behind the title *)
Definition low m : Prop := exists a, p_allocator m = Ok a /\ 60 <= a.
Definition up m m' : Prop := low m -> low m' /\ rd m' 4 28 = rd m 4 28.
Lemma up_refl m : up m m.
Proof. intro; auto. Qed.
Lemma up_trans m1 m2 m3 : up m1 m2 -> up m2 m3 -> up m1 m3.
Proof. intros A B L. destruct (A L) as [L2 E2]. destruct (B L2) as [L3 E3]. split; [exact L3|congruence]. Qed.
Lemma pool_low m a : pool m a -> low m.
Proof. intros (A & _ & _ & _ & B & _). exists a. unfold HEADER in B. split; [exact A|lia]. Qed.
Lemma up_kept m m' p n : kept m m' p n -> 56 <= p \/ 32 <= p /\ p + n <= 52 -> up m m'.
Proof.
  intros [_ K] C (a & A & B). split; [|apply K; lia]. exists a. split; [|exact B]. unfold p_allocator, rd_s32 in *. rewrite K by lia. exact A.
Qed.
Lemma up_wr m p bs m' : wr m p bs = Ok m' -> 56 <= p -> up m m'.
Proof. intros W P. destruct (wr_kept _ _ _ _ W) as (_ & _ & K & _). apply (up_kept _ _ _ _ K). auto. Qed.
Lemma up_wr32 m p v m' : wr32 m p v = Ok m' -> 56 <= p \/ p = 44 -> up m m'.
Proof. unfold wr32. intros W P. destruct (wr_kept _ _ _ _ W) as (_ & _ & K & _). rewrite zlen_le4 in K. apply (up_kept _ _ _ _ K). lia. Qed.
Lemma up_new m v m' : wr32 m 52 v = Ok m' -> int32 v -> 60 <= v -> up m m'.
Proof. intros W I V L. apply wr32_kept in W as (_ & _ & [_ K] & R); [|exact I]. split; [exists v; auto|apply K; lia]. Qed.
Lemma up_allocate m n r m' : allocate m n = Ok (r, m') -> low m -> low m' /\ rd m' 4 28 = rd m 4 28 /\ forall x, r = Some x -> 60 <= x.
Proof.
  unfold allocate. intros E L. pose proof L as (a & A & B). destruct (n <=? 0) eqn:N0; [injection E as <- <-; repeat split; auto; discriminate|].
  apply int_inv in E as [_ E]. rewrite A in E. cbn [obind] in E. apply obind_inv in E as (l & LI & E). apply int_inv in E as [I E]. pose proof (align4_ge n). destruct (_ <? _); [injection E as <- <-; repeat split; auto; discriminate|].
  apply obind_inv in E as (m1 & W1 & E). apply obind_inv in E as (m2 & W2 & E). injection E as <- <-. destruct (up_trans _ _ _ (up_new _ _ _ W1 I ltac:(lia)) (up_wr _ _ _ _ W2 ltac:(lia)) L) as [L2 E2]. split; [exact L2|]. split; [exact E2|]. intros x Q. injection Q as <-. exact B.
Qed.
Lemma up_size fuel m t s m' : istab t -> getNamesSize fuel m t = rret (s, m') -> up m m'.
Proof.
  unfold getNamesSize. intros IT E. apply rbind_inv in E as (n & _ & E). destruct (n =? 0); [apply rret_inj in E; injection E as _ <-; apply up_refl|]. apply rbind_inv in E as (l & _ & E). apply rbind_inv in E as (mx & _ & E). apply rbind_inv in E as ([p mx'] & _ & E).
  apply rbind_inv in E as (m1 & W & E). apply rret_inj in E. injection E as _ <-. apply some_inj in W. destruct (_ =? _); [injection W as <-; apply up_refl|]. apply (up_wr32 _ _ _ _ W). unfold istab, TAGS, PARAMS in IT. lia.
Qed.
Lemma up_copy m src dst n m' : copy m src dst n = Ok m' -> 56 <= dst -> up m m'.
Proof. unfold copy. intros E D. apply obind_inv in E as (b & _ & W). apply (up_wr _ _ _ _ W D). Qed.
Lemma up_fill max_id index stop : 60 <= index -> forall n m start ok m', fill_index n m max_id index start stop = Ok (ok, m') -> up m m'.
Proof.
  intros X. induction n as [|n IH]; cbn [fill_index]; intros m start ok m' E; [injection E as _ <-; apply up_refl|]. destruct (_ <=? _); [injection E as _ <-; apply up_refl|]. apply obind_inv in E as (id & _ & E).
  destruct ((id <? 0) || (max_id <? id)) eqn:C; [injection E as _ <-; apply up_refl|]. apply obind_inv in E as (m1 & W & E). apply obind_inv in E as (s & _ & E). apply (up_trans _ m1); [apply (up_wr32 _ _ _ _ W); lia|exact (IH _ _ _ _ E)].
Qed.
Lemma up_table fuel m t ok m' : istab t -> makeTable fuel m t = rret (ok, m') -> up m m'.
Proof.
  unfold makeTable. intros IT E L. assert (T60 : 60 <= t) by (unfold istab, TAGS, PARAMS in IT; lia). apply rbind_inv in E as (m1 & W & E). apply some_inj in W. destruct (up_wr32 _ _ _ _ W ltac:(lia) L) as [L1 E1]. rewrite <- E1. clear W E1 L m. apply rbind_inv in E as (mx & _ & E).
  destruct (mx <? 0); [apply rret_bool in E as [_ <-]; auto|]. apply rbind_inv in E as (n & _ & E). destruct (n =? 0); [apply rret_bool in E as [_ <-]; auto|]. apply rbind_inv in E as ([x m2] & A & E). apply some_inj in A. apply int_inv in A as [_ A].
  destruct (up_allocate _ _ _ _ A L1) as (L2 & E2 & X2). rewrite <- E2. clear A E2 L1 m1. destruct x as [x|]; [|apply rret_bool in E as [_ <-]; auto]. specialize (X2 x eq_refl).
  apply rbind_inv in E as ([s m3] & SZ & E). destruct (up_size _ _ _ _ _ IT SZ L2) as [L3 E3]. rewrite <- E3. clear SZ E3 L2 m2. apply rbind_inv in E as (mx' & _ & E). apply rbind_inv in E as ([ok2 m4] & FI & E). apply some_inj in FI.
  destruct (up_fill _ _ _ X2 _ _ _ _ _ FI L3) as [L4 E4]. rewrite <- E4. clear FI E4 L3 m3. destruct (negb ok2); [apply rret_bool in E as [_ <-]; auto|]. apply rbind_inv in E as (m5 & W & E). apply some_inj in W. apply rret_bool in E as [_ <-].
  apply (up_wr32 _ _ _ _ W); [lia|exact L4].
Qed.
Lemma istab_tags : istab TAGS.
Proof. left. reflexivity. Qed.
Lemma istab_params : istab PARAMS.
Proof. right. reflexivity. Qed.

(** ** The operations *)
Lemma all_title fuel disk ch fl m a ok m' : pool m a -> allRegistered fuel disk ch fl m = rret (ok, m') -> rd m' 4 28 = rd m 4 28.
Proof.
  unfold allRegistered. intros PO E. apply rbind_inv in E as ([ok1 m1] & MS & E). apply some_inj in MS. apply (makeSpace_ok _ _ a) in MS as (PO1 & [_ EX] & _); [|exact PO]. rewrite <- (EX 4 28) by lia. clear EX PO m. apply pool_low in PO1.
  destruct (negb ok1); [apply rret_bool in E as [_ <-]; auto|]. apply rbind_inv in E as (it & _ & E). apply rbind_inv in E as (ip & _ & E). destruct (_ && _); [apply rret_bool in E as [_ <-]; auto|]. apply rbind_inv in E as ([ok2 m2] & MT & E).
  assert (U : up m1 m2) by (destruct (it =? 0); [exact (up_table _ _ _ _ _ istab_tags MT)|apply rret_bool in MT as [_ <-]; apply up_refl]). destruct (U PO1) as [L2 E2]. rewrite <- E2. destruct (negb ok2); [apply rret_bool in E as [_ <-]; auto|].
  apply rbind_inv in E as (ip2 & _ & E). destruct (ip2 =? 0); [apply (up_table _ _ _ _ _ istab_params E L2)|apply rret_bool in E as [_ <-]; auto].
Qed.
Lemma clear_title fuel m T P B a m' : BwNamesInv.inv m TAGS PARAMS T P B a -> Clear fuel m = rret (true, m') -> rd m' 4 28 = rd m 4 28.
Proof.
  intros I E. destruct (clear_ok _ _ _ _ _ _ _ I E) as (a' & I' & _ & EA & _). apply names_pool in I' as [PA' _]. destruct (pool_len _ _ PA') as [_ IA']. destruct I as (n & x & n' & x' & PO & TT & TP & SP). rewrite (size_names T 0), (size_names P 0) in EA.
  assert (IB : int32 (92 + zlen (stored 0 T) + zlen (stored 0 P))). { unfold index_size, HEADER in EA. unfold int32 in *. pose proof (zlen_nonneg T). pose proof (zlen_nonneg P). pose proof (zlen_nonneg (stored 0 T)). pose proof (zlen_nonneg (stored 0 P)). lia. } clear EA IA' PA' a'.
  unfold Clear in E. apply rbind_inv in E as (m0 & W & E). apply some_inj in W. destruct (up_wr32 _ _ _ _ W ltac:(lia) (pool_low _ _ PO)) as [L0 E0]. rewrite <- E0. clear E0. apply wr32_kept in W as (_ & _ & K0 & R0); [|unfold int32; lia].
  assert (PO0 : pool m0 a) by (apply (pool_kept m m0 a 44 4 PO K0); lia). pose proof PO as (_ & _ & _ & _ & Bm & _).
  assert (SPT : spread (regions n x T) a) by (apply spread_app in SP; apply SP). assert (SPP : spread (regions n' x' P) a) by (apply spread_drop, spread_app in SP; apply SP).
  assert (TT0 : table m0 TAGS n x T). { destruct K0 as [KL KK]. unfold HEADER in *. apply (table_frame m m0 TAGS n x T a TT); unfold TAGS; try lia; auto; [apply KK; lia|]. intros y k I. pose proof (spread_in _ _ _ _ SPT I). unfold HEADER in *. apply KK; lia. }
  assert (TP0 : table m0 PARAMS n' x' P). { destruct K0 as [KL KK]. unfold HEADER in *. apply (table_frame m m0 PARAMS n' x' P a TP); unfold PARAMS; try lia; auto; [apply KK; lia|]. intros y k I. pose proof (spread_in _ _ _ _ SPP I). unfold HEADER in *. apply KK; lia. }
  clear TT TP K0 PO Bm R0 m. pose proof (spread_drop _ _ _ SP) as SPR.
  apply rbind_inv in E as ([ts m1] & S1 & E). destruct (size_ok _ _ _ _ _ _ _ _ _ _ PO0 TT0 SP S1) as [-> ->]. apply rbind_inv in E as ([ps m2] & S2 & E). destruct (size_ok _ _ _ _ _ _ _ _ _ _ PO0 TP0 SPR S2) as [-> ->].
  pose proof (zlen_nonneg (stored 0 T)) as TS0. pose proof (zlen_nonneg (stored 0 P)) as PS0. set (ts := zlen (stored 0 T)) in *. set (ps := zlen (stored 0 P)) in *. clearbody ts ps. clear S1 S2 TT0 TP0 SPT SPP SPR SP PO0. rename m0 into m2, L0 into L2.
  apply rbind_inv in E as (tsrc & _ & E). apply rbind_inv in E as (psrc & _ & E). cbv zeta in E. unfold HEADER in E. apply rbind_inv in E as ([src m3] & A & E). apply some_inj in A. assert (U : up m2 m3).
  { destruct (_ && _); [|injection A as _ <-; apply up_refl]. apply obind_inv in A as ([x0 m4] & A & C). intros _. destruct (up_allocate _ _ _ _ A L2) as (L4 & E4 & X4). rewrite <- E4. destruct x0 as [x0|]; [|injection C as _ <-; auto]. apply obind_inv in C as (m5 & C & Q). injection Q as _ <-.
    specialize (X4 x0 eq_refl). apply (up_copy _ _ _ _ _ C); [lia|exact L4]. }
  destruct (U L2) as [L3 E3]. rewrite <- E3. clear U A E3 L2 m2. destruct src as [src|]; [|apply rret_bool in E as [_ <-]; reflexivity]. destruct (_ && _); [apply rret_bool in E as [_ <-]; reflexivity|].
  apply rbind_inv in E as (m4 & C4 & E). apply some_inj in C4. assert (U : up m3 m4) by (destruct (_ =? _); [injection C4 as <-; apply up_refl|apply (up_copy _ _ _ _ _ C4); lia]). destruct (U L3) as [L4 E4]. rewrite <- E4. clear U C4 E4 L3 m3.
  destruct (_ && _); [apply rret_bool in E as [_ <-]; reflexivity|].
  apply rbind_inv in E as (m5 & C5 & E). apply some_inj in C5. assert (U : up m4 m5) by (destruct (_ =? _); [injection C5 as <-; apply up_refl|apply (up_copy _ _ _ _ _ C5); lia]). destruct (U L4) as [L5 E5]. rewrite <- E5. clear U C5 E5 L4 m4.
  apply rbind_inv in E as (m9 & W & E). apply some_inj in W. apply obind_inv in W as (m6 & W6 & W). apply obind_inv in W as (m7 & W7 & W). apply obind_inv in W as (m8 & W8 & W). unfold TAGS, PARAMS in W6, W7, W8, W.
  assert (U : up m5 m9) by (apply (up_trans _ m6); [apply (up_wr32 _ _ _ _ W6); lia|]; apply (up_trans _ m7); [apply (up_wr32 _ _ _ _ W7); lia|]; apply (up_trans _ m8); [apply (up_wr32 _ _ _ _ W8); lia|apply (up_wr32 _ _ _ _ W); lia]).
  destruct (U L5) as [L9 E9]. rewrite <- E9. clear U W6 W7 W8 W E9 L5 m5 m6 m7 m8. apply rbind_inv in E as (old & _ & E). apply rbind_inv in E as (mb & W & E). apply some_inj in W. apply obind_inv in W as (ma & WA & W).
  assert (U : up m9 mb). { apply (up_trans _ ma); [apply (up_new _ _ _ WA IB); lia|]. destruct (_ <? _); [apply (up_wr _ _ _ _ W); lia|injection W as <-; apply up_refl]. } destruct (U L9) as [LB EB]. rewrite <- EB. clear U W WA EB.
  apply rbind_inv in E as ([ok mc] & MT & E). destruct (up_table _ _ _ _ _ istab_tags MT LB) as [LC EC]. rewrite <- EC. destruct (negb ok); [apply rret_bool in E as [_ <-]; reflexivity|]. apply (up_table _ _ _ _ _ istab_params E LC).
Qed.
Lemma register_title fl m t u L K B a s ty fuel id m' : two t u -> invf fl m t u L K B a -> fl = 0 /\ (place s L <> None \/ zlen L < 128) \/ fl = 1 /\ place s L = None /\ zlen L < 128 -> proper s -> 0 <= ty < 256 ->
  register fuel m t s ty = rret (id, m') -> rd m' 4 28 = rd m 4 28.
Proof.
  intros TW (n & x & n' & x' & PO & T1 & T2 & SP) C PS TY E. destruct C as [[-> RM]|(-> & PL & RM)].
  - destruct (register_ok m a t u n x L _ s ty fuel id m' PO TW T1 SP PS TY RM E) as (_ & (_ & H & _) & _). exact H.
  - destruct (fast_ok m a t u n x L _ s ty fuel id m' PO TW T1 SP PS TY PL RM E) as (_ & (_ & H & _) & _). exact H.
Qed.
Lemma entering_title fl fuel t u K B : two t u -> forall m L N m' L', entering fuel t m L N m' L' -> forall a, invf fl m t u L K B a -> fl = 0 \/ fl = 1 /\ (forall s, In s (map fst N) -> place s L = None) -> listable N -> zlen L + zlen N <= 128 ->
  rd m' 4 28 = rd m 4 28.
Proof.
  intros TW m L N m' L' EN. induction EN as [m L|m L s ty N id m1 m' L' E EN IH]; intros a I FL [ND FA] LN; [reflexivity|].
  cbn [map fst] in *. rewrite zlen_cons in LN. pose proof (zlen_nonneg N). inversion ND as [|? ? NI ND2]; subst. inversion FA as [|? ? [PS TY] FA2]; subst. cbn [fst snd] in *.
  destruct (invf_register fl m t u L K B a s ty fuel id m1 TW I) as (ID & KK & a1 & AA & I1); auto; [destruct FL as [->|[-> FL]]; [auto|right; split; [reflexivity|apply FL; left; reflexivity]]|lia|].
  rewrite (IH a1 I1).
  - apply (register_title fl m t u L K B a s ty fuel id m1 TW I); auto. destruct FL as [->|[-> FL]]; [left; split; [reflexivity|right; lia]|]. right. split; [reflexivity|]. split; [apply FL; left; reflexivity|lia].
  - destruct FL as [->|[-> FL]]; [auto|]. right. split; [reflexivity|]. intros s' J. destruct (id =? -1); [apply FL; right; exact J|]. apply place_noted; [apply FL; right; exact J|]. intros ->. exact (NI J).
  - split; assumption.
  - pose proof (noted_len s ty L). destruct (id =? -1); lia.
Qed.
Lemma import_title fuel t u m L K B a N m1 m2 L' m' : two t u -> BwNamesInv.inv m t u L K B a -> listable N -> zlen L + zlen N <= 128 -> set_fast m t = Ok m1 -> entering fuel t m1 L N m2 L' -> set_fast m2 t = Ok m' ->
  rd m' 4 28 = rd m 4 28.
Proof.
  intros TW I LN ZL S1 EN S2. destruct (set_fast_ok 0 m t u L K B a m1 TW (or_introl eq_refl) I S1) as (_ & _ & K1 & I1).
  assert (FE : (match L with [] => 1 | _ => 0 end) = 0 \/ (match L with [] => 1 | _ => 0 end) = 1 /\ (forall s, In s (map fst N) -> place s L = None)) by (destruct L; auto).
  pose proof (entering_title _ fuel t u K B TW m1 L N m2 L' EN a I1 FE LN ZL) as E2. destruct (entering_ok _ fuel t u K B TW m1 L N m2 L' EN a I1 FE LN ZL) as (_ & a2 & A2 & I2).
  assert (FL : (match L with [] => 1 | _ => 0 end) = 0 \/ (match L with [] => 1 | _ => 0 end) = 1) by (destruct L; auto). destruct (set_fast_ok _ m2 t u L' K B a2 m' TW FL I2 S2) as (_ & _ & K3 & _).
  assert (60 <= t) by (unfold two, TAGS, PARAMS in TW; lia). rewrite K3, E2, K1 by lia. reflexivity.
Qed.
Lemma off_pos L i : 0 <= off L i.
Proof. unfold off. apply zlen_nonneg. Qed.
Lemma alter_title m t u L K B a fuel id ty ok m' : two t u -> BwNamesInv.inv m t u L K B a -> alter fuel m t id ty = rret (ok, m') -> rd m' 4 28 = rd m 4 28.
Proof.
  intros TW (n & x & n' & x' & PO & T1 & T2 & SP) E. unfold alter in E. destruct (negb _); [apply rret_bool in E as [_ <-]; reflexivity|]. apply rbind_inv in E as (o & EO & E). apply (entry_is _ _ _ _ _ _ _ _ _ _ PO T1 SP) in EO. subst o.
  destruct ((0 <=? id) && (id <? zlen L)) eqn:RG; [|apply rret_bool in E as [_ <-]; reflexivity]. apply rbind_inv in E as (cur & _ & E). destruct (XBT_ConvertableType cur ty); try (apply rret_bool in E as [_ <-]; reflexivity).
  apply rbind_inv in E as (m1 & W & E). apply some_inj in W. apply rret_bool in E as [_ <-]. assert (NE : L <> []) by (intros ->; change (zlen (@nil (list Z * Z))) with 0 in RG; lia). destruct (table_bound _ _ _ _ _ _ _ PO T1 SP NE) as [B1 _]. pose proof (off_pos L (Z.to_nat id)).
  unfold HEADER in B1. apply (up_wr _ _ _ _ W); [lia|exact (pool_low _ _ PO)].
Qed.
Lemma links_title k s m m' F a : BwProofs.inv k s m F -> pool m a -> only_links (members F) m m' -> rd m' 4 28 = rd m 4 28.
Proof. intros I PO [_ OL]. apply OL; [lia|]. intros e J. pose proof (inv_in _ _ _ _ _ _ I PO J) as (B & _). unfold HEADER in B. lia. Qed.

Theorem life_titled k s m T P F : life k s m T P F -> titled m.
Proof.
  unfold titled. intro L0. enough (H : rd m 4 28 = Ok (BwFile.TYPE_INFO ++ zrepeat 0 7)) by exact H. induction L0 as [k s m a PO TI ZZ|k s m T P F fuel nm ty id m' L IH PS TY RM E|k s m T P F fuel nm ty id m' L IH PS TY RM E|k s m T P F fuel disk ch fl ok m' L IH E|k s m T P F t fuel ok m' L IH TT E|k s m T P F fuel m' L IH E|k s m T P F disk id ty n z fl x m' L IH FL TY E SZ|k s m T P F disk id ty n fl m' L IH E|k s m T P F e q bs m' L IH J Q1 Q2 W|k s m T P F e m' L IH J E|k s m T P F n r m' L IH E|k s m T P F n r m' L IH E|k s m T P F disk n r m' L IH E|k s m T P F p t F' ok tr L IH J AD E|k s m T P F a b F' ok tr L IH AD E|k s m T P F p t F' ok tr L IH AD E|k s m T P F p old new c F' ok tr L IH AD NO E|k s m T P F id ty n z fl N x m1 m' L IH FL TY E1 E2 SZ Z0 ZN|k s m T P F fuel N m1 m2 T' m' L IH LN ZL S1 EN NE S2|k s m T P F fuel N m1 m2 P' m' L IH LN ZL S1 EN NE S2|k s m T P F fuel id ty ok m' L IH E|k s m T P F fuel id ty ok m' L IH E|k s m T P F e ty ok m' L IH J TY BS E|k s m T P F p A R m' L IH PM W|k s m T P F p x A R m' L IH PM J UN W|k s m T P F p m' L IH J UN W]; try (exact TI);
    rewrite <- IH; clear IH; pose proof (life_whole _ _ _ _ _ _ L) as (B & a1 & I & EL & IB & _); destruct (names_pool _ _ _ _ _ _ _ I) as [PO _]; pose proof PO as (_ & _ & _ & _ & BB & _); unfold HEADER in BB.
  - exact (register_title 0 _ _ _ _ _ _ _ _ _ _ _ _ tags_first I (or_introl (conj eq_refl RM)) PS TY E).
  - apply inv_swap in I. exact (register_title 0 _ _ _ _ _ _ _ _ _ _ _ _ (two_swap _ _ tags_first) I (or_introl (conj eq_refl RM)) PS TY E).
  - exact (all_title _ _ _ _ _ _ _ _ PO E).
  - apply (up_table _ _ _ _ _ TT E), (pool_low _ _ PO).
  - exact (clear_title _ _ _ _ _ _ _ I E).
  - apply (fresh_ok _ _ a1) in E; [|exact PO]. destruct E as (s2 & a' & _ & _ & _ & _ & _ & _ & _ & [_ EX] & _). apply EX; lia.
  - apply (fresh_ok _ _ a1) in E; [|exact PO]. destruct E as (a' & _ & _ & [_ EX]). apply EX; lia.
  - pose proof (inv_in _ _ _ _ _ _ EL PO J) as (B1 & _). unfold HEADER in B1. apply (up_wr _ _ _ _ W); [lia|exact (pool_low _ _ PO)].
  - apply (root_keeps _ _ _ _ PO) in E as (_ & _ & K). apply K; lia.
  - apply (allocate_ok _ a1) in E; [|exact PO]. destruct r as [x|]; [destruct E as (_ & _ & _ & [_ EX] & _); apply EX; lia|destruct E as (-> & _); reflexivity].
  - apply (allocate8_ok _ a1) in E; [|exact PO]. destruct r as [x|]; [destruct E as (_ & _ & _ & [_ EX] & _); apply EX; lia|destruct E as (_ & [_ EX] & _); apply EX; lia].
  - apply (makeSpace_ok _ _ a1) in E as (_ & [_ EX] & _); [|exact PO]. apply EX; lia.
  - destruct (inv_add _ _ _ _ _ _ _ EL J AD) as (pre & m1 & E2 & I2 & _ & OL). rewrite E2 in E. injection E as <- <-. rewrite final_snoc in *. exact (links_title _ _ _ _ _ _ EL PO OL).
  - destruct (inv_join _ _ _ _ _ _ _ EL AD) as (m1 & m2 & m3 & m4 & E2 & I2 & _ & OL). rewrite E2 in E. injection E as <- <-. exact (links_title _ _ _ _ _ _ EL PO OL).
  - destruct (inv_remove _ _ _ _ _ _ _ EL AD) as (tr' & E2 & I2 & OL). rewrite E2 in E. injection E as <- <-. exact (links_title _ _ _ _ _ _ EL PO OL).
  - destruct (inv_replace _ _ _ _ _ _ _ _ _ EL AD NO) as (tr' & E2 & I2 & OL). rewrite E2 in E. injection E as <- <-. exact (links_title _ _ _ _ _ _ EL PO OL).
  - apply (allocate8_ok _ a1) in E1; [|exact PO]. destruct E1 as (_ & -> & PO1 & [_ EX] & _). rewrite <- (EX 4 28) by lia. unfold init in E2. apply obind_inv in E2 as (b & _ & E2). destruct (_ && _); [|discriminate]. pose proof (align8_ge a1). apply (up_wr _ _ _ _ E2); [lia|exact (pool_low _ _ PO1)].
  - exact (import_title _ _ _ _ _ _ _ _ _ _ _ _ _ tags_first I LN ZL S1 EN S2).
  - apply inv_swap in I. exact (import_title _ _ _ _ _ _ _ _ _ _ _ _ _ (two_swap _ _ tags_first) I LN ZL S1 EN S2).
  - exact (alter_title _ _ _ _ _ _ _ _ _ _ _ _ tags_first I E).
  - apply inv_swap in I. exact (alter_title _ _ _ _ _ _ _ _ _ _ _ _ (two_swap _ _ tags_first) I E).
  - pose proof (inv_in _ _ _ _ _ _ EL PO J) as (B1 & _). unfold HEADER in B1. unfold retype in E. apply obind_inv in E as (old & _ & E). pose proof (pool_low _ _ PO) as LO.
    repeat match type of E with (if ?c then _ else _) = _ => destruct c | obind _ _ = Ok _ => let m1 := fresh in let W := fresh "W" in apply obind_inv in E as (m1 & W & E) end; injection E as <- <-; try reflexivity; match goal with W : wr _ _ _ = Ok _ |- _ => apply (up_wr _ _ _ _ W); [lia|exact LO] end.
  - destruct (inv_detach k s m F p A R m' EL PM W) as [I2 OL]. exact (links_title _ _ _ _ _ _ EL PO OL).
  - destruct (inv_hang k s m F p x A R m' EL PM J UN W) as [I2 OL]. exact (links_title _ _ _ _ _ _ EL PO OL).
  - destruct (inv_bare k s m F p m' EL J UN W) as [I2 OL]. exact (links_title _ _ _ _ _ _ EL PO OL).
Qed.
