(** Importing names keeps the invariant of the names. *)
From Verif Require Import Base BaseFacts Types ListFacts Sort Xb XbSpec XbFacts XbWrite WriteProofs Bw BwFacts BwSpec BwHist BwAlloc BwSym BwReg BwFileSpec BwFileProofs BwNamesSpec BwNamesFacts BwNamesInv BwNamesReg BwNamesOps BwNamesIndex BwNamesProofs BwImport BwLifeSpec JsonSource.

(** The invariant while the table [t] has the flags [fl] *)
Definition invf fl m t u L K B a : Prop := exists n x n' x', pool m a /\ tablef fl m t n x L /\ table m u n' x' K /\ spread (regions n x L ++ regions n' x' K ++ B) a.

(** The flags *)
Lemma set_fast_ok fl m t u L K B a m' : two t u -> fl = 0 \/ fl = 1 -> invf fl m t u L K B a -> set_fast m t = Ok m' ->
  zlen m' = zlen m /\ (forall y k, In (y, k) B -> rd m' y k = rd m y k) /\ (forall q k, 0 <= k -> q + k <= t + 12 \/ t + 16 <= q -> rd m' q k = rd m q k) /\ invf (match L with [] => 1 | _ => 0 end) m' t u L K B a.
Proof.
  intros TW FL (n & x & n' & x' & PO & TB & TU & SP) E. pose proof PO as (_ & _ & _ & _ & BB & _). pose proof TB as (MX & N & X & F & L1 & G & ND & N4 & H & IX). unfold set_fast in E. rewrite MX, F in E. cbn [obind] in E.
  assert (V : (if zlen L - 1 =? -1 then Z.lor fl FAST_REG else Z.land fl (4294967295 - FAST_REG)) = match L with [] => 1 | _ => 0 end). { destruct L as [|e L]; [destruct FL as [-> | ->]; reflexivity|]. rewrite zlen_cons. pose proof (zlen_nonneg L). replace (1 + zlen L - 1 =? -1) with false by lia. destruct FL as [-> | ->]; reflexivity. }
  rewrite V in E. clear V. set (fl' := match L with [] => 1 | _ => 0 end) in *. assert (FB : fl' = 0 \/ fl' = 1) by (unfold fl'; destruct L; auto). destruct (wr_kept _ _ _ _ E) as (_ & _ & KE & G1). rewrite le_zlen in KE, G1. change (Z.of_nat 4) with 4 in *. pose proof KE as [KL KK].
  destruct (spread_app _ _ _ SP) as (SPL & SPR & _). destruct (spread_app _ _ _ SPR) as (SPK & SPB & _). unfold two, HEADER, TAGS, PARAMS in *.
  split; [exact KL|]. split. { intros y k I. pose proof (spread_in _ _ _ _ SPB I). unfold HEADER in *. apply KK; lia. } split; [intros; apply KK; lia|]. exists n, x, n', x'. split; [apply (pool_kept m m' a (t + 12) 4 PO KE); lia|]. split; [|split; [|exact SP]].
  - unfold tablef, t_max_id, t_names, t_index in *. rewrite !(kept_s32 _ _ _ _ _ KE) by lia. do 3 (split; [assumption|]). split. { unfold t_flags. rewrite G1. cbn [obind]. destruct FB as [-> | ->]; reflexivity. }
    split; [exact L1|]. split; [exact G|]. split; [exact ND|]. split; [exact N4|]. split.
    + intro NE. specialize (H NE). apply has_range_rd. rewrite KK; [apply has_rd, H|apply zlen_nonneg|]. pose proof (spread_in _ _ _ _ SPL (region_names n x L NE)). unfold HEADER in *. lia.
    + intro X0. destruct (IX X0) as [NE I]. split; [exact NE|]. intros i e NI. rewrite <- (I i e NI). unfold rd_s32. assert (LI : (i < List.length L)%nat) by (apply nth_error_Some; congruence). pose proof (spread_in _ _ _ _ SPL (region_index n x L X0)). unfold HEADER, zlen in *. rewrite KK by lia. reflexivity.
  - apply (table_frame m m' u n' x' K a TU); try lia; [apply KK; lia|exact SPK|]. intros y k I. pose proof (spread_in _ _ _ _ SPK I). unfold HEADER in *. apply KK; lia.
Qed.

(** Registering a new name without searching for it *)
Lemma names_first fl m a t n x L R m1 : pool m a -> istab t -> tablef fl m t n x L -> spread (regions n x L ++ R) a -> (names <- t_names m t ;; if names =? 0 then a <- p_allocator m ;; wr32 m (t + 4) a else Ok m) = Ok m1 ->
  exists n1, pool m1 a /\ step m m1 a t /\ tablef fl m1 t n1 x L /\ spread (regions n1 x L ++ R) a /\ zlen m1 = zlen m /\ (n = 0 -> L = [] /\ x = 0 /\ n1 = a) /\ (n <> 0 -> n1 = n).
Proof.
  intros PO IT TB SP W. pose proof PO as (A & _). pose proof TB as (_ & N & _). rewrite N in W. cbn [obind] in W. destruct (Z.eqb_spec n 0) as [N0|N0].
  - rewrite A in W. cbn [obind] in W. destruct (names_set m a t n x L R PO IT TB SP N0) as (m2 & W2 & PO1 & ST & TB1 & -> & ->). rewrite W2 in W. injection W as <-. exists a. split; [exact PO1|]. split; [exact ST|]. split; [exact TB1|]. split; [exact SP|]. split; [exact (wr_len _ _ _ _ W2)|]. split; [auto|lia].
  - injection W as <-. exists n. split; [exact PO|]. split; [apply step_refl|]. split; [exact TB|]. split; [exact SP|]. split; [reflexivity|]. split; [lia|auto].
Qed.
Lemma register_fast fuel m t s ty n : t_names m t = Ok n -> t_flags m t = Ok 1 -> (t = PARAMS -> XBT_NULL <= ty < XBT_LAST) -> n <> 0 -> register fuel m t s ty = register_new fuel m t s ty.
Proof.
  intros N F TP N0. unfold register. replace ((t =? PARAMS) && negb ((XBT_NULL <=? ty) && (ty <? XBT_LAST))) with false by (destruct (Z.eqb_spec t PARAMS); [specialize (TP e); lia|reflexivity]).
  rewrite N. cbn [obind]. destruct (Z.eqb_spec n 0); [lia|]. rewrite rbind_ok, F, rbind_ok. reflexivity.
Qed.
Lemma fast_ok m a t u n x L R s ty fuel id m' : pool m a -> two t u -> tablef 1 m t n x L -> spread (regions n x L ++ R) a -> proper s -> 0 <= ty < 256 -> place s L = None -> zlen L < 128 ->
  register fuel m t s ty = rret (id, m') ->
  (id = -1 \/ id = id_of s L) /\ others m m' u R /\
  exists n' x' a', a <= a' /\ pool m' a' /\ let L' := if id =? -1 then L else noted s ty L in (tablef 1 m' t n' x' L' /\ spread (regions n' x' L' ++ R) a') /\
    (id <> -1 -> x' = 0 /\ n' + zlen (stored 0 L') = a' /\ (x = 0 -> n = 0 \/ n + zlen (stored 0 L) = a -> a' = a + esize s)).
Proof.
  intros PO TW TB SP PS TY PL RM E. pose proof (two_tab _ _ TW) as [IT IU]. pose proof PO as (_ & _ & _ & _ & B & _). pose proof (spread_drop _ _ _ SP) as SPR. unfold register in E. destruct (_ && negb _).
  { apply rret_inj in E. injection E as <- <-. split; [auto|]. split; [split; [lia|auto]|]. exists n, x, a. cbn. split; [lia|]. split; [exact PO|]. split; [auto|]. lia. }
  apply rbind_inv in E as (m1 & W & E). apply some_inj in W. destruct (names_first 1 m a t n x L R m1 PO IT TB SP W) as (n1 & PO1 & ST1 & TB1 & SP1 & ZL & C0 & C1). pose proof TB1 as (_ & _ & _ & F & _). rewrite F, rbind_ok in E. change (Z.land 1 FAST_REG =? 0) with false in E. cbv iota in E. rewrite rbind_rret in E.
  assert (OT1 : others m m1 u R) by (apply (others_step m m1 a t); auto; lia).
  destruct (register_new_ok m1 a t u n1 x L R s ty fuel id m' PO1 TW TB1 SP1 PS TY PL E) as (n' & x' & a' & AA & PO' & ST & D). assert (OT2 : others m1 m' u R) by (apply (others_step m1 m' a t); auto; unfold HEADER in *; lia). pose proof (zlen_nonneg L).
  unfold id_of. rewrite PL. split; [tauto|]. split; [exact (others_trans _ _ _ _ _ OT1 OT2)|]. exists n', x', a'. split; [exact AA|]. split; [exact PO'|]. destruct D as [(-> & D1 & D2)|(-> & _ & [D0 D1] & D2 & D3 & D4)]; [split; [exact (conj D1 D2)|congruence]|].
  replace (zlen L =? -1) with false by lia. rewrite noted_new by exact PL. cbv zeta. split; [exact (conj (D0 RM) D1)|]. intros _. split; [exact D2|]. split; [exact D3|]. intros X0 N0. apply D4; [exact X0|]. destruct (Z.eq_dec n 0) as [Z0|Z0]; [destruct (C0 Z0) as (-> & _ & ->); change (zlen (stored 0 [])) with 0; lia|]. rewrite (C1 Z0). destruct N0; [contradiction|assumption].
Qed.
Lemma fast_some m a t u n x L R s ty fuel : pool m a -> two t u -> tablef 1 m t n x L -> spread (regions n x L ++ R) a -> (List.length L < fuel)%nat ->
  (t = PARAMS -> XBT_NULL <= ty < XBT_LAST /\ exists k, t_names m TAGS = Ok k /\ k <> 0) -> x = 0 -> n = 0 \/ n + zlen (stored 0 L) = a -> a + esize s <= zlen m -> exists m', register fuel m t s ty = rret (zlen L, m').
Proof.
  intros PO TW TB SP FU TP X0 N0 RM. pose proof (two_tab _ _ TW) as [IT IU]. pose proof PO as (A & _ & _ & _ & B & _). pose proof TB as (_ & N & _ & F & _). unfold register.
  replace ((t =? PARAMS) && negb ((XBT_NULL <=? ty) && (ty <? XBT_LAST))) with false by (destruct (Z.eqb_spec t PARAMS); [specialize (TP e); lia|reflexivity]).
  assert (W : exists m1, (names <- t_names m t ;; if names =? 0 then a <- p_allocator m ;; wr32 m (t + 4) a else Ok m) = Ok m1). { rewrite N. cbn [obind]. destruct (Z.eqb_spec n 0) as [Z0|Z0]; [|eauto]. rewrite A. cbn [obind]. destruct (names_set m a t n x L R PO IT TB SP Z0) as (m1 & W & _). eauto. }
  destruct W as (m1 & W). rewrite W, rbind_ok. destruct (names_first 1 m a t n x L R m1 PO IT TB SP W) as (n1 & PO1 & ST1 & TB1 & SP1 & ZL & C0 & C1). pose proof TB1 as (_ & _ & _ & F1 & _). rewrite F1, rbind_ok. change (Z.land 1 FAST_REG =? 0) with false. cbv iota. rewrite rbind_rret.
  apply (register_new_some m1 a t u n1 x L R s ty fuel PO1 TW TB1 SP1 FU).
  - left. split; [exact X0|]. rewrite ZL. split; [|exact RM]. destruct (Z.eq_dec n 0) as [Z0|Z0]; [destruct (C0 Z0) as (-> & _ & ->); change (zlen (stored 0 [])) with 0; lia|]. rewrite (C1 Z0). destruct N0; [contradiction|assumption].
  - intros ->. destruct (TP eq_refl) as (_ & k & TK & K0). exists k. split; [|exact K0]. destruct ST1 as [_ ST]. unfold t_names, rd_s32 in *. rewrite ST by (unfold TAGS, PARAMS, HEADER in *; lia). exact TK.
Qed.

(** ** One name, any flags *)
Lemma invf_register fl m t u L K B a s ty fuel id m' : two t u -> invf fl m t u L K B a -> fl = 0 \/ fl = 1 /\ place s L = None -> proper s -> 0 <= ty < 256 -> zlen L < 128 -> register fuel m t s ty = rret (id, m') ->
  (id = -1 \/ id = id_of s L) /\ (forall y k, In (y, k) B -> rd m' y k = rd m y k) /\ exists a', a <= a' /\ invf fl m' t u (if id =? -1 then L else noted s ty L) K B a'.
Proof.
  intros TW I [-> |[-> PL]] PS TY RM E; [apply (inv_register m t u L K B a s ty fuel id m' TW I PS TY (or_intror RM) E)|].
  destruct I as (n & x & n' & x' & PO & T1 & T2 & SP). pose proof PO as (_ & _ & _ & _ & BB & _). unfold HEADER in BB. destruct (fast_ok m a t u n x L _ s ty fuel id m' PO TW T1 SP PS TY PL RM E) as (ID & OT & n1 & x1 & a' & AA & PO' & (T1' & SP') & _).
  split; [exact ID|]. split; [intros y k I; apply OT, in_or_app; right; exact I|]. exists a'. split; [exact AA|]. exists n1, x1, n', x'. split; [exact PO'|]. split; [exact T1'|]. split; [|exact SP']. assert (UU : 0 <= u /\ u + 16 <= zlen m) by (unfold two, TAGS, PARAMS in TW; lia).
  apply (others_table m m' u n' x' K [] B a); auto; try lia. apply spread_drop, spread_app in SP. apply SP.
Qed.

(** ** Many names *)
Lemma place_noted s s' ty L : place s' L = None -> s' <> s -> place s' (noted s ty L) = None.
Proof.
  induction L as [|[n o] L IH]; cbn [noted place]; intros P D.
  - destruct (list_eq_dec Z.eq_dec s s'); [congruence|reflexivity].
  - destruct (list_eq_dec Z.eq_dec n s'); [discriminate|]. destruct (place s' L) eqn:PL; [discriminate|]. destruct (list_eq_dec Z.eq_dec n s); cbn [place]; destruct (list_eq_dec Z.eq_dec n s'); try congruence; try (rewrite PL; reflexivity); rewrite IH; auto.
Qed.
Lemma noted_len s ty L : zlen (noted s ty L) <= zlen L + 1.
Proof. induction L as [|[n o] L IH]; cbn [noted]; [reflexivity|]. destruct (list_eq_dec Z.eq_dec n s); rewrite !zlen_cons; lia. Qed.
Lemma entering_ok fl fuel t u K B : two t u -> forall m L N m' L', entering fuel t m L N m' L' -> forall a, invf fl m t u L K B a -> fl = 0 \/ fl = 1 /\ (forall s, In s (map fst N) -> place s L = None) -> listable N -> zlen L + zlen N <= 128 ->
  (forall y k, In (y, k) B -> rd m' y k = rd m y k) /\ exists a', a <= a' /\ invf fl m' t u L' K B a'.
Proof.
  intros TW m L N m' L' EN. induction EN as [m L|m L s ty N id m1 m' L' E EN IH]; intros a I FL [ND FA] LN.
  { split; [auto|]. exists a. split; [lia|exact I]. }
  cbn [map fst] in *. rewrite zlen_cons in LN. pose proof (zlen_nonneg N). inversion ND as [|? ? NI ND2]; subst. inversion FA as [|? ? [PS TY] FA2]; subst. cbn [fst snd] in *.
  destruct (invf_register fl m t u L K B a s ty fuel id m1 TW I) as (ID & KK & a1 & AA & I1); auto; [destruct FL as [->|[-> FL]]; [auto|right; split; [reflexivity|apply FL; left; reflexivity]]|lia|].
  destruct (IH a1 I1) as (K2 & a2 & A2 & I2).
  - destruct FL as [->|[-> FL]]; [auto|]. right. split; [reflexivity|]. intros s' J. destruct (id =? -1); [apply FL; right; exact J|]. apply place_noted; [apply FL; right; exact J|]. intros ->. exact (NI J).
  - split; assumption.
  - pose proof (noted_len s ty L). destruct (id =? -1); lia.
  - split; [|exists a2; split; [lia|exact I2]]. intros y k J. rewrite K2, KK by exact J. reflexivity.
Qed.
Lemma inv_import fuel t u m L K B a N m1 m2 L' m' : two t u -> inv m t u L K B a -> listable N -> zlen L + zlen N <= 128 -> set_fast m t = Ok m1 -> entering fuel t m1 L N m2 L' -> set_fast m2 t = Ok m' ->
  (forall y k, In (y, k) B -> rd m' y k = rd m y k) /\ exists a', a <= a' /\ invf (match L' with [] => 1 | _ => 0 end) m' t u L' K B a'.
Proof.
  intros TW I LN ZL S1 EN S2. destruct (set_fast_ok 0 m t u L K B a m1 TW (or_introl eq_refl) I S1) as (_ & K1 & _ & I1). destruct (entering_ok _ fuel t u K B TW m1 L N m2 L' EN a I1) as (K2 & a2 & A2 & I2); [destruct L; auto|exact LN|exact ZL|].
  assert (FL : (match L with [] => 1 | _ => 0 end) = 0 \/ (match L with [] => 1 | _ => 0 end) = 1) by (destruct L; auto). destruct (set_fast_ok _ m2 t u L' K B a2 m' TW FL I2 S2) as (_ & K3 & _ & I3).
  split; [|exists a2; split; [exact A2|exact I3]]. intros y k J. rewrite K3, K2, K1 by exact J. reflexivity.
Qed.
