(** The names of a pool after any history. *)
From Verif Require Import Base BaseFacts Types ListFacts Sort Xb XbSpec XbFacts XbWrite WriteProofs Bw BwFacts BwSpec BwHist BwAlloc BwSym BwReg BwFileSpec BwFileProofs BwNamesSpec BwNamesFacts BwNamesInv BwNamesReg BwNamesOps BwNamesIndex JsonSource.

(** ** Every history keeps the invariant *)
Lemma inv_extends m m' t u L K B a a' : two t u -> inv m t u L K B a -> pool m' a' -> a <= a' -> extends m a m' -> inv m' t u L K B a'.
Proof.
  intros TW (n & x & n' & x' & PO & T1 & T2 & SP) PO' AA EX. pose proof PO as (_ & _ & _ & _ & BB & _). exists n, x, n', x'. split; [exact PO'|]. assert (SPL : spread (regions n x L) a) by (apply spread_app in SP; apply SP). assert (SPK : spread (regions n' x' K) a) by (apply spread_drop, spread_app in SP; apply SP).
  split; [apply (table_step m m' a u t); [apply two_swap, TW|exact PO|apply step_ext, EX|exact T1|exact SPL]|]. split; [apply (table_step m m' a t u); [exact TW|exact PO|apply step_ext, EX|exact T2|exact SPK]|]. apply (spread_up _ a); assumption.
Qed.
Lemma inv_block m t u L K B a a' x n : inv m t u L K B a' -> a <= x -> HEADER <= a -> 0 < n -> x + n <= a' -> (forall y k, In (y, k) (B) -> True) ->
  (exists n1 x1 n2 x2, table m t n1 x1 L /\ table m u n2 x2 K /\ spread (regions n1 x1 L ++ regions n2 x2 K ++ B) a) -> inv m t u L K ((x, n) :: B) a'.
Proof.
  intros (_ & _ & _ & _ & PO & _) AX HA N XA _ (n1 & x1 & n2 & x2 & T1 & T2 & SP). exists n1, x1, n2, x2. split; [exact PO|]. split; [exact T1|]. split; [exact T2|].
  apply (spread_perm ((x, n) :: regions n1 x1 L ++ regions n2 x2 K ++ B)); [|apply (spread_more _ a); auto]. rewrite !app_assoc. apply Permutation_middle.
Qed.
Lemma inv_new m m' t u L K B a a' x n : two t u -> inv m t u L K B a -> pool m' a' -> extends m a m' -> a <= x -> 0 < n -> x + n <= a' -> inv m' t u L K ((x, n) :: B) a'.
Proof.
  intros TW I PO' EX AX N XA. assert (I' := inv_extends m m' t u L K B a a' TW I PO' ltac:(lia) EX). destruct I as (n1 & x1 & n2 & x2 & PO & T1 & T2 & SP). pose proof PO as (_ & _ & _ & _ & BB & _).
  apply (inv_block m' t u L K B a a'); auto; [lia|]. exists n1, x1, n2, x2. assert (SPL : spread (regions n1 x1 L) a) by (apply spread_app in SP; apply SP). assert (SPK : spread (regions n2 x2 K) a) by (apply spread_drop, spread_app in SP; apply SP).
  split; [apply (table_step m m' a u t); [apply two_swap, TW|exact PO|apply step_ext, EX|exact T1|exact SPL]|]. split; [apply (table_step m m' a t u); [exact TW|exact PO|apply step_ext, EX|exact T2|exact SPK]|]. exact SP.
Qed.
Lemma inv_write m m' t u L K B a x n q bs : two t u -> inv m t u L K B a -> In (x, n) B -> x <= q -> q + zlen bs <= x + n -> wr m q bs = Ok m' -> inv m' t u L K B a.
Proof.
  intros TW (n1 & x1 & n2 & x2 & PO & T1 & T2 & SP) IB Q1 Q2 W. destruct (wr_kept _ _ _ _ W) as (_ & _ & KE & _). pose proof KE as [KL KK]. pose proof PO as (_ & _ & _ & _ & BB & _).
  assert (BX : HEADER <= x /\ 0 < n /\ x + n <= a) by (apply (spread_in _ _ _ _ SP); apply in_or_app; right; apply in_or_app; right; exact IB). pose proof (zlen_nonneg bs). unfold HEADER, two, TAGS, PARAMS in *.
  destruct (spread_app _ _ _ SP) as (SPL & SPR & AP1). destruct (spread_app _ _ _ SPR) as (SPK & SPB & AP2). exists n1, x1, n2, x2. split; [apply (pool_kept m m' a q (zlen bs) PO KE); lia|].
  split; [|split; [|exact SP]].
  - apply (table_frame m m' t n1 x1 L a T1); try lia; [apply KK; lia|exact SPL|]. intros y k I. specialize (AP1 (y, k) (x, n) I (in_or_app _ _ _ (or_intror IB))). pose proof (spread_in _ _ _ _ SPL I). unfold apart in AP1. cbn [fst snd] in AP1. apply KK; lia.
  - apply (table_frame m m' u n2 x2 K a T2); try lia; [apply KK; lia|exact SPK|]. intros y k I. specialize (AP2 (y, k) (x, n) I IB). pose proof (spread_in _ _ _ _ SPK I). unfold apart in AP2. cbn [fst snd] in AP2. apply KK; lia.
Qed.
Lemma inv_register m t u L K B a s ty fuel id m' : two t u -> inv m t u L K B a -> proper s -> 0 <= ty < 256 -> place s L <> None \/ zlen L < 128 -> register fuel m t s ty = rret (id, m') ->
  (id = -1 \/ id = id_of s L) /\ (forall y k, In (y, k) B -> rd m' y k = rd m y k) /\ exists a', a <= a' /\ inv m' t u (if id =? -1 then L else noted s ty L) K B a'.
Proof.
  intros TW (n & x & n' & x' & PO & T1 & T2 & SP) PS TY RM E. pose proof PO as (_ & _ & _ & _ & BB & _). unfold HEADER in BB. destruct (register_ok m a t u n x L _ s ty fuel id m' PO TW T1 SP PS TY RM E) as (ID & OT & n1 & x1 & a' & AA & PO' & (T1' & SP') & _).
  split; [exact ID|]. split; [intros y k I; apply OT, in_or_app; right; exact I|]. exists a'. split; [exact AA|]. exists n1, x1, n', x'. split; [exact PO'|]. split; [exact T1'|]. split; [|exact SP']. assert (UU : 0 <= u /\ u + 16 <= zlen m) by (unfold two, TAGS, PARAMS in TW; lia).
  apply (others_table m m' u n' x' K [] B a); auto; try lia. apply spread_drop, spread_app in SP. apply SP.
Qed.
Lemma inv_table m t u L K B a fuel ok m' : two t u -> inv m t u L K B a -> makeTable fuel m t = rret (ok, m') -> exists a', a <= a' /\ (forall y k, In (y, k) B -> rd m' y k = rd m y k) /\ inv m' t u L K B a'.
Proof.
  intros TW (n & x & n' & x' & PO & T1 & T2 & SP) E. destruct (makeTable_ok m a t n x L _ fuel ok m' PO (proj1 (two_tab _ _ TW)) T1 SP E) as (ST & x1 & a' & AA & PO' & T1' & SP' & _).
  exists a'. split; [exact AA|]. split. { intros y k I. pose proof PO as (_ & _ & _ & _ & BB & _). apply (others_step m m' a t u (regions n x L ++ regions n' x' K ++ B) TW ltac:(lia) ST SP). apply in_or_app. right. apply in_or_app. right. exact I. }
  exists n, x1, n', x'. split; [exact PO'|]. split; [exact T1'|]. split; [|exact SP']. apply (table_step m m' a t u); auto. apply spread_drop, spread_app in SP. apply SP.
Qed.
Lemma tags_first : two TAGS PARAMS.
Proof. left. auto. Qed.
Lemma inv_all m T P B a fuel disk ch fl ok m' : inv m TAGS PARAMS T P B a -> allRegistered fuel disk ch fl m = rret (ok, m') ->
  exists a', a <= a' /\ (forall y k, In (y, k) B -> rd m' y k = rd m y k) /\ inv m' TAGS PARAMS T P B a'.
Proof.
  intros I E. unfold allRegistered in E. apply rbind_inv in E as ([ok1 m1] & MS & E). apply some_inj in MS. pose proof I as (n1 & x1 & n2 & x2 & PO & _ & _ & SP). apply (makeSpace_ok _ _ a) in MS as (PO1 & EX & _); [|exact PO]. apply (inv_extends m m1 TAGS PARAMS T P B a a tags_first) in I; auto; [|lia].
  assert (K1 : forall y k, In (y, k) B -> rd m1 y k = rd m y k). { intros y k J. assert (Q : HEADER <= y /\ 0 < k /\ y + k <= a) by (apply (spread_in _ _ _ _ SP), in_or_app; right; apply in_or_app; right; exact J). unfold HEADER in Q. apply EX; lia. } clear SP.
  destruct (negb ok1); [apply rret_bool in E as [_ <-]; exists a; split; [lia|auto]|]. apply rbind_inv in E as (it & _ & E). apply rbind_inv in E as (ip & _ & E). destruct (_ && _); [apply rret_bool in E as [_ <-]; exists a; split; [lia|auto]|].
  apply rbind_inv in E as ([ok2 m2] & MT & E). assert (I2 : exists a2, a <= a2 /\ (forall y k, In (y, k) B -> rd m2 y k = rd m y k) /\ inv m2 TAGS PARAMS T P B a2).
  { destruct (it =? 0); [|apply rret_bool in MT as [_ <-]; exists a; split; [lia|auto]]. destruct (inv_table _ _ _ _ _ _ _ _ _ _ tags_first I MT) as (a2 & A2 & K2 & I2). exists a2. split; [exact A2|]. split; [|exact I2]. intros y k J. rewrite K2, K1 by exact J. reflexivity. }
  destruct I2 as (a2 & A2 & K2 & I2). destruct (negb ok2); [apply rret_bool in E as [_ <-]; exists a2; auto|]. apply rbind_inv in E as (ip2 & _ & E). destruct (ip2 =? 0); [|apply rret_bool in E as [_ <-]; exists a2; auto].
  apply inv_swap in I2. destruct (inv_table _ _ _ _ _ _ _ _ _ _ (two_swap _ _ tags_first) I2 E) as (a3 & A3 & K3 & I3). exists a3. split; [lia|]. split; [|apply inv_swap, I3]. intros y k J. rewrite K3, K2 by exact J. reflexivity.
Qed.
Lemma dicts_inv m T P B : dicts m T P B -> exists a, inv m TAGS PARAMS T P B a.
Proof.
  induction 1 as [m a PO ZZ|m T P B fuel s ty id m' D [a I] PS TY RM E|m T P B fuel s ty id m' D [a I] PS TY RM E|m T P B fuel disk ch fl ok m' D [a I] E|m T P B fuel m' D [a I] E|m T P B n x m' D [a I] E|m T P B n x m' D [a I] E|m T P B disk ty n k x m' D [a I] E SZ|m T P B n m' D [a I] E|m T P B n m' D [a I] E|m T P B disk ty n m' D [a I] E|m T P B disk n ok m' D [a I] E|m T P B x n q bs m' D [a I] IB Q1 Q2 W].
  - exists a, 0, 0, 0, 0. split; [exact PO|]. destruct (ZZ TAGS (or_introl eq_refl)) as (Z1 & Z2 & Z3 & Z4). destruct (ZZ PARAMS (or_intror eq_refl)) as (Z5 & Z6 & Z7 & Z8). split; [|split].
    + unfold tablef. change (zlen (@nil (list Z * Z))) with 0. repeat (split; [solve [assumption|lia|constructor|reflexivity]|]). split; [congruence|lia].
    + unfold tablef. change (zlen (@nil (list Z * Z))) with 0. repeat (split; [solve [assumption|lia|constructor|reflexivity]|]). split; [congruence|lia].
    + split; [constructor|]. intros y k [].
  - destruct (inv_register _ _ _ _ _ _ _ _ _ _ _ _ tags_first I PS TY RM E) as (_ & _ & a' & _ & I'). exists a'. exact I'.
  - apply inv_swap in I. destruct (inv_register _ _ _ _ _ _ _ _ _ _ _ _ (two_swap _ _ tags_first) I PS TY RM E) as (_ & _ & a' & _ & I'). exists a'. apply inv_swap. exact I'.
  - destruct (inv_all _ _ _ _ _ _ _ _ _ _ _ I E) as (a' & _ & _ & I'). exists a'. exact I'.
  - destruct (clear_ok _ _ _ _ _ _ _ I E) as (a' & I' & _). exists a'. exact I'.
  - pose proof I as (n1 & x1 & n2 & x2 & PO & _). apply (allocate_ok _ a) in E as (N0 & -> & PO' & EX & _); [|exact PO]. pose proof (align4_ge n). exists (a + align_up 4 n). apply (inv_new m m' _ _ _ _ _ a); auto; try lia. exact tags_first.
  - pose proof I as (n1 & x1 & n2 & x2 & PO & _). apply (allocate8_ok _ a) in E as (N0 & -> & PO' & EX & _); [|exact PO]. pose proof (align8_ge n). pose proof (align8_ge a). exists (align_up 8 a + align_up 8 n). apply (inv_new m m' _ _ _ _ _ a); auto; try lia. exact tags_first.
  - pose proof I as (n1 & x1 & n2 & x2 & PO & _). apply (new_element_ok _ _ a) in E as (s2 & a' & S2 & S0 & AX & _ & _ & XA & PO' & EX & _); [|exact PO]. rewrite SZ in S2. injection S2 as <-. exists a'. apply (inv_new m m' _ _ _ _ _ a); auto; try lia. exact tags_first.
  - pose proof I as (n1 & x1 & n2 & x2 & PO & _). apply (allocate_ok _ a) in E as (-> & _); [|exact PO]. exists a. exact I.
  - pose proof I as (n1 & x1 & n2 & x2 & PO & _). apply (allocate8_ok _ a) in E as ((a' & PO' & AA) & EX & _); [|exact PO]. exists a'. apply (inv_extends m m' _ _ _ _ _ a); auto. exact tags_first.
  - pose proof I as (n1 & x1 & n2 & x2 & PO & _). apply (new_element_ok _ _ a) in E as (a' & PO' & AA & EX); [|exact PO]. exists a'. apply (inv_extends m m' _ _ _ _ _ a); auto. exact tags_first.
  - pose proof I as (n1 & x1 & n2 & x2 & PO & _). apply (makeSpace_ok _ _ a) in E as (PO' & EX & _); [|exact PO]. exists a. apply (inv_extends m m' _ _ _ _ _ a); auto; [exact tags_first|lia].
  - exists a. apply (inv_write m m' _ _ _ _ _ _ x n q bs); auto. exact tags_first.
Qed.

(** ** Looking names up *)
Lemma entry_some m a t n x L R i e fuel : pool m a -> table m t n x L -> spread (regions n x L ++ R) a -> nth_error L i = Some e -> (List.length L < fuel)%nat ->
  entry_at fuel m t (Z.of_nat i) = rret (Some (n + off L i)).
Proof.
  intros PO TB SP NI FU. pose proof PO as (A & _ & _ & _ & B & _). pose proof TB as (MX & N & X & F & L1 & G & ND & N4 & H & IX). assert (IL : (i < List.length L)%nat) by (apply nth_error_Some; congruence). assert (NE : L <> []) by (intros ->; cbn in IL; lia).
  unfold entry_at. rewrite MX, rbind_ok. replace ((Z.of_nat i <? 0) || (zlen L - 1 <? Z.of_nat i)) with false by (unfold zlen; lia). rewrite X, rbind_ok. destruct (table_bound _ _ _ _ _ _ _ PO TB SP NE) as [N1 N2]. destruct (Z.eqb_spec x 0) as [X0|X0].
  - rewrite N, rbind_ok, A, rbind_ok. apply (find_id_ok m (zlen L - 1) a (Z.of_nat i)); auto; unfold zlen in *; lia.
  - destruct (IX X0) as [_ II]. rewrite (II i e NI), rbind_ok. reflexivity.
Qed.
Lemma table_lookup m a t n x L R i s ty fuel : pool m a -> table m t n x L -> spread (regions n x L ++ R) a -> nth_error L i = Some (s, ty) -> (2 * List.length L < fuel)%nat ->
  (exists o, getByName fuel m t s = rret (Some (Z.of_nat i, o, ty))) /\ getName fuel m t (Z.of_nat i) = rret (Some s) /\ getType fuel m t (Z.of_nat i) = rret (Some ty).
Proof.
  intros PO TB SP NI FU. pose proof PO as (A & _ & _ & _ & B & _). pose proof TB as (MX & N & X & F & L1 & G & ND & N4 & H & IX). assert (IL : (i < List.length L)%nat) by (apply nth_error_Some; congruence). assert (NE : L <> []) by (intros ->; cbn in IL; lia).
  destruct (proj1 (Forall_forall _ _) G _ (nth_error_In _ _ NI)) as [PS TY]. cbn [fst snd] in PS, TY. pose proof (stored_at m n L i (s, ty) (H NE) NI) as HE. cbn [fst snd] in HE. apply has_entry in HE as (_ & _ & T2 & _ & ST); [|unfold zlen in *; lia|exact TY|apply PS].
  split; [|split].
  - exists (n + off L i). rewrite (getByName_some m a t n x L R s fuel PO TB SP PS FU). unfold found. assert (PL : place s L = Some i).
    { clear - NI ND. revert i NI. induction L as [|[k j] L IH]; intros i NI; [destruct i; discriminate|]. cbn [map fst] in ND. inversion ND as [|? ? NN ND2]; subst. cbn [place]. destruct i as [|i]; cbn [nth_error] in NI.
      - injection NI as -> ->. destruct (list_eq_dec Z.eq_dec s s); congruence.
      - destruct (list_eq_dec Z.eq_dec k s) as [->|]; [exfalso; apply NN; change s with (fst (s, ty)); apply in_map, (nth_error_In _ _ NI)|]. rewrite (IH ND2 i NI). reflexivity. }
    rewrite PL. rewrite (nth_error_nth _ _ (s, 0) NI). reflexivity.
  - unfold getName. rewrite (entry_some m a t n x L R i (s, ty) fuel PO TB SP NI) by lia. rewrite rbind_rret, ST, rbind_ok. reflexivity.
  - unfold getType. rewrite (entry_some m a t n x L R i (s, ty) fuel PO TB SP NI) by lia. rewrite rbind_rret, T2, rbind_ok. reflexivity.
Qed.
Lemma table_unknown m a t n x L R s fuel : pool m a -> table m t n x L -> spread (regions n x L ++ R) a -> proper s -> ~ In s (map fst L) -> (2 * List.length L < fuel)%nat -> getByName fuel m t s = rret None.
Proof.
  intros PO TB SP PS NI FU. rewrite (getByName_some m a t n x L R s fuel PO TB SP PS FU). unfold found. destruct (place s L) as [k|] eqn:E; [|reflexivity]. exfalso. apply NI. destruct (place_nth _ _ _ E) as (ty & E2). change s with (fst (s, ty)). apply in_map, (nth_error_In _ _ E2).
Qed.

(** ** Registering succeeds when there is room *)
Lemma allocate_some m a n : pool m a -> 0 < n -> a + align_up 4 n <= zlen m -> exists m', allocate m n = Ok (Some a, m').
Proof.
  intros PO N0 FI. pose proof PO as (A & L & _ & _ & B & A4 & _). pose proof (pool_len _ _ PO) as [IZ IA]. pose proof (align4_ge n). unfold allocate, HEADER, int32 in *. replace (n <=? 0) with false by lia. unfold int_ at 1, int32b. replace ((-2147483648 <=? n + 3) && (n + 3 <=? 2147483647)) with true by lia. cbv zeta. rewrite A, L. cbn [obind].
  unfold int_, int32b. replace ((-2147483648 <=? a + align_up 4 n) && (a + align_up 4 n <=? 2147483647)) with true by lia. replace (zlen m <? a + align_up 4 n) with false by lia. destruct (wr32_some m 52 (a + align_up 4 n)) as (m1 & W1); [lia|lia|]. rewrite W1. cbn [obind].
  pose proof (wr_len _ _ _ _ W1) as WL. destruct (wr_some m1 a (zrepeat 0 (align_up 4 n))) as (m2 & W2); [lia|rewrite zlen_repeat; lia|]. rewrite W2. cbn [obind]. exists m2. reflexivity.
Qed.
Lemma open_some {fl} m a t n x L R fuel : pool m a -> istab t -> tablef fl m t n x L -> spread (regions n x L ++ R) a -> (List.length L < fuel)%nat -> (x = 0 /\ n + zlen (stored 0 L) = a) \/ (L <> [] /\ a + zlen (stored 0 L) <= zlen m) ->
  exists m', Open fuel m t = rret (true, m').
Proof.
  intros PO IT TB SP FU D. pose proof PO as (A & _ & _ & _ & B & A4 & _). pose proof TB as (MX & N & X & F & L1 & G & ND & N4 & H & IX). unfold Open. rewrite (size_some m a t n x L R fuel PO TB SP FU), rbind_rret, X, rbind_ok, N, rbind_ok, A, rbind_ok.
  destruct ((x =? 0) && (n + zlen (stored 0 L) =? a)) eqn:C; [eauto|]. destruct D as [D|[NE RM]]; [lia|]. destruct (table_bound _ _ _ _ _ _ _ PO TB SP NE) as [N1 N2]. set (z := zlen (stored 0 L)) in *.
  assert (Z0 : 0 < z). { assert (I : In (n, z) (regions n x L ++ R)) by (apply in_or_app; left; apply region_names, NE). destruct SP as [_ SI]. specialize (SI n z I). lia. }
  assert (Z4 : align_up 4 z = z) by (pose proof (stored_mod L 0); unfold align_up; unfold z; lia).
  destruct (allocate_some m a z PO Z0 ltac:(lia)) as (m1 & AL). rewrite AL, rbind_ok. apply (allocate_ok _ a) in AL as (_ & _ & PO1 & EX & L2 & _); [|exact PO]. pose proof PO1 as (_ & _ & _ & _ & B1 & _). unfold HEADER, istab, TAGS, PARAMS in *. destruct EX as [_ EX].
  unfold copy. rewrite EX by lia. unfold z at 1. rewrite (has_rd _ _ _ (H NE)). cbn [obind]. destruct (wr_some m1 a (stored 0 L)) as (m2 & W2); [lia|unfold z in *; lia|]. rewrite W2. cbn [obind]. pose proof (wr_len _ _ _ _ W2) as WL2.
  destruct (wr32_some m2 (t + 8) 0) as (m3 & W3); [lia|lia|]. rewrite W3. cbn [obind]. pose proof (wr_len _ _ _ _ W3) as WL3. destruct (wr32_some m3 (t + 4) a) as (m4 & W4); [lia|lia|]. rewrite W4, rbind_ok. eauto.
Qed.
Lemma register_new_some {fl} m a t u n x L R s ty fuel : pool m a -> two t u -> tablef fl m t n x L -> spread (regions n x L ++ R) a -> (List.length L < fuel)%nat -> (x = 0 /\ n + zlen (stored 0 L) = a /\ a + esize s <= zlen m) \/ (L <> [] /\ a + zlen (stored 0 L) + esize s <= zlen m) ->
  (t = PARAMS -> exists k, t_names m TAGS = Ok k /\ k <> 0) -> exists m', register_new fuel m t s ty = rret (zlen L, m').
Proof.
  intros PO TW TB SP FU D TG. pose proof (two_tab _ _ TW) as [IT IU]. pose proof PO as (A & _ & _ & _ & B & A4 & _). pose proof TB as (MX & N & X & F & L1 & G & ND & N4 & H & IX). pose proof (zlen_nonneg (stored 0 L)). pose proof (zlen_nonneg s). pose proof (esize_ge s). unfold HEADER in B.
  unfold register_new. destruct (s32_some m (TAGS + 4)) as (k & TK); [unfold TAGS; lia|unfold TAGS; lia|]. unfold t_names at 1. rewrite TK, rbind_ok. replace ((t =? PARAMS) && (k =? 0)) with false. 2:{ destruct (Z.eqb_spec t PARAMS) as [->|]; [|reflexivity]. destruct (TG eq_refl) as (k' & K1 & K2). unfold t_names in K1. rewrite TK in K1. injection K1 as <-. cbn [andb]. lia. }
  destruct (open_some m a t n x L R fuel PO IT TB SP FU) as (m1 & OP); [destruct D as [D|D]; [left; tauto|right; split; [tauto|lia]]|]. rewrite OP, rbind_rret. cbn [negb].
  destruct (open_ok _ _ _ _ _ _ _ _ _ _ PO IT TB SP OP) as [[D1 _]|(_ & n' & a1 & A1 & PO1 & ST1 & TB1 & SP1 & NA & TOP & UP)]; [discriminate|].
  assert (RM : a1 + align_up 4 (4 + zlen s) <= zlen m1). { destruct ST1 as [LE _]. replace (4 + zlen s) with (zlen s + 4) by lia. change (align_up 4 (zlen s + 4)) with (esize s). destruct D as [(D1 & D2 & D3)|[D1 D2]]; [rewrite (TOP D1 D2); lia|lia]. }
  destruct (allocate_some m1 a1 (4 + zlen s) PO1 ltac:(lia) RM) as (m2 & AL). rewrite AL, rbind_ok. apply (allocate_ok _ a1) in AL as (_ & _ & PO2 & EX & L2 & _); [|exact PO1]. pose proof TB1 as (MX1 & _). pose proof PO1 as (_ & _ & _ & _ & B1 & _). unfold HEADER, istab, TAGS, PARAMS in *. pose proof (align4_ge (4 + zlen s)).
  assert (MX2 : t_max_id m2 t = Ok (zlen L - 1)). { unfold t_max_id, rd_s32 in *. destruct EX as [_ EX]. rewrite EX by lia. exact MX1. } rewrite MX2, rbind_ok. replace (zlen L - 1 + 1) with (zlen L) by lia. pose proof (zlen_nonneg L). unfold int_, int32b. replace ((-2147483648 <=? zlen L) && (zlen L <=? 2147483647)) with true by lia.
  destruct (wr32_some m2 t (zlen L)) as (m3 & W3); [lia|lia|]. rewrite W3. cbn [obind]. pose proof (wr_len _ _ _ _ W3). destruct (wr_some m3 a1 (le 2 (zlen L))) as (m4 & W4); [lia|rewrite le_zlen; lia|]. rewrite W4. cbn [obind]. pose proof (wr_len _ _ _ _ W4).
  destruct (wr_some m4 (a1 + 2) [ty]) as (m5 & W5); [lia|change (zlen [ty]) with 1; lia|]. rewrite W5. cbn [obind]. pose proof (wr_len _ _ _ _ W5). destruct (wr_some m5 (a1 + 3) (s ++ [0])) as (m6 & W6); [lia|rewrite zlen_app; change (zlen [0]) with 1; lia|]. rewrite W6. cbn [obind]. rewrite rbind_ok. eauto.
Qed.
Lemma names_set {fl} m a t n x L R : pool m a -> istab t -> tablef fl m t n x L -> spread (regions n x L ++ R) a -> n = 0 ->
  exists m1, wr32 m (t + 4) a = Ok m1 /\ pool m1 a /\ step m m1 a t /\ tablef fl m1 t a x L /\ L = [] /\ x = 0.
Proof.
  intros PO IT TB SP ->. pose proof PO as (A & _ & _ & _ & B & A4 & _). pose proof (pool_len _ _ PO) as [IZ IA]. pose proof TB as (MX & N & X & F & L1 & G & ND & N4 & H & IX).
  assert (LE : L = []). { destruct L; [reflexivity|]. destruct (table_bound _ _ _ _ _ _ _ PO TB SP ltac:(discriminate)). unfold HEADER in *. lia. } subst L. assert (x = 0) by (destruct (Z.eq_dec x 0) as [|D]; [assumption|]; destruct (IX D) as [D2 _]; congruence). subst x. unfold istab, TAGS, PARAMS, HEADER in *.
  destruct (wr32_some m (t + 4) a) as (m1 & W); [lia|lia|]. exists m1. split; [exact W|]. pose proof W as W0. apply wr32_kept in W as (_ & _ & K & G1); [|exact IA]. split; [apply (pool_wr _ _ _ _ _ PO W0); lia|]. split; [eapply step_tab; [exact K|exact IT|lia|lia]|]. split; [|auto].
  unfold tablef, t_max_id, t_names, t_index in *. rewrite (kept_s32 _ _ _ _ t K), (kept_s32 _ _ _ _ (t + 8) K) by lia. rewrite (kept_flags _ _ _ _ _ K) by lia. repeat (split; [assumption|]). split; [congruence|lia].
Qed.
Lemma register_some m a t u n x L R s ty fuel : pool m a -> two t u -> table m t n x L -> spread (regions n x L ++ R) a -> proper s -> (2 * List.length L < fuel)%nat ->
  (t = PARAMS -> XBT_NULL <= ty < XBT_LAST /\ exists k, t_names m TAGS = Ok k /\ k <> 0) -> place s L <> None \/ (n = 0 /\ a + esize s <= zlen m) \/ (L <> [] /\ a + zlen (stored 0 L) + esize s <= zlen m) \/ (x = 0 /\ n + zlen (stored 0 L) = a /\ a + esize s <= zlen m) ->
  exists m', register fuel m t s ty = rret (id_of s L, m').
Proof.
  intros PO TW TB SP PS FU TP RM. pose proof (two_tab _ _ TW) as [IT IU]. pose proof PO as (A & _ & _ & _ & B & A4 & _). pose proof TB as (MX & N & X & F & L1 & G & ND & N4 & H & IX). unfold register.
  replace ((t =? PARAMS) && negb ((XBT_NULL <=? ty) && (ty <? XBT_LAST))) with false by (destruct (Z.eqb_spec t PARAMS); [specialize (TP e); lia|reflexivity]).
  assert (PRE : exists n1 m1, (names <- t_names m t;; (if names =? 0 then a0 <- p_allocator m;; wr32 m (t + 4) a0 else Ok m)) = Ok m1 /\ pool m1 a /\ step m m1 a t /\ table m1 t n1 x L /\ spread (regions n1 x L ++ R) a /\ zlen m1 = zlen m /\ (n = 0 -> L = [] /\ x = 0 /\ n1 = a) /\ (n <> 0 -> n1 = n)).
  { rewrite N. cbn [obind]. destruct (Z.eqb_spec n 0) as [N0|N0].
    - rewrite A. cbn [obind]. destruct (names_set m a t n x L R PO IT TB SP N0) as (m1 & W & PO1 & ST & TB1 & -> & ->). exists a, m1. split; [exact W|]. split; [exact PO1|]. split; [exact ST|]. split; [exact TB1|]. split; [exact SP|]. split; [exact (wr_len _ _ _ _ W)|]. split; [auto|lia].
    - exists n, m. split; [reflexivity|]. split; [exact PO|]. split; [apply step_refl|]. split; [exact TB|]. split; [exact SP|]. split; [reflexivity|]. split; [lia|auto]. }
  destruct PRE as (n1 & m1 & W & PO1 & ST & TB1 & SP1 & ZL & C0 & C1). rewrite W, rbind_ok. pose proof TB1 as (_ & _ & _ & F1 & _). rewrite F1, rbind_ok. change (Z.land 0 FAST_REG =? 0) with true. cbv iota. rewrite (getByName_some m1 a t n1 x L R s fuel PO1 TB1 SP1 PS FU), rbind_rret. unfold found, id_of. destruct (place s L) as [k|] eqn:PL.
  - replace (0 <=? Z.of_nat k) with true by lia. destruct (place_nth _ _ _ PL) as (old & NI). rewrite (nth_error_nth _ _ (s, 0) NI). cbn [snd]. destruct (negb (old =? ty)); [|rewrite rbind_ok; eauto]. assert (NE : L <> []) by (intros ->; discriminate). destruct (table_bound _ _ _ _ _ _ _ PO1 TB1 SP1 NE) as [B1 B2]. destruct (off_bound _ _ _ NI) as (O0 & O1 & O4). cbn [fst] in O1. pose proof (esize_ge s). pose proof (zlen_nonneg s). unfold HEADER in *.
    pose proof PO1 as (_ & _ & _ & _ & BB & _). destruct (wr_some m1 (n1 + off L k + 2) [XBT_JoinTypes ty old]) as (m2 & W2); [lia|change (zlen [XBT_JoinTypes ty old]) with 1; lia|]. rewrite W2, rbind_ok. eauto.
  - destruct RM as [RM|RM]; [congruence|]. pose proof (zlen_nonneg (stored 0 L)). apply (register_new_some m1 a t u n1 x L R s ty fuel PO1 TW TB1 SP1); [lia| |].
    + rewrite ZL. destruct (Z.eq_dec n 0) as [N0|N0]; [left; destruct (C0 N0) as (-> & -> & ->); change (zlen (stored 0 [])) with 0 in *; destruct RM as [RM|[RM|RM]]; [lia|tauto|lia]|]. rewrite (C1 N0). destruct RM as [RM|[RM|RM]]; [lia|right; tauto|left; tauto].
    + intros ->. destruct (TP eq_refl) as (_ & k & TK & K0). exists k. split; [|exact K0]. destruct ST as [_ ST]. unfold t_names, rd_s32 in *. rewrite ST by (unfold TAGS, PARAMS, HEADER in *; lia). exact TK.
Qed.

(** ** After 128 names *)
Definition even (L : names) : Prop := Forall (fun e => zlen (fst e) mod 4 <> 1) L.
Lemma find_name_pass m max_id limit s : limit <= zlen m -> proper s -> forall L fuel p i, has m p (stored i L) -> good L -> even L -> 0 <= i -> i + zlen L <= 128 -> i + zlen L <= max_id ->
  p + zlen (stored i L) < limit -> p mod 4 = 0 -> place s L = None ->
  find_name (List.length L + fuel) m max_id limit s p i = find_name fuel m max_id limit s (p + zlen (stored i L)) (i + zlen L).
Proof.
  intros B PS. induction L as [|[n ty] L IH]; intros fuel p i H G EV I E1 E2 PL A NP; [cbn [stored]; change (zlen (@nil Z)) with 0; change (zlen (@nil (list Z * Z))) with 0; rewrite !Z.add_0_r; reflexivity|].
  cbn [List.length Nat.add find_name]. rewrite zlen_cons in *. pose proof (zlen_nonneg L). replace (max_id <? i) with false by lia. cbn [stored] in *. apply has_app in H as [H1 H2]. rewrite entry_len in H2. rewrite zlen_app, entry_len in *. pose proof (zlen_nonneg (stored (i + 1) L)). pose proof (esize_ge n). inversion G as [|? ? [[C NE] T] G2]; subst. inversion EV as [|? ? EN EV2]; subst. cbn [fst snd] in *. pose proof (zlen_nonneg n).
  apply has_entry in H1 as (ID & _ & TY & HZ & _); [|lia|exact T|exact C]. rewrite ID, rbind_ok, TY, rbind_ok. cbv zeta. replace (limit <=? p + 3) with false by lia. pose proof HZ as HN. rewrite app_assoc in HN. apply has_app in HN as [HN HP].
  destruct (rd_to m (p + 3) n limit HN) as (r & RB); [lia|exact B|]. rewrite RB, rbind_ok. destruct PS as [CS NS]. destruct (common_entry s n r CS C) as [K1 K2]. pose proof (common_bound s (n ++ 0 :: r)) as K0. set (c := common s (n ++ 0 :: r)) in *.
  replace (limit <=? p + 3 + c) with false by lia. cbn [place] in NP. destruct (list_eq_dec Z.eq_dec n s) as [EQ|DIF]; [discriminate|]. destruct (place s L) eqn:NP2; [discriminate|].
  destruct ((znth (n ++ 0 :: r) c =? 0) && (c =? zlen s)) eqn:MM; [exfalso; apply DIF; symmetry; apply K2; lia|].
  assert (HC : has m (p + 3 + c) (zskip c n ++ [0])). { rewrite <- (ztake_zskip c n) in HN. rewrite <- app_assoc in HN. apply has_app in HN as [_ HN]. rewrite zlen_take in HN by lia. replace (Z.min c (zlen n)) with c in HN by lia. exact HN. }
  assert (LC : zlen (zskip c n) = zlen n - c) by (rewrite zlen_skip by lia; lia).
  rewrite (to_nul_ok _ _ _ _ HC (cstring_skip _ _ C)) by lia. rewrite rbind_ok, LC. replace (p + 3 + c + (zlen n - c)) with (p + 3 + zlen n) by lia. replace (limit <=? p + 3 + zlen n) with false by lia.
  replace (align_up 4 (p + 3 + zlen n)) with (p + esize n) by (unfold esize, align_up; lia). rewrite (IH fuel (p + esize n) (i + 1) H2 G2 EV2); auto; try lia. f_equal; lia.
Qed.
Lemma names_walk_pass m max_id limit : limit <= zlen m -> forall L fuel p i, has m p (stored i L) -> good L -> 0 <= i -> i + zlen L <= 128 -> i + zlen L <= max_id -> p + zlen (stored i L) <= limit -> p mod 4 = 0 ->
  names_walk (List.length L + fuel) m max_id limit p i (i - 1) = names_walk fuel m max_id limit (p + zlen (stored i L)) (i + zlen L) (i + zlen L - 1).
Proof.
  intros B. induction L as [|[n ty] L IH]; intros fuel p i H G I E1 E2 PL A; [cbn [stored]; change (zlen (@nil Z)) with 0; change (zlen (@nil (list Z * Z))) with 0; rewrite !Z.add_0_r; reflexivity|].
  cbn [List.length Nat.add names_walk]. rewrite zlen_cons in *. pose proof (zlen_nonneg L). replace (max_id <? i) with false by lia. cbn [stored] in *. apply has_app in H as [H1 H2]. rewrite entry_len in H2. rewrite zlen_app, entry_len in *. pose proof (zlen_nonneg (stored (i + 1) L)). pose proof (esize_ge n). inversion G as [|? ? [[C NE] T] G2]; subst. cbn [fst snd] in *.
  apply has_entry in H1 as (ID & _ & _ & HN & _); [|lia|exact T|exact C]. rewrite ID, rbind_ok. replace (i =? i - 1 + 1) with true by lia. cbn [negb].
  rewrite app_assoc in HN. apply has_app in HN as [HN _]. rewrite (to_nul_ok _ _ _ _ HN C) by lia. rewrite rbind_ok. rewrite align_entry by exact A. specialize (IH fuel (p + esize n) (i + 1)). replace (i + 1 - 1) with i in IH by lia. rewrite IH; auto; try lia. f_equal; lia.
Qed.
Lemma entry_128 m p s ty : has m p (entry 128 s ty) -> 0 <= ty < 256 -> cstring s -> entry_id m p = Ok (-128) /\ rd_u8 m (p + 2) = Ok ty /\ has m (p + 3) (s ++ [0]).
Proof.
  intros H TY C. unfold entry in H. apply has_app in H as [H1 H]. rewrite le_zlen in H. change (Z.of_nat 2) with 2 in H. apply has_app in H as [H2 H]. change (zlen [ty]) with 1 in H. replace (p + 2 + 1) with (p + 3) in H by lia.
  split; [|split; [apply has_u8; assumption|rewrite app_assoc in H; apply has_app in H; apply H]]. change (le 2 128) with ([128] ++ [0]) in H1. apply has_app in H1 as [A B]. change (zlen [128]) with 1 in B. unfold entry_id, rd_s8. rewrite (has_u8 _ _ _ (ltac:(lia) : 0 <= 128 < 256) A), (has_u8 _ _ _ (ltac:(lia) : 0 <= 0 < 256) B). reflexivity.
Qed.
Lemma u8_some m p : 0 <= p < zlen m -> exists b, rd_u8 m p = Ok b.
Proof. intro P. unfold rd_u8. destruct (rd_some m p 1) as (b & E); [lia|lia|]. rewrite E. cbn [obind]. eauto. Qed.
Lemma id_some m p : 0 <= p -> p + 2 <= zlen m -> exists i, entry_id m p = Ok i.
Proof. intros P Q. unfold entry_id, rd_s8. destruct (u8_some m p) as (b & E1); [lia|]. destruct (u8_some m (p + 1)) as (c & E2); [lia|]. rewrite E1, E2. cbn [obind]. eauto. Qed.
Lemma register_is_new fuel m t n s ty : t_names m t = Ok n -> n <> 0 -> t_flags m t = Ok 0 -> getByName fuel m t s = rret None -> t = TAGS -> register fuel m t s ty = register_new fuel m t s ty.
Proof. intros N N0 F G ->. unfold register. change (TAGS =? PARAMS) with false. cbn [andb]. rewrite N. cbn [obind]. replace (n =? 0) with false by lia. rewrite rbind_ok, F, rbind_ok. change (Z.land 0 FAST_REG =? 0) with true. cbv iota. rewrite G, rbind_rret. reflexivity. Qed.
Lemma lost m a n L R s1 ty1 s2 ty2 fuel : pool m a -> table m TAGS n 0 L -> spread (regions n 0 L ++ R) a -> zlen L = 128 -> n + zlen (stored 0 L) = a -> even L -> proper s1 -> proper s2 -> s1 <> s2 -> zlen s1 mod 4 <> 1 -> 0 <= ty1 < 256 -> 0 <= ty2 < 256 ->
  place s1 L = None -> place s2 L = None -> a + esize s1 + zlen (stored 0 L) + esize s2 <= zlen m ->
  exists m1 m2, register (258 + fuel) m TAGS s1 ty1 = rret (128, m1) /\ register (258 + fuel) m1 TAGS s2 ty2 = rret (128, m2).
Proof.
  intros PO TB SP LL TOP EV PS1 PS2 DS SM T1 T2 NP1 NP2 RM. pose proof PO as (A & _ & _ & _ & B & A4 & _). pose proof TB as (MX & N & X & F & L1 & G & ND & N4 & H & IX). assert (LN : List.length L = 128%nat) by (unfold zlen in LL; lia). assert (NE : L <> []) by (intros ->; discriminate). specialize (H NE).
  destruct (table_bound _ _ _ _ _ _ _ PO TB SP NE) as [N1 N2]. unfold HEADER in *. set (z := zlen (stored 0 L)) in *. set (F0 := (258 + fuel)%nat).
  assert (Z0 : 0 < z). { assert (I : In (n, z) (regions n 0 L ++ R)) by (apply in_or_app; left; apply region_names, NE). destruct SP as [_ SI]. specialize (SI n z I). lia. }
  pose proof (esize_ge s1) as ES1. pose proof (esize_ge s2) as ES2. pose proof (zlen_nonneg s1) as ZS1. pose proof (zlen_nonneg s2) as ZS2.
  destruct (register_new_some m a TAGS PARAMS n 0 L R s1 ty1 F0 PO tags_first TB SP) as (m1 & E1); [unfold F0; lia|left; lia|discriminate|]. rewrite LL in E1.
  exists m1. destruct (register_new_ok m a TAGS PARAMS n 0 L R s1 ty1 F0 128 m1 PO tags_first TB SP PS1 T1 NP1 E1) as (n' & x' & a1 & AA & PO1 & ST & [(D & _)|(_ & RAW & (_ & SP1) & -> & TOP1 & UP)]); [discriminate|]. specialize (UP eq_refl TOP).
  destruct RAW as (MX1 & NN1 & X1 & F1 & H1). rewrite zlen_app in MX1. change (zlen [(s1, ty1)]) with 1 in MX1. rewrite LL in MX1. change (128 + 1 - 1) with 128 in MX1. rewrite stored_app in H1. cbn [stored] in H1. rewrite app_nil_r, LL in H1. change (0 + 128) with 128 in H1. rewrite stored_app, zlen_app in TOP1. cbn [stored] in TOP1. rewrite app_nil_r, entry_len in TOP1. assert (n' = n) by (unfold z in *; lia). subst n'.
  apply has_app in H1 as [HL HE]. change (zlen (stored 0 L)) with z in HE. rewrite TOP in HE. destruct (entry_128 _ _ _ _ HE T1 (proj1 PS1)) as (ID1 & TY1 & HS1). pose proof PO1 as (A1 & _ & _ & _ & B1 & _). pose proof ST as [ZL _]. unfold HEADER in B1.
  assert (R1 : register F0 m TAGS s1 ty1 = rret (128, m1)). { rewrite (register_is_new F0 m TAGS n s1 ty1 N ltac:(lia) F); auto. rewrite (getByName_some m a TAGS n 0 L R s1 F0 PO TB SP PS1) by (unfold F0; lia). unfold found. rewrite NP1. reflexivity. }
  assert (G2 : getByName F0 m1 TAGS s2 = rret None).
  { unfold getByName. rewrite X1, rbind_ok, MX1, rbind_ok. change (0 =? 0) with true. cbv iota. rewrite NN1, rbind_ok, A1, rbind_ok. replace F0 with (List.length L + S (S (128 + fuel)))%nat by (unfold F0; lia).
    rewrite (find_name_pass m1 128 a1 s2 ltac:(lia) PS2 L _ n 0 HL G EV ltac:(lia) ltac:(lia) ltac:(lia) ltac:(fold z; lia) N4 NP2). fold z. rewrite TOP, LL. change (0 + 128) with 128. cbn [find_name]. change (128 <? 128) with false. cbv iota. rewrite ID1, rbind_ok, TY1, rbind_ok. cbv zeta. replace (a1 <=? a + 3) with false by lia.
    destruct (rd_to m1 (a + 3) s1 a1 HS1) as (r & RB); [lia|lia|]. rewrite RB, rbind_ok. destruct PS1 as [C1 NS1]. destruct PS2 as [C2 NS2]. destruct (common_entry s2 s1 r C2 C1) as [K1 K2]. pose proof (common_bound s2 (s1 ++ 0 :: r)) as K0. set (c := common s2 (s1 ++ 0 :: r)) in *.
    replace (a1 <=? a + 3 + c) with false by lia. destruct ((znth (s1 ++ 0 :: r) c =? 0) && (c =? zlen s2)) eqn:MM; [exfalso; apply DS; symmetry; apply K2; lia|].
    assert (HC : has m1 (a + 3 + c) (zskip c s1 ++ [0])). { pose proof HS1 as HN. rewrite <- (ztake_zskip c s1) in HN. rewrite <- app_assoc in HN. apply has_app in HN as [_ HN]. rewrite zlen_take in HN by lia. replace (Z.min c (zlen s1)) with c in HN by lia. exact HN. }
    assert (LC : zlen (zskip c s1) = zlen s1 - c) by (rewrite zlen_skip by lia; lia).
    rewrite (to_nul_ok _ _ _ _ HC (cstring_skip _ _ C1)) by lia. rewrite rbind_ok, LC. replace (a + 3 + c + (zlen s1 - c)) with (a + 3 + zlen s1) by lia. replace (a1 <=? a + 3 + zlen s1) with false by lia.
    replace (align_up 4 (a + 3 + zlen s1)) with a1 by (rewrite UP; unfold esize, align_up in *; lia). cbn [find_name]. change (128 <? -128 + 1) with false. cbv iota. destruct (id_some m1 a1) as (i & EI); [lia|lia|]. destruct (u8_some m1 (a1 + 2)) as (b & EB); [lia|]. rewrite EI, rbind_ok, EB, rbind_ok. cbv zeta. replace (a1 <=? a1 + 3) with true by lia. reflexivity. }
  (* getNamesSize finds 128 names *)
  destruct (wr32_some m1 TAGS 127) as (m2 & W2); [unfold TAGS; lia|unfold TAGS; lia|].
  assert (GS : getNamesSize F0 m1 TAGS = rret (z, m2)).
  { unfold getNamesSize. rewrite NN1, rbind_ok. replace (n =? 0) with false by lia. rewrite A1, rbind_ok, MX1, rbind_ok. replace F0 with (List.length L + S (129 + fuel))%nat by (unfold F0; lia). change (-1) with (0 - 1). rewrite (names_walk_pass m1 128 a1 ltac:(lia) L _ n 0 HL G ltac:(lia) ltac:(lia) ltac:(lia) ltac:(fold z; lia) N4). fold z. rewrite TOP, LL. change (0 + 128) with 128.
    cbn [names_walk]. change (128 <? 128) with false. cbv iota. rewrite ID1, rbind_ok. change (negb (-128 =? 128 - 1 + 1)) with true. cbv iota. rewrite rbind_rret. change (128 - 1 =? 128) with false. cbv iota. change (128 - 1) with 127. rewrite W2, rbind_ok. unfold rret. do 3 f_equal. lia. }
  apply wr32_kept in W2 as (_ & _ & K & G3); [|unfold int32; lia]. pose proof K as [KL KK].
  assert (PO2 : pool m2 a1) by (apply (pool_kept m1 m2 a1 TAGS 4 PO1 K); unfold TAGS; lia).
  assert (TB2 : table m2 TAGS n 0 L). { unfold tablef, t_max_id, t_names, t_index in *. rewrite (kept_s32 _ _ _ _ (TAGS + 4) K), (kept_s32 _ _ _ _ (TAGS + 8) K) by lia. rewrite (kept_flags _ _ _ _ _ K) by lia. split; [rewrite LL; exact G3|]. do 7 (split; [assumption|]). split; [|lia]. intros _. apply (has_read m1); [exact HL|]. apply KK; [lia|unfold TAGS; lia]. }
  assert (SP2 : spread (regions n 0 L ++ R) a1) by (apply (spread_up _ a); [exact SP|lia]).
  destruct (register_new_some m2 a1 TAGS PARAMS n 0 L R s2 ty2 F0 PO2 tags_first TB2 SP2) as (m3 & E3); [unfold F0; lia|right; split; [exact NE|fold z; lia]|discriminate|]. rewrite LL in E3.
  exists m3. split; [exact R1|]. rewrite (register_is_new F0 m1 TAGS n s2 ty2 NN1 ltac:(lia) F1 G2 eq_refl). rewrite <- E3. unfold register_new. pose proof TB2 as (_ & NN2 & _). rewrite NN1, NN2, !rbind_ok. change ((TAGS =? PARAMS) && (n =? 0)) with false. cbv iota.
  assert (OP : Open F0 m1 TAGS = Open F0 m2 TAGS). { unfold Open. rewrite GS. rewrite (size_some m2 a1 TAGS n 0 L R F0 PO2 TB2 SP2) by (unfold F0; lia). fold z. rewrite !rbind_rret. reflexivity. }
  rewrite OP. reflexivity.
Qed.
