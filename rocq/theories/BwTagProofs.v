(** Making elements. *)
From Verif Require Import Base BaseFacts Types ListFacts SizeProofs Sort Xb XbSpec XbFacts XbWrite WriteProofs Bw BwFacts BwRing BwSpec BwHist BwAlloc BwProofs BwRead BwTop BwSym BwReg BwFileSpec BwFileProofs BwNamesSpec BwNamesFacts BwNamesInv BwNamesReg BwNamesOps BwNamesIndex BwNamesProofs BwLifeSpec BwLife BwOnly JsonSource BwSet BwNamesTop BwAttr BwAttrSpec BwAttrProofs BwAttrTop BwTag BwTagSpec.

(** ** A new element with its value *)
Lemma made_tag k s m T P F disk id ty n z bs d x m0 m1 : life k s m T P F -> fresh disk m id ty n ELEMENT = Ok (Some x, m0) -> wr m0 (x + d) bs = Ok m1 -> 0 <= ty < 256 -> XBT_Size2 ty n = Ok z -> 24 <= d -> d + zlen bs <= 24 + (z + 3) / 4 * 4 -> -32768 <= id < 32768 ->
  life (set k x true) (set s x (24 + (z + 3) / 4 * 4)) m1 T P ((None, [x]) :: F) /\ ~ In x (members F) /\ (forall e, In e (members F) -> rd m1 e (s e) = rd m e (s e)) /\
  el_id m1 x = Ok id /\ el_type m1 x = Ok ty /\ rd m1 (x + d) (zlen bs) = Ok bs /\ rd m1 TAGS 32 = rd m TAGS 32 /\ (XBT_IS_VARSIZE ty = true -> 28 <= d -> rd_s32 m1 (x + 24) = Ok (z - 4)) /\ 0 <= z /\ 0 < x /\ x + 24 + (z + 3) / 4 * 4 <= zlen m1.
Proof.
  intros LI FR W TY SZ D BS ID.
  assert (FE : 0 <= ELEMENT < 256) by (unfold ELEMENT; lia). pose proof (life_new k s m T P F disk id ty n z ELEMENT x m0 LI FE TY FR SZ) as L0. change (is_element ELEMENT) with true in L0. pose proof (life_whole _ _ _ _ _ _ LI) as WH. destruct (whole_new k s m T P F disk id ty n z ELEMENT x m0 WH FE TY FR SZ) as (_ & NI & KK).
  pose proof (zlen_nonneg bs). assert (LW : life (set k x true) (set s x (24 + (z + 3) / 4 * 4)) m1 T P ((None, [x]) :: F)) by (apply (life_write _ _ m0 _ _ _ x (x + d) bs); auto; [left; reflexivity|lia|rewrite set_same; lia]).
  split; [exact LW|]. split; [exact NI|]. pose proof (life_whole _ _ _ _ _ _ LW) as (B1 & a1 & I1 & E1 & _). destruct (names_pool _ _ _ _ _ _ _ I1) as [PO1 _]. pose proof (inv_in _ _ _ _ _ x E1 PO1 (or_introl eq_refl)) as (X1 & X2 & X3). rewrite set_same in *. pose proof PO1 as (_ & _ & _ & _ & BB1 & _).
  destruct WH as (B & a & I & EL & IB & SS). destruct (names_pool _ _ _ _ _ _ _ I) as [PO _]. pose proof PO as (_ & _ & _ & _ & BB & _). pose proof (fresh_var _ _ _ _ _ _ _ _ _ z PO FR) as FV. apply (fresh_ok _ _ a) in FR; [|exact PO]. destruct FR as (s2 & a' & S2 & S0 & AX & X4 & _ & XA & PO' & EX & _ & HD). rewrite SZ in S2. injection S2 as <-.
  destruct (wr_kept _ _ _ _ W) as (_ & _ & KW & GW). pose proof KW as [_ KE]. unfold HEADER, TAGS in *. assert (IX : int32 x). { destruct (pool_len _ _ PO') as [_ IA]. unfold int32 in *. lia. }
  destruct (header_fields _ _ _ _ _ HD IX FE) as (_ & HF & HT & HI & _). specialize (HT TY). specialize (HI ID). split; [|split; [|split; [|split; [exact GW|split; [|split; [|lia]]]]]].
  - intros e J. rewrite <- (KK e J). destruct (inv_in _ _ _ _ _ _ EL PO J) as (? & ? & ?). apply KE; lia.
  - unfold el_id, rd_s16 in *. rewrite KE by lia. exact HI.
  - unfold el_type, rd_u8 in *. rewrite KE by lia. exact HT.
  - rewrite KE by lia. apply EX; lia.
  - intros V D2. rewrite (kept_s32 _ _ _ _ _ KW) by lia. apply FV; auto.
Qed.
(** More room leaves everything. *)
Lemma space_same k s m T P F disk n ok m1 : life k s m T P F -> makeSpace disk m n = Ok (ok, m1) -> life k s m1 T P F /\ (forall e, In e (members F) -> rd m1 e (s e) = rd m e (s e)) /\ rd m1 TAGS 32 = rd m TAGS 32.
Proof.
  intros LI E. split; [eapply life_space; eauto|]. pose proof (life_whole _ _ _ _ _ _ LI) as (B & a & I & EL & _). destruct (names_pool _ _ _ _ _ _ _ I) as [PO _]. apply (makeSpace_ok _ _ a) in E; [|exact PO]. destruct E as (_ & [_ EX] & _). pose proof PO as (_ & _ & _ & _ & BB & _). unfold HEADER, TAGS in *. split; [|apply EX; lia].
  intros e J. destruct (inv_in _ _ _ _ _ e EL PO J) as (? & ? & ?). unfold HEADER in *. apply EX; lia.
Qed.
Lemma make_ok k s m T P F disk id ty extra n z d bs r m' : life k s m T P F -> 0 <= ty < 256 -> XBT_Size2 ty n = Ok z -> 24 <= d -> d + zlen bs <= 24 + (z + 3) / 4 * 4 -> -32768 <= id < 32768 -> make disk m id ty extra n d bs = Ok (r, m') ->
  r = None /\ life k s m' T P F /\ (forall e, In e (members F) -> rd m' e (s e) = rd m e (s e)) \/
  exists x, r = Some x /\ tag_done k s m T P F id ty x m' /\ rd m' (x + d) (zlen bs) = Ok bs /\ rd m' TAGS 32 = rd m TAGS 32 /\ (XBT_IS_VARSIZE ty = true -> 28 <= d -> rd_s32 m' (x + 24) = Ok (z - 4)) /\ 0 <= z /\ 0 < x /\ x + 24 + (z + 3) / 4 * 4 <= zlen m'.
Proof.
  intros LI TY SZ D BS ID E. unfold make in E. apply int_inv in E as [_ E]. apply obind_inv in E as ([ok m1] & SP & E). destruct (space_same _ _ _ _ _ _ _ _ _ _ LI SP) as (L1 & K1 & T1). destruct ok; cbn [negb] in E; [|injection E as <- <-; left; auto].
  apply obind_inv in E as ([x m2] & FR & E). destruct x as [x|].
  - apply obind_inv in E as (m3 & W & E). injection E as <- <-. destruct (made_tag _ _ _ _ _ _ _ _ _ _ _ _ _ _ _ _ L1 FR W TY SZ D BS ID) as (L2 & NX & K2 & XI & XT & XV & TG & XS & Z0 & X0 & XL). right. exists x. split; [reflexivity|].
    split; [|rewrite TG, T1; auto 8]. exists (set k x true), (set s x (24 + (z + 3) / 4 * 4)). split; [exact L2|]. split; [intros e J; assert (e <> x) by (intros ->; auto); rewrite !set_other by auto; auto|]. split; [exact NX|]. split; [apply set_same|]. split; [exact XI|]. split; [exact XT|].
    intros e J. rewrite (K2 e J). auto.
  - injection E as <- <-. left. split; [reflexivity|]. split; [eapply life_not_new; eauto|]. pose proof (life_whole _ _ _ _ _ _ L1) as (B & a & I & EL & _). destruct (names_pool _ _ _ _ _ _ _ I) as [PO _]. pose proof PO as (_ & _ & _ & _ & BB & _). unfold HEADER in BB. apply (fresh_ok _ _ a) in FR; [|exact PO]. destruct FR as (a' & _ & _ & [_ EX]).
    intros e J. destruct (inv_in _ _ _ _ _ e EL PO J) as (? & ? & ?). unfold HEADER in *. rewrite <- (K1 e J). apply EX; lia.
Qed.

(** ** With enough room it succeeds *)
Lemma allocate8_some m a n : pool m a -> 0 < n -> align_up 8 a + align_up 8 n <= zlen m -> exists m', allocate8 m n = Ok (Some (align_up 8 a), m').
Proof.
  intros PO N0 FI. pose proof PO as (A & L & _ & _ & B & A4 & _). pose proof (pool_len _ _ PO) as [IZ IA]. pose proof (align8_ge n). pose proof (align8_ge a). unfold allocate8, HEADER, int32 in *. replace (n <=? 0) with false by lia. rewrite A. cbn [obind]. unfold int_ at 1, int32b. replace ((-2147483648 <=? a + 7) && (a + 7 <=? 2147483647)) with true by lia. cbv zeta.
  destruct (wr32_some m 52 (align_up 8 a)) as (m0 & W0); [lia|lia|]. rewrite W0. cbn [obind]. unfold int_ at 1, int32b. replace ((-2147483648 <=? n + 7) && (n + 7 <=? 2147483647)) with true by lia. destruct (wr32_kept _ _ _ _ W0) as (_ & _ & K0 & _); [unfold int32; lia|].
  unfold p_limit in *. rewrite (kept_s32 _ _ _ _ _ K0) by lia. rewrite L. cbn [obind]. unfold int_, int32b. replace ((-2147483648 <=? align_up 8 a + align_up 8 n) && (align_up 8 a + align_up 8 n <=? 2147483647)) with true by lia. replace (zlen m <? align_up 8 a + align_up 8 n) with false by lia. pose proof (wr_len _ _ _ _ W0) as WL0.
  destruct (wr32_some m0 52 (align_up 8 a + align_up 8 n)) as (m1 & W1); [lia|lia|]. rewrite W1. cbn [obind]. pose proof (wr_len _ _ _ _ W1) as WL. destruct (wr_some m1 (align_up 8 a) (zrepeat 0 (align_up 8 n))) as (m2 & W2); [lia|rewrite zlen_repeat; lia|]. rewrite W2. cbn [obind]. exists m2. reflexivity.
Qed.
Lemma wr_is_bytes m p bs m' : wr m p bs = Ok m' -> bytes m -> bytes bs -> bytes m'.
Proof. intros W BM BB. destruct (WriteProofs.wr_ok m p bs m' BB W) as (_ & _ & _ & E). apply (E 0 0), BM. Qed.
Lemma zeros_bytes n : bytes (zrepeat 0 n).
Proof. unfold zrepeat. induction (Z.to_nat n) as [|q IH]; constructor; auto. unfold is_byte. lia. Qed.
Lemma file_size_u m a : pool m a -> bytes m -> exists b, rd m 32 4 = Ok b /\ unle b = zlen m.
Proof.
  intros PO BM. pose proof (zlen_nonneg m). pose proof PO as (_ & _ & FS & _). unfold p_file_size, rd_s32 in FS. apply obind_inv in FS as (b & RB & FS). exists b. split; [exact RB|]. injection FS as FS.
  assert (BB : bytes b). { unfold rd in RB. destruct (_ && _); [|discriminate]. injection RB as <-. unfold slice. apply bytes_take, bytes_skip, BM. }
  apply rd_inv in RB as (_ & _ & _ & LB); [|lia]. pose proof (unle_bound b BB) as UB. rewrite LB in UB. change (256 ^ 4) with 4294967296 in UB. unfold s32 in FS. lia.
Qed.
Lemma allocate_bytes m n r m' : allocate m n = Ok (r, m') -> bytes m -> bytes m'.
Proof.
  intros E BM. unfold allocate in E. destruct (n <=? 0); [injection E as _ <-; exact BM|]. apply int_inv in E as [_ E]. cbv zeta in E. apply obind_inv in E as (a & A & E). apply obind_inv in E as (l & LI & E). apply int_inv in E as [I2 E]. destruct (_ <? _); [injection E as _ <-; exact BM|].
  apply obind_inv in E as (m1 & W1 & E). apply obind_inv in E as (m2 & W2 & E). injection E as _ <-. eapply wr_is_bytes; [exact W2| |apply zeros_bytes]. eapply wr_is_bytes; [exact W1|exact BM|apply le_bytes].
Qed.
Lemma allocate8_bytes m n r m' : allocate8 m n = Ok (r, m') -> bytes m -> bytes m'.
Proof.
  intros E BM. unfold allocate8 in E. destruct (n <=? 0); [injection E as _ <-; exact BM|]. apply obind_inv in E as (a & A & E). apply int_inv in E as [_ E]. cbv zeta in E. apply obind_inv in E as (m0 & W0 & E). assert (B0 : bytes m0) by (eapply wr_is_bytes; [exact W0|exact BM|apply le_bytes]).
  apply int_inv in E as [_ E]. apply obind_inv in E as (l & LI & E). apply int_inv in E as [I2 E]. destruct (_ <? _); [injection E as _ <-; exact B0|].
  apply obind_inv in E as (m1 & W1 & E). apply obind_inv in E as (m2 & W2 & E). injection E as _ <-. eapply wr_is_bytes; [exact W2| |apply zeros_bytes]. eapply wr_is_bytes; [exact W1|exact B0|apply le_bytes].
Qed.
Lemma makeSpace_bytes disk m n r m' : makeSpace disk m n = Ok (r, m') -> bytes m -> bytes m'.
Proof.
  intros E BM. unfold makeSpace in E. apply obind_inv in E as (a & A & E). apply int_inv in E as [_ E]. apply int_inv in E as [_ E]. cbv zeta in E. apply obind_inv in E as (M & MM & E). destruct (_ <? _); [injection E as _ <-; exact BM|]. apply obind_inv in E as (fs & FS & E). destruct (_ <=? _); [injection E as _ <-; exact BM|]. destruct (negb disk); [injection E as _ <-; exact BM|].
  apply obind_inv in E as (m1 & W1 & E). apply obind_inv in E as (m2 & W2 & E). injection E as _ <-. eapply wr_is_bytes; [exact W2| |apply le_bytes]. eapply wr_is_bytes; [exact W1| |apply le_bytes]. unfold resize. apply bytes_app. split; [apply bytes_take, BM|apply zeros_bytes].
Qed.
Lemma makeSpace_some m a n M : pool m a -> p_mmap_size m = Ok M -> 0 <= n -> a + 4095 + n <= M -> exists m', makeSpace true m n = Ok (true, m').
Proof.
  intros PO MM N0 RO. pose proof (pool_len _ _ PO) as [IZ IA]. pose proof PO as (A & L & FS & _ & B & A4 & _). pose proof (rd_s32_range _ _ _ MM) as IM. unfold HEADER, int32 in *. unfold makeSpace. rewrite A. cbn [obind]. unfold int_, int32b. replace ((-2147483648 <=? a + 4095) && (a + 4095 <=? 2147483647)) with true by lia. replace ((-2147483648 <=? a + 4095 + n) && (a + 4095 + n <=? 2147483647)) with true by lia. cbv zeta.
  rewrite MM, FS. cbn [obind]. set (ns := (a + 4095 + n) / 4096 * 4096). assert (ns <= a + 4095 + n < ns + 4096) by (unfold ns; lia). replace (M <? ns) with false by lia. destruct (ns <=? zlen m) eqn:C; [eauto|]. cbn [negb].
  assert (zlen (resize m ns) = ns). { unfold resize. rewrite zlen_app, zlen_repeat by lia. unfold ztake. unfold zlen in *. rewrite firstn_length. lia. }
  destruct (wr32_some (resize m ns) 32 ns) as (m1 & W1); [lia|lia|]. rewrite W1. cbn [obind]. pose proof (wr_len _ _ _ _ W1). destruct (wr32_some m1 56 ns) as (m2 & W2); [lia|lia|]. rewrite W2. cbn [obind]. eauto.
Qed.
Lemma fresh_some disk m a id ty n z flags : pool m a -> XBT_Size2 ty n = Ok z -> 0 <= z -> (XBT_IS_VARSIZE ty = true -> 4 <= z) -> a + z + 46 <= zlen m -> bytes m -> exists x m', fresh disk m id ty n flags = Ok (Some x, m') /\ 0 < x /\ x + 24 + (z + 3) / 4 * 4 <= zlen m'.
Proof.
  intros PO SZ Z0 VZ RO BM. pose proof (pool_len _ _ PO) as [IZ IA]. pose proof PO as (A & L & FS & _ & B & A4 & _). unfold HEADER, int32 in *. unfold fresh, new_element. rewrite SZ. cbn [obind]. replace (z <? 0) with false by lia. unfold int_ at 1, int32b. replace ((-2147483648 <=? 24 + z) && (24 + z <=? 2147483647)) with true by lia. cbv zeta.
  assert (G : exists x m1, (if XBT_Align ty =? 8 then allocate8 m (24 + z) else allocate m (24 + z)) = Ok (Some x, m1) /\ zlen m1 = zlen m /\ 60 <= x /\ x + 24 + (z + 3) / 4 * 4 <= zlen m /\ exists b, rd m1 32 4 = Ok b /\ unle b = zlen m).
  { pose proof (align8_ge (24 + z)). pose proof (align8_ge a). pose proof (align4_ge (24 + z)). destruct (XBT_Align ty =? 8).
    - destruct (allocate8_some m a (24 + z) PO) as (m1 & E); [lia..|]. exists (align_up 8 a), m1. split; [exact E|]. pose proof E as E0. apply (allocate8_ok _ a) in E; [|exact PO]. destruct E as (_ & _ & PO1 & _ & ZL & _). pose proof (file_size_u _ _ PO1 (allocate8_bytes _ _ _ _ E0 BM)) as FU. rewrite ZL in FU. repeat split; auto; unfold align_up in *; lia.
    - destruct (allocate_some m a (24 + z) PO) as (m1 & E); [lia..|]. exists a, m1. split; [exact E|]. pose proof E as E0. apply (allocate_ok _ a) in E; [|exact PO]. destruct E as (_ & _ & PO1 & _ & ZL & _). pose proof (file_size_u _ _ PO1 (allocate_bytes _ _ _ _ E0 BM)) as FU. rewrite ZL in FU. repeat split; auto; unfold align_up in *; lia. }
  destruct G as (x & m1 & -> & ZL & X0 & XL & b & RB & UB). cbn [obind].
  destruct (wr_some m1 (x + 7) [ty]) as (w1 & W1); [lia|change (zlen [ty]) with 1; lia|]. rewrite W1. cbn [obind]. pose proof (wr_len _ _ _ _ W1).
  destruct (wr32_some w1 x x) as (w2 & W2); [lia|lia|]. rewrite W2. cbn [obind]. pose proof (wr_len _ _ _ _ W2).
  destruct (wr32_some w2 (x + 8) x) as (w3 & W3); [lia|lia|]. rewrite W3. cbn [obind]. pose proof (wr_len _ _ _ _ W3).
  destruct (wr32_some w3 (x + 12) x) as (w4 & W4); [lia|lia|]. rewrite W4. cbn [obind]. pose proof (wr_len _ _ _ _ W4).
  assert (G : exists w5, (if XBT_IS_VARSIZE ty then wr32 w4 (x + 24) (z - 4) else Ok w4) = Ok w5 /\ zlen w5 = zlen m /\ rd w5 32 4 = rd m1 32 4).
  { assert (K : rd w4 32 4 = rd m1 32 4).
    { apply wr_kept in W1, W2, W3, W4. destruct W1 as (_ & _ & [_ K1] & _), W2 as (_ & _ & [_ K2] & _), W3 as (_ & _ & [_ K3] & _), W4 as (_ & _ & [_ K4] & _). rewrite K4, K3, K2, K1 by lia. reflexivity. }
    destruct (XBT_IS_VARSIZE ty) eqn:V; [|exists w4; split; [reflexivity|split; [lia|exact K]]].
    specialize (VZ eq_refl).
    destruct (wr32_some w4 (x + 24) (z - 4)) as (w5 & W5); [lia|lia|]. exists w5. split; [exact W5|]. split; [pose proof (wr_len _ _ _ _ W5); lia|]. rewrite <- K. apply wr_kept in W5. destruct W5 as (_ & _ & [_ K5] & _). apply K5; lia. }
  destruct G as (w5 & -> & ZL5 & K5). cbn [obind]. unfold init. rewrite K5. rewrite RB. cbn [obind].
  rewrite UB. replace ((0 <? x) && (x + 24 <=? zlen m)) with true by lia. match goal with |- context [wr w5 x ?b] => destruct (wr_some w5 x b) as (w6 & W6); [lia|change (zlen b) with 24; lia|] end. rewrite W6. cbn [obind]. exists x, w6. split; [reflexivity|]. split; [lia|]. pose proof (wr_len _ _ _ _ W6). lia.
Qed.
Lemma make_some m a M id ty extra n z d bs : pool m a -> bytes m -> p_mmap_size m = Ok M -> 0 <= extra -> a + 4095 + (BW2_INITIAL_FILE_SIZE + extra) <= M -> XBT_Size2 ty n = Ok z -> 0 <= z -> (XBT_IS_VARSIZE ty = true -> 4 <= z) -> z + 46 <= BW2_INITIAL_FILE_SIZE + extra ->
  24 <= d -> d + zlen bs <= 24 + (z + 3) / 4 * 4 -> exists x m', make true m id ty extra n d bs = Ok (Some x, m').
Proof.
  intros PO BM MM E0 RO SZ Z0 VZ ZE D BS. unfold make. assert (I : int32 (BW2_INITIAL_FILE_SIZE + extra)). { pose proof (rd_s32_range _ _ _ MM) as IM. pose proof PO as (_ & _ & _ & _ & BB & _). unfold BW2_INITIAL_FILE_SIZE, HEADER, int32 in *. lia. }
  unfold int_, int32b. unfold BW2_INITIAL_FILE_SIZE, int32 in *. replace ((-2147483648 <=? 16384 + extra) && (16384 + extra <=? 2147483647)) with true by lia.
  destruct (makeSpace_some m a (16384 + extra) M PO MM ltac:(lia) ltac:(lia)) as (m1 & SP). rewrite SP. cbn [obind negb]. pose proof (makeSpace_bytes _ _ _ _ _ SP BM) as B1. apply (makeSpace_ok _ _ a) in SP; [|exact PO]. destruct SP as (PO1 & _ & ZL). specialize (ZL eq_refl).
  destruct (fresh_some true m1 a id ty n z ELEMENT PO1 SZ Z0 VZ ltac:(lia) B1) as (x & m2 & FR & X0 & XL). rewrite FR. cbn [obind]. destruct (wr_some m2 (x + d) bs) as (m3 & W); [lia|lia|]. rewrite W. cbn [obind]. eauto.
Qed.

(** ** What getData delivers *)
Definition stores t z d bs (Q : list Z -> Prop) : Prop := forall m x, el_type m x = Ok t -> rd m (x + d) (zlen bs) = Ok bs -> (XBT_IS_VARSIZE t = true -> 28 <= d -> rd_s32 m (x + 24) = Ok (z - 4)) -> 0 < x -> x + 24 + (z + 3) / 4 * 4 <= zlen m ->
  exists data content, bw_getData m x = Ok (t, data, content) /\ Q content.
Lemma stores_4 t z v : XBT_IS_4 t = true -> stores t z 24 (le 4 v) (fun b => b = le 4 v).
Proof.
  intros I4 m x ET RD _ X0 XL. exists (le 4 v), (le 4 v). split; [|reflexivity]. unfold bw_getData. rewrite ET. cbn [obind]. replace (t =? XBT_STRING) with false by (destruct (Z.eqb_spec t XBT_STRING); [subst t; discriminate I4|reflexivity]). rewrite I4. change (zlen (le 4 v)) with 4 in RD. rewrite RD. reflexivity.
Qed.
Lemma stores_fixed t z w bs : (t =? XBT_STRING) = false -> XBT_IS_4 t = false -> XBT_IS_VARSIZE t = false -> XBT_FIXEDSIZE t = w -> 0 <= w -> zlen bs = w -> stores t z 24 bs (fun b => b = bs).
Proof.
  intros N1 N2 N3 FS W0 L m x ET RD _ X0 XL. exists bs, bs. split; [|reflexivity]. unfold bw_getData. rewrite ET. cbn [obind]. rewrite N1, N2, N3, FS. replace (w <? 0) with false by lia. rewrite L in RD. rewrite RD. reflexivity.
Qed.
Lemma stores_var t z v : t = XBT_BLOB \/ t = XBT_HEX -> zlen v <= INT_MAX -> z = zlen v + 4 -> stores t z 24 (le 4 (zlen v) ++ v) (fun b => b = v).
Proof.
  intros TT VI EZ m x ET RD _ X0 XL. pose proof (zlen_nonneg v). exists (le 4 (zlen v) ++ v), v. split; [|reflexivity]. rewrite zlen_app in RD. change (zlen (le 4 (zlen v))) with 4 in RD. pose proof RD as RD2. apply rd_inv in RD2; [|lia]. destruct RD2 as (_ & _ & H0 & _). apply has_app in H0 as [H1 H2]. change (zlen (le 4 (zlen v))) with 4 in H2.
  assert (R1 : rd_s32 m (x + 24) = Ok (zlen v)) by (apply has_s32; [unfold int32, INT_MAX in *; lia|exact H1]). apply has_rd in H2. replace (x + 24 + 4) with (x + 28) in H2 by lia. unfold bw_getData. rewrite ET. cbn [obind].
  replace (t =? XBT_STRING) with false by (destruct TT as [-> | ->]; reflexivity). replace (XBT_IS_4 t) with false by (destruct TT as [-> | ->]; reflexivity). replace (XBT_IS_VARSIZE t) with true by (destruct TT as [-> | ->]; reflexivity). rewrite R1. cbn [obind]. rewrite RD. cbn [obind]. rewrite H2. reflexivity.
Qed.
Lemma stores_str z v : cstring v -> stores XBT_STRING z 24 (v ++ [0]) (fun b => b = v ++ [0]).
Proof.
  intros CV m x ET RD _ X0 XL. exists (v ++ [0]), (v ++ [0]). split; [|reflexivity]. unfold bw_getData. rewrite ET. cbn [obind]. change (XBT_STRING =? XBT_STRING) with true. cbv iota. pose proof (zlen_nonneg (v ++ [0])). apply rd_inv in RD; [|lia]. destruct RD as (_ & _ & H0 & _). rewrite (has_str _ _ _ CV H0). reflexivity.
Qed.
Lemma stores_reserve z v : zlen v + 5 <= z -> stores XBT_BLOB_STRING z 28 (v ++ [0]) (fun b => exists w, b = v ++ 0 :: w).
Proof.
  intros ZV m x ET RD RS X0 XL. specialize (RS eq_refl ltac:(lia)). pose proof (zlen_nonneg v). destruct (rd_some m (x + 24) (4 + (z - 4))) as [dd DD]; [lia..|]. destruct (rd_some m (x + 28) (z - 4)) as [c C]; [lia..|]. exists dd, c. split.
  - unfold bw_getData. rewrite ET. cbn [obind]. change (XBT_BLOB_STRING =? XBT_STRING) with false. change (XBT_IS_4 XBT_BLOB_STRING) with false. change (XBT_IS_VARSIZE XBT_BLOB_STRING) with true. cbv iota. rewrite RS. cbn [obind]. rewrite DD. cbn [obind]. rewrite C. reflexivity.
  - rewrite zlen_app in RD. change (zlen [0]) with 1 in RD. exists (zskip (zlen v + 1) c). assert (CL : zlen c = z - 4) by (apply rd_inv in C; [tauto|lia]).
    assert (E : ztake (zlen v + 1) c = v ++ [0]). { assert (RR : forall m p n b, rd m p n = Ok b -> b = slice m p n) by (intros ? ? ? ? R; unfold rd in R; destruct (_ && _); congruence). rewrite (RR _ _ _ _ C). apply RR in RD. rewrite RD. unfold slice, ztake. rewrite firstn_firstn. f_equal. lia. }
    rewrite <- (ztake_zskip (zlen v + 1) c) at 1. rewrite E. rewrite <- app_assoc. reflexivity.
Qed.

(** ** The calls *)
Definition tshape c ty t disk m id : Prop := exists n d bs z, (getTagType m id = Ok ty -> tag_run c disk m id = make disk m id t (tag_space c - 16384) n d bs) /\ XBT_Size2 t n = Ok z /\ 0 <= z /\ (XBT_IS_VARSIZE t = true -> 4 <= z) /\ z + 46 <= tag_space c /\ 16384 <= tag_space c /\
  24 <= d /\ d + zlen bs <= 24 + (z + 3) / 4 * 4 /\ stores t z d bs (tag_content c t).
Ltac tag_go := let GT := fresh in intro GT; cbn [tag_run]; unfold bw_tagBLOB, bw_tagHEX, bw_tagVar, bw_tagInt64, bw_tagFloat, bw_tagTime, bw_tagTime64, tag_; rewrite GT; reflexivity.
Lemma tshape_of c ty t disk m id : In (ty, t) (tag_types c) -> tag_args c -> tshape c ty t disk m id.
Proof.
  intros I AR. destruct c; cbn [tag_types tag_args map] in I, AR.
  - assert (t = XBT_NULL) as -> by (cbn [In] in I; intuition congruence). exists 0, 24, [], 0. split; [reflexivity|]. repeat (split; [vm_compute; (reflexivity || discriminate)|]). intros m' x ET RD _ X0 XL. exists [], []. split; [|reflexivity]. unfold bw_getData. rewrite ET. cbn [obind]. change (rd m' (x + 24) 0 = Ok []) in RD. change (obind (rd m' (x + 24) 0) (fun b => Ok (XBT_NULL, b, b)) = Ok (XBT_NULL, [], [])). rewrite RD. reflexivity.
  - destruct AR as [CV VL]. change (2 ^ 29) with 536870912 in VL. pose proof (zlen_nonneg v) as V0. assert (RUN : forall t, int_ (zlen v * 2) (fun n => make disk m id t n (zlen v) (if t =? XBT_STRING then 24 else 28) (v ++ [0])) = make disk m id t (tag_space (TStr v) - 16384) (zlen v) (if t =? XBT_STRING then 24 else 28) (v ++ [0])).
    { intro t0. unfold int_, int32b. replace ((-2147483648 <=? zlen v * 2) && (zlen v * 2 <=? 2147483647)) with true by lia. assert (TS : tag_space (TStr v) - 16384 = zlen v * 2) by (unfold tag_space; lia). rewrite TS. reflexivity. }
    assert (S1 : forall ty, or_variant XBT_STRING ty = Some XBT_STRING -> (ty =? XBT_BLOB_STRING) = false -> tshape (TStr v) ty XBT_STRING disk m id).
    { intros ty0 OV NB. exists (zlen v), 24, (v ++ [0]), (zlen v + 1). split; [intro GT; cbn [tag_run]; unfold bw_tagStr; rewrite GT; cbn [obind]; rewrite NB, OV; exact (RUN XBT_STRING)|]. split; [reflexivity|]. split; [lia|]. split; [discriminate|]. unfold tag_space; cbv iota beta. split; [lia|]. split; [lia|]. split; [lia|]. rewrite zlen_app. change (zlen [0]) with 1. split; [lia|]. exact (stores_str _ v CV). }
    cbn [In] in I. destruct I as [E|[E|[E|[]]]]; injection E as <- <-; [apply S1; reflexivity..|].
    change (2 ^ 30) with 1073741824 in *. destruct (blob_string_reserve (zlen v)) as (sz & SE & _ & S0 & S2 & SM); [change (2 ^ 30) with 1073741824; lia|]. assert (SB : sz <= 16 \/ 2 * sz <= 3 * zlen v). { destruct (Z.le_gt_cases 16 (zlen v)) as [H|H]; [right; apply (blob_string_thrifty (zlen v)); auto; change (2 ^ 30) with 1073741824; lia|left]. apply SM; [exists 0; split; [lia|left; reflexivity]|lia]. }
    exists (zlen v), 28, (v ++ [0]), (4 + sz). split; [intro GT; cbn [tag_run]; unfold bw_tagStr; rewrite GT; exact (RUN XBT_BLOB_STRING)|]. split; [change (obind (XBT_GetBLOB_STRING_Size (zlen v)) (fun s => Ok (4 + s)) = Ok (4 + sz)); rewrite SE; reflexivity|]. split; [lia|]. split; [lia|]. unfold tag_space; cbv iota beta. split; [lia|]. split; [lia|]. split; [lia|]. rewrite zlen_app. change (zlen [0]) with 1. split; [lia|]. apply stores_reserve. lia.
  - destruct AR as [_ VL]. change (2 ^ 30) with 1073741824 in VL. pose proof (zlen_nonneg v) as V0. assert (t = XBT_BLOB) as -> by (cbn [In] in I; intuition congruence). exists (zlen v), 24, (le 4 (zlen v) ++ v), (zlen v + 4). unfold tag_space; cbv iota beta. rewrite zlen_app. change (zlen (le 4 (zlen v))) with 4. split; [|split; [reflexivity|repeat (split; [lia|])]].
    + replace (zlen v + 4 + 16384 - 16384) with (zlen v + 4) by lia. cbn [In] in I. destruct I as [E|[E|[]]]; injection E as <-; tag_go.
    + apply stores_var; unfold INT_MAX; auto; lia.
  - change (2 ^ 30) with 1073741824 in AR. assert (t = XBT_BLOB) as -> by (cbn [In] in I; intuition congruence). assert (ZL : zlen (zrepeat 0 n) = n) by (apply zlen_repeat; lia). exists n, 24, (le 4 n ++ zrepeat 0 n), (n + 4). unfold tag_space; cbv iota beta. rewrite zlen_app, ZL. change (zlen (le 4 n)) with 4. split; [|split; [reflexivity|repeat (split; [lia|])]].
    + replace (n + 4 + 16384 - 16384) with (n + 4) by lia. cbn [In] in I. destruct I as [E|[E|[]]]; injection E as <-; tag_go.
    + pose proof (stores_var XBT_BLOB (n + 4) (zrepeat 0 n)) as SV. rewrite ZL in SV. apply SV; unfold INT_MAX; auto; lia.
  - destruct AR as [_ VL]. change (2 ^ 30) with 1073741824 in VL. pose proof (zlen_nonneg v) as V0. cbn [In] in I. destruct I as [E|[]]. injection E as <- <-. exists (zlen v), 24, (le 4 (zlen v) ++ v), (zlen v + 4). unfold tag_space; cbv iota beta. rewrite zlen_app. change (zlen (le 4 (zlen v))) with 4. split; [|split; [reflexivity|repeat (split; [lia|])]].
    + replace (zlen v + 4 + 16384 - 16384) with (zlen v + 4) by lia. tag_go.
    + apply stores_var; unfold INT_MAX; auto; lia.
  - change (2 ^ 30) with 1073741824 in AR. cbn [In] in I. destruct I as [E|[]]. injection E as <- <-. assert (ZL : zlen (zrepeat 0 n) = n) by (apply zlen_repeat; lia). exists n, 24, (le 4 n ++ zrepeat 0 n), (n + 4). unfold tag_space; cbv iota beta. rewrite zlen_app, ZL. change (zlen (le 4 n)) with 4. split; [|split; [reflexivity|repeat (split; [lia|])]].
    + replace (n + 4 + 16384 - 16384) with (n + 4) by lia. tag_go.
    + pose proof (stores_var XBT_HEX (n + 4) (zrepeat 0 n)) as SV. rewrite ZL in SV. apply SV; unfold INT_MAX; auto; lia.
  - assert (X : ty = t /\ XBT_IS_4 t = true) by (cbn [In] in I; repeat (destruct I as [E|I]; [injection E as <- <-; split; reflexivity|]); destruct I). destruct X as [-> I4]. exists 0, 24, (le 4 v), 4. split; [intro GT; cbn [tag_run]; unfold bw_tagInt32, tag_; rewrite GT; cbn [obind]; rewrite I4; reflexivity|]. split; [apply size_4, I4|]. unfold tag_space; cbv iota beta. repeat (split; [lia|]). split; [vm_compute; discriminate|]. apply stores_4, I4.
  - assert (t = XBT_INT64) as -> by (cbn [In] in I; intuition congruence). exists 0, 24, (le 8 v), 8. split; [cbn [In] in I; destruct I as [E|[E|[]]]; injection E as <-; tag_go|]. split; [reflexivity|]. unfold tag_space; cbv iota beta. repeat (split; [lia|]). split; [vm_compute; discriminate|]. eapply stores_fixed; reflexivity || (vm_compute; discriminate).
  - cbn [In] in I. destruct I as [E|[]]. injection E as <- <-. exists 0, 24, (le 4 bits), 4. split; [tag_go|]. split; [reflexivity|]. unfold tag_space; cbv iota beta. repeat (split; [lia|]). split; [vm_compute; discriminate|]. apply stores_4. reflexivity.
  - destruct AR as [_ VL]. cbn [In] in I. destruct I as [E|[]]. injection E as <- <-. destruct (rd_some v 0 16) as [bs RV]; [lia..|]. assert (BL : zlen bs = 16 /\ bs = ztake 16 v). { split; [apply rd_inv in RV; [tauto|lia]|]. unfold rd in RV. destruct ((0 <=? 0) && _); [|discriminate]. injection RV as <-. reflexivity. } destruct BL as [BL BE].
    exists 0, 24, bs, 16. split; [intro GT; cbn [tag_run]; unfold bw_tagGUID, tag_; rewrite RV; cbn [obind]; rewrite GT; reflexivity|]. split; [reflexivity|]. unfold tag_space; cbv iota beta. rewrite BL. repeat (split; [lia|]). change (stores XBT_GUID 16 24 bs (fun b => b = ztake 16 v)). rewrite <- BE. apply (stores_fixed _ _ 16); try reflexivity; [lia|exact BL].
  - destruct AR as [_ VL]. cbn [In] in I. destruct I as [E|[]]. injection E as <- <-. destruct (rd_some v 0 20) as [bs RV]; [lia..|]. assert (BL : zlen bs = 20 /\ bs = ztake 20 v). { split; [apply rd_inv in RV; [tauto|lia]|]. unfold rd in RV. destruct ((0 <=? 0) && _); [|discriminate]. injection RV as <-. reflexivity. } destruct BL as [BL BE].
    exists 0, 24, bs, 24. split; [intro GT; cbn [tag_run]; unfold bw_tagSHA1, tag_; rewrite RV; cbn [obind]; rewrite GT; reflexivity|]. split; [reflexivity|]. unfold tag_space; cbv iota beta. rewrite BL. repeat (split; [lia|]). change (stores XBT_SHA1 24 24 bs (fun b => b = ztake 20 v)). rewrite <- BE. apply (stores_fixed _ _ 20); try reflexivity; [lia|exact BL].
  - assert (t = XBT_UNIX_TIME) as -> by (cbn [In] in I; intuition congruence). exists 0, 24, (le 4 v), 4. split; [cbn [In] in I; destruct I as [E|[E|[]]]; injection E as <-; tag_go|]. split; [reflexivity|]. unfold tag_space; cbv iota beta. repeat (split; [lia|]). split; [vm_compute; discriminate|]. apply stores_4. reflexivity.
  - assert (t = XBT_UNIX_TIME64_MSEC) as -> by (cbn [In] in I; intuition congruence). exists 0, 24, (le 8 v), 8. split; [cbn [In] in I; destruct I as [E|[E|[]]]; injection E as <-; tag_go|]. split; [reflexivity|]. unfold tag_space; cbv iota beta. repeat (split; [lia|]). split; [vm_compute; discriminate|]. eapply stores_fixed; reflexivity || (vm_compute; discriminate).
Qed.
(** The getters *)
Lemma tag_gets c ty t m x data b : In (ty, t) (tag_types c) -> tag_args c -> getSymbolType m x = Ok ty -> el_type m x = Ok t -> bw_getData m x = Ok (t, data, b) -> tag_content c t b -> tag_getter c ty m x.
Proof.
  intros I AR ST ET GD TC. destruct c; cbn [tag_getter tag_types tag_args tag_content map] in *; auto; unfold bw_getData in GD; rewrite ET in GD; cbn [obind] in GD.
  - destruct AR as [CV _]. unfold bw_getStr. rewrite ET. cbn [obind]. assert (C : t = XBT_STRING \/ t = XBT_BLOB_STRING) by (cbn [In] in I; intuition congruence). destruct C as [-> | ->].
    + change (XBT_STRING =? XBT_STRING) with true in *. change (XBT_STRING =? XBT_BLOB_STRING) with false in *. cbv iota in *. apply obind_inv in GD as (s & RS & GD). rewrite RS. cbn [obind]. injection GD as _ GD. rewrite TC in GD. apply app_inj_tail in GD as [-> _]. reflexivity.
    + change (XBT_BLOB_STRING =? XBT_STRING) with false in *. change (XBT_BLOB_STRING =? XBT_BLOB_STRING) with true in *. change (XBT_IS_4 XBT_BLOB_STRING) with false in GD. change (XBT_IS_VARSIZE XBT_BLOB_STRING) with true in GD. cbv iota in *. apply obind_inv in GD as (n & _ & GD). apply obind_inv in GD as (dd & _ & GD). apply obind_inv in GD as (c & RC & GD). apply ok_third in GD. subst c. destruct TC as [w ->].
      assert (N : 0 <= n). { destruct (Z.le_gt_cases 0 n) as [|N]; [assumption|]. unfold rd in RC. destruct (_ && _); [|discriminate]. injection RC as RC. unfold slice, ztake in RC. replace (Z.to_nat n) with 0%nat in RC by lia. destruct v; discriminate RC. } apply rd_inv in RC; [|exact N]. destruct RC as (_ & _ & H0 & _). change (v ++ 0 :: w) with (v ++ [0] ++ w) in H0. rewrite app_assoc in H0. apply has_app in H0 as [H0 _]. rewrite (has_str _ _ _ CV H0). reflexivity.
  - intro IV. assert (X : ty = t /\ XBT_IS_4 t = true /\ (t =? XBT_STRING) = false) by (cbn [In] in I; repeat (destruct I as [E|I]; [injection E as <- <-; repeat split; reflexivity|]); destruct I). destruct X as (-> & I4 & NS). rewrite NS, I4 in GD. apply obind_inv in GD as (b0 & RB & GD). apply ok_third in GD. subst b0. unfold bw_getInt32. rewrite ST. cbn [obind]. rewrite I4. unfold rd_s32. rewrite RB. cbn [obind]. rewrite TC, s32_le by exact IV. reflexivity.
  - intro IV. assert (t = XBT_INT64) as -> by (cbn [In] in I; intuition congruence). unfold bw_getInt64. rewrite ST, ET. cbn [obind]. assert (RB : rd m (x + 24) 8 = Ok (le 8 v)) by (apply obind_inv in GD as (b0 & RB & GD); apply ok_third in GD; subst b0 b; exact RB). rewrite RB. cbn [obind]. rewrite s64_le by exact IV. cbn [In] in I. destruct I as [E|[E|[]]]; injection E as <-; reflexivity.
  - cbn [In] in I. destruct I as [E|[]]. injection E as <- <-. unfold bw_getFloat, bw_get. rewrite ST. cbn [obind]. change (XBT_FLOAT =? XBT_FLOAT) with true. change (XBT_IS_4 XBT_FLOAT) with true in *. change (XBT_FLOAT =? XBT_STRING) with false in GD. cbv iota in *. apply obind_inv in GD as (b0 & RB & GD). apply ok_third in GD. subst b0 b. rewrite RB. reflexivity.
  - cbn [In] in I. destruct I as [E|[]]. injection E as <- <-. unfold bw_getGUID, bw_get. rewrite ST. cbn [obind]. change (XBT_GUID =? XBT_GUID) with true. cbv iota. apply obind_inv in GD as (b0 & RB & GD). apply ok_third in GD. subst b0 b. change (XBT_FIXEDSIZE XBT_GUID) with 16 in RB. rewrite RB. reflexivity.
  - intro IV. assert (t = XBT_UNIX_TIME64_MSEC) as -> by (cbn [In] in I; intuition congruence). unfold bw_getInt64. rewrite ST, ET. cbn [obind]. assert (RB : rd m (x + 24) 8 = Ok (le 8 v)) by (apply obind_inv in GD as (b0 & RB & GD); apply ok_third in GD; subst b0 b; exact RB). rewrite RB. cbn [obind]. rewrite s64_le by exact IV. cbn [In] in I. destruct I as [E|[E|[]]]; injection E as <-; reflexivity.
Qed.
