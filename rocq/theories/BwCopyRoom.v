(** Copying a document into a pool: with enough room everything is copied. *)
From Verif Require Import Base BaseFacts Types ListFacts SizeProofs Sort Xb XbSpec XbFacts XbWrite WriteProofs XbBin BinSpec Bw BwFacts BwRing BwSpec BwHist BwAlloc BwProofs BwRead BwTop BwSym BwReg BwFileSpec BwFileProofs BwNamesSpec BwNamesFacts BwNamesInv BwNamesReg BwNamesOps BwNamesIndex BwNamesProofs BwLifeSpec BwLife BwOnly JsonSource BwSet BwNamesTop BwAttr BwAttrSpec BwAttrProofs BwAttrTop BwTag BwTagSpec BwTagProofs BwTagTop BwSourceSpec BwCopy BwCopySpec BwCopyProofs BwCopyTop.

Definition room m a M : Prop := pool m a /\ bytes m /\ p_mmap_size m = Ok M.
Lemma pool_same m m' a : pool m a -> zlen m' = zlen m -> (forall q n, 0 <= n -> q + n <= 92 -> rd m' q n = rd m q n) -> pool m' a.
Proof.
  intros (A & L & FS & (M & MM & MB) & B & A4 & PG) ZL H. unfold pool, p_allocator, p_limit, p_file_size, p_mmap_size, rd_s32 in *. rewrite !H, ZL by lia. repeat split; auto; try lia. exists M. auto.
Qed.
Lemma wr32_is_bytes m p v m' : wr32 m p v = Ok m' -> bytes m -> bytes m'.
Proof. intros W B. eapply wr_is_bytes; [exact W|exact B|apply le_bytes]. Qed.
Lemma join_bytes m x b ok tr : join m x b = Ok (ok, tr) -> bytes m -> bytes (final m tr).
Proof.
  intros E BM. unfold join in E. do 4 apply obind_inv in E as (? & _ & E). destruct (_ || _) in E; [injection E as _ <-; exact BM|]. apply obind_inv in E as (m1 & W1 & E). apply obind_inv in E as (m2 & W2 & E). do 2 apply obind_inv in E as (? & _ & E). apply obind_inv in E as (m3 & W3 & E). do 2 apply obind_inv in E as (? & _ & E). apply obind_inv in E as (m4 & W4 & E). injection E as _ <-.
  cbn. eauto using wr32_is_bytes.
Qed.
Lemma add_bytes m p x ok tr : add m p x = Ok (ok, tr) -> bytes m -> bytes (final m tr).
Proof.
  intros E BM. unfold add in E. apply obind_inv in E as (f & _ & E). cbv zeta in E. apply obind_inv in E as (first & _ & E). destruct (first =? 0).
  - apply obind_inv in E as (o & _ & E). apply obind_inv in E as (m1 & W1 & E). injection E as _ <-. cbn. eauto using wr32_is_bytes.
  - apply obind_inv in E as (q & _ & E). apply obind_inv in E as ([o t] & J & E). injection E as _ <-. eapply join_bytes; eauto.
Qed.
Lemma life_pool k s m T P F a : life k s m T P F -> p_allocator m = Ok a -> pool m a.
Proof. intros LI A. pose proof (life_whole _ _ _ _ _ _ LI) as (B & a0 & I & _ & _). destruct (names_pool _ _ _ _ _ _ _ I) as [PO _]. pose proof PO as (A0 & _). congruence. Qed.
Lemma add_some k s m T P F p x c A a M : life k s m T P F -> In (None, [x]) F -> In p (members F) -> p <> x -> owned F p c A -> k x = c -> room m a M -> exists tr, add m p x = Ok (true, tr) /\ room (final m tr) a M /\ zlen (final m tr) = zlen m.
Proof.
  intros LI IX IP NE OW KX (PO & BM & MM). pose proof (life_whole _ _ _ _ _ _ LI) as (B & a0 & I & EL & _).
  assert (AD : exists F', adds k p x F F').
  { pose proof IX as IX'. apply in_split in IX' as (R1 & R2 & ->). assert (PM : Permutation (R1 ++ (None, [x]) :: R2) ((None, [x]) :: R1 ++ R2)) by (symmetry; apply Permutation_middle).
    assert (OR : owned (R1 ++ R2) p c A). { apply (owned_perm _ _ _ _ _ PM) in OW. destruct OW as [[O|O]|[-> U]]; [discriminate|left; exact O|right]. split; [reflexivity|]. intros L' J. apply (U L'). right. exact J. }
    destruct (added_free k (R1 ++ R2) p c A x OR KX) as (F' & AD & _). exists F'. apply (adds_perm _ _ _ _ _ _ PM) in AD. exact AD. }
  destruct AD as (F' & AD). destruct (inv_add _ _ _ _ _ _ _ EL IP AD) as (pre & m2 & EA & _). exists (pre ++ [m2]). split; [exact EA|]. destruct (add_step _ _ _ _ _ _ _ _ _ _ _ _ LI IX IP NE OW KX EA) as (_ & _ & _ & _ & _ & _ & _ & ZL & HD).
  split; [|exact ZL]. split; [eapply pool_same; eauto|]. split; [eapply add_bytes; eauto|]. unfold p_mmap_size, rd_s32 in *. rewrite HD by lia. exact MM.
Qed.
Lemma put_some m a M id ty flags bs : room m a M -> a + zlen bs + 38 <= zlen m -> 0 <= ty < 256 -> 0 <= flags < 256 -> bytes bs -> exists x m' a', put_el m id ty flags (zlen bs) (Ok bs) = Ok (Some x, m') /\ room m' a' M /\ a' <= a + zlen bs + 38 /\ zlen m' = zlen m.
Proof.
  intros (PO & BM & MM) RO TY FL BB. pose proof (zlen_nonneg bs) as B0. pose proof (pool_len _ _ PO) as [IZ IA]. pose proof PO as (_ & _ & _ & _ & BA & _). unfold HEADER, int32 in *. pose proof (align8_ge a) as [G1 G2]. pose proof (align8_ge (24 + zlen bs)) as [G3 G4]. unfold put_el. rewrite s32_small by (unfold int32; lia).
  assert (U1 : align_up 8 a <= a + 7) by (unfold align_up; lia). assert (U2 : align_up 8 (24 + zlen bs) <= 24 + zlen bs + 7) by (unfold align_up; lia).
  destruct (allocate8_some m a (24 + zlen bs) PO) as (m1 & AL); [lia|lia|]. rewrite AL. cbn [obind]. pose proof (allocate8_bytes _ _ _ _ AL BM) as B1. pose proof (allocate8_ok _ a _ _ _ PO AL) as (_ & _ & PO1 & [_ EX] & ZL & _). destruct (file_size_u _ _ PO1 B1) as (b & RB & UB).
  unfold init. rewrite RB. cbn [obind]. rewrite UB, ZL. replace ((0 <? align_up 8 a) && (align_up 8 a + 24 <=? zlen m)) with true by lia.
  match goal with |- context [wr m1 (align_up 8 a) ?h] => destruct (wr_some m1 (align_up 8 a) h) as (m2 & W2); [lia|change (zlen h) with 24; lia|] ; assert (BH : bytes h) end.
  { repeat (apply bytes_app; split); try apply le_bytes. constructor; [exact FL|constructor; [exact TY|constructor]]. }
  rewrite W2. cbn [obind]. pose proof (wr_len _ _ _ _ W2). pose proof (wr_is_bytes _ _ _ _ W2 B1 BH) as B2. destruct (wr_some m2 (align_up 8 a + 24) bs) as (m3 & W3); [lia|lia|]. rewrite W3. cbn [obind]. pose proof (wr_len _ _ _ _ W3). pose proof (wr_is_bytes _ _ _ _ W3 B2 BB) as B3.
  exists (align_up 8 a), m3, (align_up 8 a + align_up 8 (24 + zlen bs)). split; [reflexivity|]. split; [|split; lia]. destruct (wr_kept _ _ _ _ W2) as (_ & _ & K2 & _). destruct (wr_kept _ _ _ _ W3) as (_ & _ & K3 & _). split; [|split; [exact B3|]].
  - eapply pool_wr; [eapply pool_wr; [exact PO1|exact W2|lia]|exact W3|lia].
  - destruct K2 as [_ K2], K3 as [_ K3]. unfold p_mmap_size, rd_s32 in *. rewrite K3, K2, EX by lia. exact MM.
Qed.
Lemma init_bytes m x id ty flags m' : init m x id ty flags = Ok m' -> bytes m -> 0 <= ty < 256 -> 0 <= flags < 256 -> bytes m'.
Proof.
  intros E BM TY FL. unfold init in E. apply obind_inv in E as (b & _ & E). destruct (_ && _) in E; [|discriminate]. eapply wr_is_bytes; [exact E|exact BM|]. repeat (apply bytes_app; split); try apply le_bytes. constructor; [exact FL|constructor; [exact TY|constructor]].
Qed.
Lemma space_room m a M n : room m a M -> 0 <= n -> a + 4095 + n <= M -> exists m', makeSpace true m n = Ok (true, m') /\ room m' a M /\ a + n <= zlen m' /\ zlen m <= zlen m'.
Proof.
  intros (PO & BM & MM) N RO. destruct (makeSpace_some m a n M PO MM N RO) as (m1 & E). exists m1. split; [exact E|]. pose proof (makeSpace_bytes _ _ _ _ _ E BM) as B1. apply (makeSpace_ok _ _ a) in E; [|exact PO]. destruct E as (PO1 & [EZ EX] & ZL). split; [|split; [apply ZL; reflexivity|exact EZ]]. split; [exact PO1|]. split; [exact B1|]. unfold p_mmap_size, rd_s32 in *. rewrite EX by lia. exact MM.
Qed.
(** An element without a value takes 24 bytes. *)
Lemma null_some m a M id : room m a M -> a + 4095 + 16384 <= M -> exists x m' a', bw_tag true m id = Ok (Some x, m') /\ room m' a' M /\ a' <= a + 38 /\ zlen m <= zlen m'.
Proof.
  intros RM RO. unfold bw_tag. pose proof RM as (PO & BM & MM).
  destruct (make_some m a M id XBT_NULL 0 0 0 24 [] PO BM MM) as (x & m' & E); [lia|unfold BW2_INITIAL_FILE_SIZE; lia|reflexivity|lia|discriminate|unfold BW2_INITIAL_FILE_SIZE; lia|lia|vm_compute; congruence|]. exists x, m', (a + 24). split; [exact E|].
  unfold make in E. apply int_inv in E as [_ E]. destruct (space_room m a M (BW2_INITIAL_FILE_SIZE + 0) RM ltac:(unfold BW2_INITIAL_FILE_SIZE; lia) ltac:(unfold BW2_INITIAL_FILE_SIZE; lia)) as (m1 & S1 & (PO1 & B1 & MM1) & ZL1 & ZL1'). rewrite S1 in E. cbn [obind negb] in E. apply obind_inv in E as ([y m2] & FR & E). destruct y as [y|]; [|discriminate]. apply obind_inv in E as (m3 & W3 & E). injection E as -> ->.
  assert (m' = m2) as ->. { destruct (wr_kept _ _ _ _ W3) as (_ & _ & K & _). unfold wr in W3. destruct (_ && _) in W3; [|discriminate]. injection W3 as <-. unfold bput. cbn [app]. change (zlen []) with 0. rewrite ?Z.add_0_r. apply ztake_zskip. } clear W3.
  unfold fresh in FR. apply obind_inv in FR as ([y m3] & NE & FR). destruct y as [y|]; [|discriminate]. apply obind_inv in FR as (m4 & IN & FR). injection FR as -> ->.
  unfold BW2_INITIAL_FILE_SIZE in *. pose proof PO1 as (_ & _ & _ & _ & BA & _). unfold HEADER in BA. unfold new_element in NE. change (XBT_Size2 XBT_NULL 0) with (@Ok Z 0) in NE. cbn [obind] in NE. change (0 <? 0) with false in NE. cbv iota in NE. apply int_inv in NE as [_ NE]. change (24 + 0) with 24 in NE. change (XBT_Align XBT_NULL =? 8) with false in NE. cbv zeta iota in NE.
  destruct (allocate_some m1 a 24 PO1 ltac:(lia) ltac:(change (align_up 4 24) with 24; lia)) as (w1 & AL). rewrite AL in NE. cbn [obind] in NE. pose proof (allocate_bytes _ _ _ _ AL B1) as C1. apply (allocate_ok _ a) in AL; [|exact PO1]. change (align_up 4 24) with 24 in AL. destruct AL as (_ & _ & PW & [_ EX] & ZW & _).
  change (XBT_IS_VARSIZE XBT_NULL) with false in NE. cbv iota in NE. apply obind_inv in NE as (w2 & V2 & NE). apply obind_inv in NE as (w3 & V3 & NE). apply obind_inv in NE as (w4 & V4 & NE). apply obind_inv in NE as (w5 & V5 & NE). cbn [obind] in NE. injection NE as -> ->.
  assert (WW : wr m3 x (le 4 x ++ le 2 id ++ [ELEMENT; XBT_NULL] ++ le 4 x ++ le 4 x ++ le 4 0 ++ le 4 0) = Ok m2). { unfold init in IN. apply obind_inv in IN as (b & _ & IN). destruct (_ && _) in IN; [exact IN|discriminate]. }
  assert (P2 : pool m2 (x + 24)) by (eapply pool_wr; [|exact WW|lia]; eapply pool_wr; [|exact V5|lia]; eapply pool_wr; [|exact V4|lia]; eapply pool_wr; [|exact V3|lia]; eapply pool_wr; [|exact V2|lia]; exact PW).
  assert (B3 : bytes m3). { eapply wr32_is_bytes; [exact V5|]. eapply wr32_is_bytes; [exact V4|]. eapply wr32_is_bytes; [exact V3|]. eapply wr_is_bytes; [exact V2|exact C1|]. constructor; [vm_compute; intuition congruence|constructor]. }
  pose proof (init_bytes _ _ _ _ _ _ IN B3 ltac:(vm_compute; intuition congruence) flag_element) as B2.
  split; [|split; [lia|]].
  - split; [exact P2|]. split; [exact B2|]. destruct (wr_kept _ _ _ _ WW) as (_ & _ & [_ K6] & _), (wr_kept _ _ _ _ V5) as (_ & _ & [_ K5] & _), (wr_kept _ _ _ _ V4) as (_ & _ & [_ K4] & _), (wr_kept _ _ _ _ V3) as (_ & _ & [_ K3] & _), (wr_kept _ _ _ _ V2) as (_ & _ & [_ K2] & _). unfold p_mmap_size, rd_s32 in *. rewrite K6, K5, K4, K3, K2, EX by lia. exact MM1.
  - rewrite (wr_len _ _ _ _ WW), (wr_len _ _ _ _ V5), (wr_len _ _ _ _ V4), (wr_len _ _ _ _ V3), (wr_len _ _ _ _ V2). lia.
Qed.
Lemma ref_pos d r p ty v : ref_ok d r p -> read_data d r = Ok (ty, v) -> In ty known_types -> holdable ty v -> 0 <= dr_size r.
Proof.
  intros (DP & SZ) RD KN [NB BL]. unfold read_data in RD. rewrite DP in RD. apply obind_inv in RD as (b & RB & E). injection E as TY <-. rewrite TY in SZ. destruct SZ as [[_ ->]|[[_ (s & _ & ->)]|[[V (n & RN & SN)]|(N4 & NS & NV & SF)]]]; [lia|pose proof (zlen_nonneg s); lia| |].
  - assert (BH : ty = XBT_BLOB \/ ty = XBT_HEX). { unfold XBT_IS_VARSIZE, isin in V. apply existsb_exists in V as (u & J & Q). apply Z.eqb_eq in Q. subst u. cbn [In] in J. destruct J as [J|[J|[J|[]]]]; auto. congruence. }
    specialize (BL BH). destruct (Z.le_gt_cases 0 (dr_size r)); [assumption|]. exfalso. unfold rd in RB. destruct (_ && _) in RB; [|discriminate]. injection RB as <-. unfold slice, ztake in BL. replace (Z.to_nat (dr_size r)) with 0%nat in BL by lia. cbn [firstn] in BL. unfold zlen in BL. cbn in BL. lia.
  - rewrite SF. cbn [known_types four_bytes eight_bytes app In] in KN. repeat (destruct KN as [<-|KN]; [first [discriminate N4|discriminate NV|congruence|vm_compute; congruence]|]). destruct KN.
Qed.
Lemma data_bytes d r ty v : bytes d -> read_data d r = Ok (ty, v) -> bytes v.
Proof. intros BD RD. unfold read_data in RD. destruct (dr_data r); [|discriminate]. apply obind_inv in RD as (b & RB & E). injection E as _ <-. unfold rd in RB. destruct (_ && _) in RB; [|discriminate]. injection RB as <-. unfold slice. apply bytes_take, bytes_skip, BD. Qed.
Lemma data_type d r ty v : read_data d r = Ok (ty, v) -> dr_type r = ty.
Proof. intro RD. unfold read_data in RD. destruct (dr_data r); [|discriminate]. apply obind_inv in RD as (b & _ & Q). injection Q as <- _. reflexivity. Qed.
Lemma attr_some fl d k s m T P F p A i nm ty r q v a M : life k s m T P F -> In p (members F) -> owned F p false A -> t_index m PARAMS <> Ok 0 -> nth_error P i = Some (nm, ty) -> ty <> XBT_UNKNOWN ->
  bytes d -> zlen d <= INT_MAX -> ref_ok d r q -> read_data d r = Ok (ty, v) -> holdable ty v -> In ty known_types -> room m a M -> a + zlen v + 40 <= zlen m ->
  exists m' a', attrData fl d m p (Z.of_nat i) r = Ok (Some p, m') /\ room m' a' M /\ a' <= a + zlen v + 40 /\ zlen m' = zlen m.
Proof.
  intros LI IP OW IX NT NU BD ZD RO RD HO KN RM SP. pose proof (life_whole _ _ _ _ _ _ LI) as (B & a0 & I & EL & _). pose proof EL as (hh & aa & PL & RP & SH). destruct (param_type m T P B a0 i nm ty I IX NT) as [GT TY]. pose proof (data_type _ _ _ _ RD) as DT. pose proof (ref_pos _ _ _ _ _ RO RD KN HO) as POS.
  unfold attrData. rewrite (rep_off _ _ _ RP p IP). cbn [obind]. rewrite Z.eqb_refl. cbn [negb]. rewrite GT. cbn [obind]. cbv zeta. rewrite DT.
  replace ((ty =? XBT_STRING) && negb (ty =? XBT_STRING)) with false by (destruct (ty =? XBT_STRING); reflexivity). rewrite Z.eqb_refl. cbn [negb].
  assert (ID : -32768 <= Z.of_nat i < 32768). { pose proof (attr_known _ _ _ _ _ _ LI) as P1. assert (IL : (i < List.length P)%nat) by (apply nth_error_Some; congruence). unfold zlen in P1. lia. }
  destruct (ref_fits _ _ _ _ _ BD RO RD POS HO) as (_ & SZ & RB & FI). rewrite RB, SZ. pose proof (ref_len _ _ _ _ _ RD RO POS) as LV.
  destruct (put_some m a M (Z.of_nat i) ty ATTR v RM ltac:(lia) TY flag_attr (data_bytes _ _ _ _ BD RD)) as (x & m1 & a1 & PE & RM1 & LE & ZL). rewrite PE. cbn [obind].
  destruct (put_done _ _ _ _ _ _ _ _ _ _ _ _ LI TY flag_attr ID FI ltac:(lia) PE) as [QU (k1 & s1 & w & L1 & AG & NX & KX & _)]. change (is_element ATTR) with false in KX.
  destruct (add_some k1 s1 m1 T P _ p x false A a1 M L1 (or_introl eq_refl) (or_intror IP) ltac:(intros ->; auto) (owned_free _ _ _ _ _ OW) KX RM1) as (tr & EA & RM2 & ZL2). rewrite EA. cbn [obind]. exists (final m1 tr), a1. split; [reflexivity|]. split; [exact RM2|]. lia.
Qed.
Lemma tag_some fl d k s m T P F i nm tyr ty r q v a M : life k s m T P F -> t_index m TAGS <> Ok 0 -> nth_error T i = Some (nm, tyr) -> ty = XBT_NULL \/ tyr = ty ->
  bytes d -> zlen d <= INT_MAX -> ref_ok d r q -> read_data d r = Ok (ty, v) -> holdable ty v -> In ty known_types -> room m a M -> a + zlen v + 20560 <= M ->
  exists x m' a', tagData fl true d m (Z.of_nat i) r = Ok (Some x, m') /\ room m' a' M /\ a' <= a + zlen v + 40 /\ a' + 16000 <= zlen m'.
Proof.
  intros LI IX NT TT BD ZD RO RD HO KN RM SP. pose proof (data_type _ _ _ _ RD) as DT. pose proof (ref_pos _ _ _ _ _ RO RD KN HO) as POS. destruct (ref_fits _ _ _ _ _ BD RO RD POS HO) as (_ & SZ & RB & FI). pose proof (zlen_nonneg v) as V0.
  pose proof RM as (PO & _ & MM). pose proof (rd_s32_range _ _ _ MM) as IM. pose proof PO as (_ & _ & _ & _ & BA & _). unfold HEADER, int32 in *.
  unfold tagData. rewrite SZ, DT. unfold int_, int32b, BW2_INITIAL_FILE_SIZE. replace ((-2147483648 <=? 16384 + 8 + zlen v) && (16384 + 8 + zlen v <=? 2147483647)) with true by lia.
  destruct (space_room m a M (16384 + 8 + zlen v) RM ltac:(lia) ltac:(lia)) as (m1 & S1 & RM1 & ZL1 & _). rewrite S1. cbn [obind negb]. destruct (space_same _ _ _ _ _ _ _ _ _ _ LI S1) as (L1 & _ & TG). destruct (pool_short _ _ _ _ _ _ LI) as [ZL _].
  destruct (Z.eqb_spec ty XBT_NULL) as [->|NN].
  - destruct (null_some m1 a M (Z.of_nat i) RM1 ltac:(lia)) as (x & m2 & a2 & E & RM2 & LE & ZL2). exists x, m2, a2. split; [exact E|]. split; [exact RM2|]. lia.
  - destruct TT as [TT| ->]; [congruence|]. pose proof (life_whole _ _ _ _ _ _ L1) as (B & a0 & I & EL & _). assert (IX1 : t_index m1 TAGS <> Ok 0). { unfold t_index, rd_s32 in *. rewrite (rd_within m m1 TAGS 32) by (auto; unfold TAGS; lia). exact IX. } destruct (tag_type m1 T P B a0 i nm ty I IX1 NT) as [GT TY]. rewrite GT. cbn [obind]. rewrite Z.eqb_refl. cbn [negb].
    rewrite SZ in RB. rewrite RB. destruct (put_some m1 a M (Z.of_nat i) ty ELEMENT v RM1 ltac:(lia) TY flag_element (data_bytes _ _ _ _ BD RD)) as (x & m2 & a2 & PE & RM2 & LE & ZL2). exists x, m2, a2. split; [exact PE|]. split; [exact RM2|]. lia.
Qed.

Section Full.
Variables (fl : floats) (d : list Z) (R : reader) (T P : names).
Hypothesis bytes_d : bytes d.
Hypothesis short_d : zlen d <= INT_MAX.
Hypothesis tags_agree : agrees d (rd_tags R) T.
Hypothesis params_agree : agrees d (rd_params R) P.

Lemma attrs_full y p M : (forall i q id, getParamByIndex d (Some y) i = Ok (Some q) -> pd_name d q = Ok id -> 0 <= id < sy_count (rd_params R)) ->
  forall n i attrs k s m F A a, read_bin_attrs n d R y i = Ok attrs -> (forall n ty v, In (n, ty, v) attrs -> holdable ty v /\ In ty known_types /\ typed P n ty) -> life k s m T P F -> In p (members F) -> owned F p false A -> indexed m ->
  room m a M -> a + attr_cost attrs <= zlen m -> exists m' a', copy_attrs n fl d m p y i = Ok (true, m') /\ room m' a' M /\ a' <= a + attr_cost attrs.
Proof.
  intros NM. induction n as [|n IH]; intros i attrs k s m F A a RA CO LI IP OW IX RM SP.
  - cbn in RA |- *. injection RA as <-. exists m, a. cbn. split; [reflexivity|]. split; [exact RM|lia].
  - cbn [read_bin_attrs copy_attrs] in RA |- *. apply obind_inv in RA as (q & GP & RA). rewrite GP. cbn [obind]. destruct q as [q|]; [|discriminate]. apply obind_inv in RA as (id & PN & RA). apply obind_inv in RA as (nm & SY & RA). apply obind_inv in RA as ([ty v] & DR & RA). apply obind_inv in RA as (rest & RR & RA). injection RA as <-.
    apply obind_inv in DR as (r & GD & RD). unfold attrCopy. rewrite GD. cbn [obind]. rewrite PN. cbn [obind]. pose proof (NM _ _ _ GP PN) as IR. destruct (params_agree id nm IR SY) as (tyr & NU & NT). destruct (param_ref _ _ _ _ GD) as (pp & RO).
    destruct (CO nm ty v (or_introl eq_refl)) as (HO & KN & TX). assert (tyr = ty) as -> by (apply TX; eapply nth_error_In; eauto). replace id with (Z.of_nat (Z.to_nat id)) by lia. cbn [attr_cost] in SP |- *.
    assert (AC0 : 0 <= attr_cost rest). { clear. induction rest as [|[[? ?] w] rest IH]; cbn; [lia|]. pose proof (zlen_nonneg w). lia. }
    destruct (attr_some fl d k s m T P F p A (Z.to_nat id) nm ty r pp v a M LI IP OW (proj2 IX) NT NU bytes_d short_d RO RD HO KN RM ltac:(lia)) as (m1 & a1 & E1 & RM1 & LE1 & ZL1). rewrite E1. cbn [obind].
    destruct (attr_step _ _ _ _ _ _ _ _ _ _ _ _ _ _ _ _ _ _ _ LI IP OW (proj2 IX) NT NU bytes_d short_d RO RD HO (fun Q => Q) E1) as (k1 & s1 & F1 & L1 & EV1 & OK1 & H1). destruct H1 as [H1|(_ & x & v' & OX & _)]; [discriminate|].
    pose proof EV1 as ((G1 & _) & TG1 & _). destruct (G1 p IP) as (IP1 & _). destruct (IH (i + 1) rest k1 s1 m1 F1 (A ++ [x]) a1 RR (fun n0 ty0 v0 J => CO n0 ty0 v0 (or_intror J)) L1 IP1 OX (indexed_kept _ _ _ _ _ _ _ LI TG1 IX) RM1 ltac:(lia)) as (m2 & a2 & E2 & RM2 & LE2).
    exists m2, a2. split; [exact E2|]. split; [exact RM2|lia].
Qed.
Lemma cost_nonneg : forall t, 0 <= cost t.
Proof.
  fix IH 1. intros [n ty v attrs kids]. cbn [cost]. pose proof (zlen_nonneg v). assert (A0 : 0 <= attr_cost attrs). { clear. induction attrs as [|[[? ?] w] rest IHr]; cbn; [lia|]. pose proof (zlen_nonneg w). lia. }
  assert (K0 : 0 <= fold_right Z.add 0 (map cost kids)). { clear - IH. revert kids. fix IHl 1. intros [|t kids]; cbn; [lia|]. pose proof (IH t). pose proof (IHl kids). lia. } lia.
Qed.
Lemma costs_nonneg kids : 0 <= fold_right Z.add 0 (map cost kids).
Proof. induction kids as [|t kids IH]; cbn; [lia|]. pose proof (cost_nonneg t). lia. Qed.
Lemma fitting_copyable u : fitting T P u -> copyable T P u.
Proof. destruct u as [n ty v attrs kids]. intros (HO & KN & TT & AA). split; [exact HO|]. split; [|intros n0 ty0 v0 J; destruct (AA _ _ _ J) as (H1 & _ & H3); split; [exact H1|]; intros -> ty' J'; apply H3, J']. intros -> ty' J. destruct TT as [TT|TT]; [discriminate|]. apply TT, J. Qed.
Lemma kids_full fr p y M : (forall i c, getChildByIndex d (Some y) i = Ok (Some c) -> named d R c) ->
  (forall y n ty v attrs kids k s m F e a, read_bin_node fr d R y = rret (BNode n ty v attrs kids) -> named d R y -> (forall u, In u (belements (BNode n ty v attrs kids)) -> fitting T P u) ->
     (forall u, In u (flat_map belements kids) -> short u) -> life k s m T P F -> In e (members F) -> owned F e false [] -> owned F e true [] -> indexed m -> el_id m e = it_name d y -> room m a M -> a + attr_cost attrs <= zlen m -> a + attr_cost attrs + costs kids + 20600 <= M ->
     exists m' a', CopyAll fr fl true d m (Some e) y = rret (Some e, m') /\ copied T P False k s m F e (Some e) m' attrs kids /\ room m' a' M /\ a' <= a + attr_cost attrs + costs kids) ->
  forall n i ks k s m F L0 a, read_kids (read_bin_node fr d R) d y n i = rret ks -> (forall u, In u (flat_map belements ks) -> fitting T P u /\ short u) -> life k s m T P F -> In p (members F) -> owned F p true L0 -> indexed m ->
  room m a M -> a + costs ks + 20600 <= M ->
  exists m' a', copy_kids (CopyAll fr fl true d) fl true d p y n i m = rret m' /\ room m' a' M /\ a' <= a + costs ks /\
  exists k' s' F', life k' s' m' T P F' /\ evo p k s m F k' s' m' F' /\ (forall A, owned F p false A -> owned F' p false A) /\
  exists L ks', owned F' p true (L0 ++ L) /\ Forall2 (tree_q (fun e => ~ In e (members F)) k' s' m' T P F') L ks' /\ map doc_of ks' = ks.
Proof.
  intros NC REC. induction n as [|n IH]; intros i ks k s m F L0 a RK CO LI IP OW IX RM SP.
  - cbn in RK |- *. injection RK as <-. exists m, a. split; [reflexivity|]. split; [exact RM|]. split; [cbn; lia|]. exists k, s, F. split; [exact LI|]. split; [apply evo_same|]. split; [auto|]. exists [], []. rewrite app_nil_r. split; [exact OW|]. split; constructor.
  - cbn [read_kids copy_kids] in RK |- *. fold (read_kids (read_bin_node fr d R) d y) in RK. fold (copy_kids (CopyAll fr fl true d) fl true d p y). apply rbind_some in RK as (c & GC & RK). rewrite GC, rbind_Ok. destruct c as [c|]; [|discriminate].
    apply rbind_inv in RK as (t & RT & RK). apply rbind_inv in RK as (rest & RR & RK). injection RK as <-. destruct t as [nm ty v attrs kids]. pose proof (NC _ _ GC) as NDC. destruct fr as [|fr]; [discriminate|]. destruct (node_data _ _ _ _ _ _ _ _ _ RT) as (id & pc & cc & r & IN & SY & _ & _ & _ & GD & RD & _).
    rewrite GD, rbind_Ok, IN, rbind_Ok.
    inversion NDC as [c' NM1 NM2 NM3 EQ]; subst c'. pose proof (NM1 _ IN) as IR. destruct (tags_agree id nm IR SY) as (tyr & NU & NT). destruct (item_ref _ _ _ GD) as (pp & RO).
    assert (CO1 : forall u, In u (belements (BNode nm ty v attrs kids)) -> fitting T P u /\ short u) by (intros u J; apply CO; cbn [flat_map]; apply in_or_app; left; exact J).
    destruct (CO1 _ (or_introl eq_refl)) as [(HO & KN & TX & _) SH]. cbn [short] in SH. assert (TT : ty = XBT_NULL \/ tyr = ty) by (destruct TX as [TX|TX]; [left; exact TX|right; apply TX; eapply nth_error_In; eauto]).
    assert (TX' : ty = XBT_STRING -> tyr = XBT_STRING) by (intro Q; destruct TT as [TT|TT]; [rewrite TT in Q; discriminate|congruence]).
    unfold costs in SP |- *. cbn [map fold_right cost] in SP |- *. fold (costs kids) (costs rest) in SP |- *. pose proof (costs_nonneg rest) as CR. pose proof (costs_nonneg kids) as CK. fold (costs kids) (costs rest) in CR, CK. pose proof (zlen_nonneg v) as V0.
    assert (AC0 : 0 <= attr_cost attrs). { clear. induction attrs as [|[[? ?] w] rest IHr]; cbn; [lia|]. pose proof (zlen_nonneg w). lia. }
    replace id with (Z.of_nat (Z.to_nat id)) by lia.
    destruct (tag_some fl d k s m T P F (Z.to_nat id) nm tyr ty r pp v a M LI (proj1 IX) NT TT bytes_d short_d RO RD HO KN RM ltac:(lia)) as (e & m1 & a1 & TD & RM1 & LE1 & ZL1). rewrite TD, rbind_Ok.
    pose proof (tag_step _ _ _ _ _ _ _ _ _ _ _ _ _ _ _ _ _ _ LI (proj1 IX) NT NU bytes_d short_d RO RD HO TX' TD) as TR. pose proof TR as ((_ & TG) & k1 & s1 & v1 & L1 & AG1 & NX & KX & EI & SA & _). pose proof (indexed_kept _ _ _ _ _ _ _ LI TG IX) as IX1.
    assert (EID : el_id m1 e = it_name d c) by (rewrite EI, IN; f_equal; lia).
    destruct (REC c nm ty v attrs kids k1 s1 m1 ((None, [e]) :: F) e a1 RT NDC (fun u J => proj1 (CO1 u J)) (fun u J => proj2 (CO1 u (or_intror J))) L1 (or_introl eq_refl) (none_owned _ _ _ _ _ _ _ _ LI NX) (none_owned _ _ _ _ _ _ _ _ LI NX) IX1 EID RM1 ltac:(lia) ltac:(lia)) as (m2 & a2 & CA & CP & RM2 & LE2).
    rewrite CA. unfold rret at 1. rewrite rbind_Ok.
    assert (AD : exists tr, add m2 p e = Ok (true, tr) /\ room (final m2 tr) a2 M /\ zlen (final m2 tr) = zlen m2).
    { destruct CP as (k2 & s2 & F2 & L2 & ((G2 & G2o) & _ & FR2) & _). destruct (G2 p (or_intror IP)) as (IP2 & _). destruct (G2 e (or_introl eq_refl)) as (_ & K2 & _). assert (NPE : p <> e) by (intros ->; auto).
      apply (add_some k2 s2 m2 T P F2 p e true L0 a2 M L2); auto; [apply FR2; left; reflexivity|apply G2o; [right; exact IP|exact NPE|apply owned_free, OW]|congruence]. }
    destruct AD as (tr & EA & RM3 & ZL3). set (m3 := final m2 tr) in *.
    destruct (kid_step T P False (Z.to_nat id) k s m F p L0 e m1 nm ty v (Some e) m2 attrs kids m3 LI IP OW TR) as (k3 & s3 & F3 & L3 & EV & OA & H).
    { intros k1' s1' v' L1' KE' EI' SE'. destruct (REC c nm ty v attrs kids k1' s1' m1 ((None, [e]) :: F) e a1 RT NDC (fun u J => proj1 (CO1 u J)) (fun u J => proj2 (CO1 u (or_intror J))) L1' (or_introl eq_refl) (none_owned _ _ _ _ _ _ _ _ LI NX) (none_owned _ _ _ _ _ _ _ _ LI NX) IX1 EID RM1 ltac:(lia) ltac:(lia)) as (m2' & a2' & CA' & CP' & _). rewrite CA in CA'. injection CA' as <-. exact CP'. }
    { rewrite EA. reflexivity. }
    destruct H as [(_ & [] & _)|(_ & O3 & t' & TQ & _ & [[]|DC])]. rewrite EA. cbn [obind]. rewrite rbind_Ok. fold m3.
    pose proof EV as ((G1 & _) & TG3 & _). destruct (G1 p IP) as (IP3 & _).
    destruct (IH (i + 1) rest k3 s3 m3 F3 (L0 ++ [e]) a2 RR) as (m4 & a4 & E4 & RM4 & LE4 & k4 & s4 & F4 & L4 & EV4 & OA4 & L2 & ks2 & O4 & FT4 & MD); [intros u J; apply CO; cbn [flat_map]; apply in_or_app; right; exact J|exact L3|exact IP3|exact O3|exact (indexed_kept _ _ _ _ _ _ _ LI TG3 IX)|exact RM3|lia|].
    exists m4, a4. split; [exact E4|]. split; [exact RM4|]. split; [lia|]. exists k4, s4, F4. split; [exact L4|]. split; [eapply evo_trans; eauto|]. split; [auto|]. exists (e :: L2), (t' :: ks2). rewrite <- app_assoc in O4. split; [exact O4|]. split.
    + constructor.
      * apply (tree_kept (fun e0 => ~ In e0 (members F)) (fun e0 => ~ In e0 (members F)) p k3 s3 m3 T P F3); [exact EV4| |exact TQ]. intros q NQ. split; [intros ->; auto|exact NQ].
      * apply (trees_kept (fun e0 => ~ In e0 (members F3)) (fun e0 => ~ In e0 (members F)) p k4 s4 m4 T P F4); [apply evo_same| |exact FT4]. intros q NQ. split; [intros ->; auto|]. intro J. apply NQ. apply (G1 q J).
    + cbn [map]. rewrite DC, MD. reflexivity.
Qed.
Lemma sub_all : forall ks : list bnode, sub pruned ks ks.
Proof. assert (P1 : forall t, pruned t t). { fix IH 1. intros [n ty v attrs kids]. constructor. revert kids. fix IHl 1. intros [|t kids]; [constructor|]. apply sub_keep; [apply IH|apply IHl]. } induction ks; constructor; auto. Qed.
Lemma empty_field k s m F p b : life k s m T P F -> In p (members F) -> owned F p b [] -> (if b then el_child m p else el_attr m p) = Ok 0.
Proof.
  intros LI IP OW. pose proof (life_whole _ _ _ _ _ _ LI) as (B & a & I & EL & _). destruct EL as (hh & aa & PL & RP & SH).
  assert (H : hh p (field_of b) = 0). { destruct OW as [O|[_ U]]; [apply (sh_head _ _ SH) in O as [_ O]; exact O|exact (sh_none _ _ SH p b IP U)]. }
  assert (LK : link (field_of b)) by (destruct b; vm_compute; auto). pose proof (rep_link _ _ _ RP p _ IP LK) as RL. rewrite H in RL. destruct b; exact RL.
Qed.
Lemma copy_full M : forall fr y n ty v attrs kids k s m F e a, read_bin_node fr d R y = rret (BNode n ty v attrs kids) -> named d R y -> (forall u, In u (belements (BNode n ty v attrs kids)) -> fitting T P u) ->
     (forall u, In u (flat_map belements kids) -> short u) -> life k s m T P F -> In e (members F) -> owned F e false [] -> owned F e true [] -> indexed m -> el_id m e = it_name d y -> room m a M -> a + attr_cost attrs <= zlen m -> a + attr_cost attrs + costs kids + 20600 <= M ->
     exists m' a', CopyAll fr fl true d m (Some e) y = rret (Some e, m') /\ copied T P False k s m F e (Some e) m' attrs kids /\ room m' a' M /\ a' <= a + attr_cost attrs + costs kids.
Proof.
  induction fr as [|fr IH]; intros y n ty v attrs kids k s m F p a RN ND CO SH LI IP OA OL IX EID RM SP1 SP2; [discriminate|].
  destruct (node_data _ _ _ _ _ _ _ _ _ RN) as (id & pc & cc & rr & IN & SY & PC & CC & RA & GD & RD & RK). inversion ND as [y' NM1 NM2 NM3 EQ]; subst y'.
  rewrite CopyAll_S. rewrite (empty_field _ _ _ _ _ true LI IP OL), rbind_Ok. change (negb (0 =? 0)) with false. cbv iota. rewrite (empty_field _ _ _ _ _ false LI IP OA), rbind_Ok. change (negb (0 =? 0)) with false. cbv iota.
  rewrite EID, IN, !rbind_Ok, Z.eqb_refl. cbn [negb]. rewrite PC, rbind_Ok. destruct (CO _ (or_introl eq_refl)) as (_ & _ & _ & COA).
  destruct (attrs_full y p M NM2 (Z.to_nat pc) 0 attrs k s m F [] a RA COA LI IP OA IX RM SP1) as (m1 & a1 & CA & RM1 & LE1). rewrite CA, rbind_Ok. cbn [negb].
  destruct (attrs_safe fl d R T P bytes_d short_d params_agree y p NM2 (Z.to_nat pc) 0 attrs k s m F [] true m1 RA) as (k1 & s1 & F1 & L1 & EV1 & OK1 & H1); auto. { intros n0 ty0 v0 J. destruct (COA _ _ _ J) as (H1 & _ & H3). split; [exact H1|]. intros -> ty' J'. apply H3, J'. }
  destruct H1 as [H1|(_ & A2 & attrs' & O1 & FA & MA)]; [discriminate|]. pose proof EV1 as ((G1 & _) & TG & _). destruct (G1 p IP) as (IP1 & _). rewrite CC, rbind_Ok.
  destruct (kids_full fr p y M NM3 IH (Z.to_nat cc) 0 kids k1 s1 m1 F1 [] a1 RK) as (m2 & a2 & CK & RM2 & LE2 & k2 & s2 & F2 & L2 & EV2 & OK2 & L & ks & O2 & FT & MD); auto.
  { intros u J. split; [apply CO; right; exact J|apply SH, J]. } { exact (indexed_kept _ _ _ _ _ _ _ LI TG IX). } { lia. }
  rewrite CK. unfold rret at 1. rewrite rbind_Ok. exists m2, a2. split; [reflexivity|]. split; [|split; [exact RM2|lia]].
  exists k2, s2, F2. split; [exact L2|]. split; [eapply evo_trans; eauto|]. right. split; [reflexivity|]. exists A2, L, attrs', ks. split; [apply OK2; exact O1|]. split; [exact O2|]. split.
  { apply (attrs_kept p k1 s1 m1 F1 k2 s2 m2 F2); [exact EV2|intros x J; exact (owned_members _ _ _ _ _ O1 J)|exact FA]. }
  split; [|split; [exact MA|split; [rewrite MD; apply sub_all|right; exact MD]]].
  apply (trees_kept (fun e0 => ~ In e0 (members F1)) (fun e0 => ~ In e0 (members F)) p k2 s2 m2 T P F2); [apply evo_same| |exact FT]. intros q NQ. split; [intros ->; auto|]. intro J. apply NQ. apply (G1 q J).
Qed.
End Full.

(** ** Statements *)
Lemma holds_of T P loss F k s m F' p attrs kids : filled T P loss F k s m F' p attrs kids -> exists kids', sub pruned kids' kids /\ (loss \/ kids' = kids) /\ holds k s m T P F' p attrs kids'.
Proof.
  intros (A & L & attrs' & kids' & OA & OL & FA & FL & MA & SU & EQ). exists (map doc_of kids'). split; [exact SU|]. split; [exact EQ|]. exists A, L, attrs', kids'. split; [exact OA|]. split; [exact OL|]. split; [exact FA|]. split; [|split; [exact MA|reflexivity]].
  clear - FL. induction FL; constructor; auto. eapply tree_q_at; eauto.
Qed.
Theorem copy_is_part fl disk d R T P k s m F p fr fuel y n ty v attrs kids r m' : life k s m T P F -> t_index m TAGS <> Ok 0 -> t_index m PARAMS <> Ok 0 -> In p (members F) -> owned F p false [] -> owned F p true [] ->
  bytes d -> zlen d <= INT_MAX -> agrees d (rd_tags R) T -> agrees d (rd_params R) P -> named d R y -> read_bin_node fr d R y = rret (BNode n ty v attrs kids) -> (forall u, In u (belements (BNode n ty v attrs kids)) -> copyable T P u) ->
  CopyAll fuel fl disk d m (Some p) y = rret (r, m') ->
  exists k' s' F', life k' s' m' T P F' /\ grown k s m F p k' s' m' F' /\ (r = None \/ r = Some p /\ exists kids', sub pruned kids' kids /\ holds k' s' m' T P F' p attrs kids').
Proof.
  intros LI I1 I2 IP OA OL BD ZD AT AP ND RN CO E. destruct (copy_safe fl disk d R T P BD ZD AT AP fuel fr y n ty v attrs kids k s m F p r m' RN ND CO LI IP OA OL (conj I1 I2) E) as (k' & s' & F' & L' & (G & _) & H).
  exists k', s', F'. split; [exact L'|]. split; [exact G|]. destruct H as [[-> _]|[-> H]]; [left; reflexivity|right]. split; [reflexivity|]. destruct (holds_of _ _ _ _ _ _ _ _ _ _ _ H) as (kids' & S & _ & HO). eauto.
Qed.
Theorem copy_complete fl d R T P k s m F p fr y n ty v attrs kids a M : life k s m T P F -> t_index m TAGS <> Ok 0 -> t_index m PARAMS <> Ok 0 -> In p (members F) -> owned F p false [] -> owned F p true [] ->
  bytes d -> zlen d <= INT_MAX -> agrees d (rd_tags R) T -> agrees d (rd_params R) P -> named d R y -> read_bin_node fr d R y = rret (BNode n ty v attrs kids) -> (forall u, In u (belements (BNode n ty v attrs kids)) -> fitting T P u) ->
  el_id m p = it_name d y -> bytes m -> p_allocator m = Ok a -> p_mmap_size m = Ok M -> a + attr_cost attrs <= zlen m -> (forall u, In u (flat_map belements kids) -> short u) -> a + attr_cost attrs + costs kids + 20600 <= M ->
  exists m' k' s' F', CopyAll fr fl true d m (Some p) y = rret (Some p, m') /\ life k' s' m' T P F' /\ grown k s m F p k' s' m' F' /\ holds k' s' m' T P F' p attrs kids.
Proof.
  intros LI I1 I2 IP OA OL BD ZD AT AP ND RN CO EI BM A MM S1 SH S2. destruct (copy_full fl d R T P BD ZD AT AP M fr y n ty v attrs kids k s m F p a RN ND CO SH LI IP OA OL (conj I1 I2) EI (conj (life_pool _ _ _ _ _ _ _ LI A) (conj BM MM)) S1 S2) as (m' & a' & E & (k' & s' & F' & L' & (G & _) & [[_ []]|[_ H]]) & _).
  exists m', k', s', F'. split; [exact E|]. split; [exact L'|]. split; [exact G|]. destruct (holds_of _ _ _ _ _ _ _ _ _ _ _ H) as (kids' & _ & [[]| ->] & HO). exact HO.
Qed.
Theorem copy_refused fl disk d T P k s m F p b e L fuel y : life k s m T P F -> In p (members F) -> owned F p b (e :: L) -> CopyAll (S fuel) fl disk d m (Some p) y = rret (None, m).
Proof.
  intros LI IP OW. pose proof (life_whole _ _ _ _ _ _ LI) as (B & a & I & EL & _). destruct (names_pool _ _ _ _ _ _ _ I) as [PO _]. pose proof EL as (hh & aa & PL & RP & SH). assert (IE : In e (members F)) by (eapply owned_members; [exact OW|left; reflexivity]). destruct (inv_in _ _ _ _ _ e EL PO IE) as (E0 & _ & _). unfold HEADER in E0.
  assert (FLD : hh p (field_of b) = e). { destruct OW as [O|[Q _]]; [apply (sh_head _ _ SH) in O as [_ O]; exact O|discriminate]. }
  assert (RL : forall c, rd_s32 m (p + field_of c) = Ok (hh p (field_of c))) by (intro c; apply (rep_link _ _ _ RP p _ IP); destruct c; vm_compute; auto).
  rewrite CopyAll_S. unfold el_child, el_attr. rewrite (RL true : rd_s32 m (p + 16) = _), rbind_Ok. destruct b.
  - rewrite FLD. replace (e =? 0) with false by lia. reflexivity.
  - destruct (_ =? 0); [|reflexivity]. cbn [negb]. rewrite (RL false : rd_s32 m (p + 20) = _), rbind_Ok, FLD. replace (e =? 0) with false by lia. reflexivity.
Qed.
Theorem copy_other fl disk d T P k s m F p fuel y i j : life k s m T P F -> In p (members F) -> el_id m p = Ok i -> it_name d y = Ok j -> i <> j -> CopyAll (S fuel) fl disk d m (Some p) y = rret (None, m).
Proof.
  intros LI IP EI IN NE. pose proof (life_whole _ _ _ _ _ _ LI) as (B & a & I & EL & _). pose proof EL as (hh & aa & PL & RP & SH).
  assert (RL : forall c, rd_s32 m (p + field_of c) = Ok (hh p (field_of c))) by (intro c; apply (rep_link _ _ _ RP p _ IP); destruct c; vm_compute; auto).
  rewrite CopyAll_S. unfold el_child, el_attr. rewrite (RL true : rd_s32 m (p + 16) = _), rbind_Ok. destruct (negb _); [reflexivity|]. rewrite (RL false : rd_s32 m (p + 20) = _), rbind_Ok. destruct (negb _); [reflexivity|]. rewrite EI, IN, !rbind_Ok. replace (i =? j) with false by lia. reflexivity.
Qed.
