(** Pools that are opened again *)
From Verif Require Import Base BaseFacts Types ListFacts Sort Symtab Xb XbSpec XbFacts XbWrite WriteProofs Bw BwFacts BwRing BwSpec BwHist BwAlloc BwProofs BwRead BwTop BwSym BwFile BwReg BwFileSpec BwFileProofs BwNamesSpec BwNamesFacts BwNamesInv BwNamesReg BwNamesOps BwNamesIndex BwNamesProofs BwLifeSpec BwLife BwTitle BwSet BwAttrProofs BwSource BwSourceProofs BwTagProofs BwMakeDoc BwOpen BwOpenSpec.
From Verif Require BwCopyTop.

(** ** The tables are found in order *)
Lemma check_index_ok m x n L s : indexed m x n L -> (forall i, (i < List.length L)%nat -> 0 <= off L i < s) -> forall k i, (i + k = List.length L)%nat -> check_index k m x (Z.of_nat i) n (n + s) = Ok true.
Proof.
  intros IX O. induction k as [|k IH]; intros i E; cbn [check_index]; [reflexivity|]. destruct (nth_error L i) as [e|] eqn:NE; [|apply nth_error_None in NE; lia]. rewrite (IX i e NE). cbn [obind].
  specialize (O i ltac:(lia)). replace ((n <=? n + off L i) && (n + off L i <? n + s)) with true by lia. replace (Z.of_nat i + 1) with (Z.of_nat (S i)) by lia. apply IH. lia.
Qed.
Lemma off_in L i : (i < List.length L)%nat -> 0 <= off L i < zlen (stored 0 L).
Proof.
  intro IL. destruct (nth_error L i) as [[s ty]|] eqn:NE; [|apply nth_error_None in NE; lia]. destruct (nth_error_split L i NE) as (l1 & l2 & -> & <-). rewrite off_mid, stored_app, zlen_app. cbn [stored]. rewrite zlen_app, entry_len. pose proof (esize_ge s). pose proof (zlen_nonneg s).
  pose proof (zlen_nonneg (stored 0 l1)). pose proof (zlen_nonneg (stored (0 + zlen l1 + 1) l2)). lia.
Qed.
Lemma check_ok m a t n x L R fuel : pool m a -> table m t n x L -> spread (regions n x L ++ R) a -> (List.length L < fuel)%nat -> check fuel m t = rret (true, m).
Proof.
  intros PO TB SP FU. pose proof TB as (MX & N & X & _ & _ & _ & _ & _ & _ & IX). unfold check. rewrite X, rbind_ok. destruct (Z.eqb_spec x 0) as [|X0]; [reflexivity|]. rewrite (size_some m a t n x L R fuel PO TB SP FU), rbind_rret, MX, rbind_ok, N, rbind_ok.
  destruct (IX X0) as [_ II]. replace (Z.to_nat (zlen L - 1 + 1)) with (List.length L) by (unfold zlen; lia). pose proof (check_index_ok m x n L (zlen (stored 0 L)) II (off_in L) (List.length L) 0 eq_refl) as CI. change (Z.of_nat 0) with 0 in CI. rewrite CI. reflexivity.
Qed.
Lemma opened m T P B a : titled m -> BwNamesInv.inv m TAGS PARAMS T P B a -> opens_as m m.
Proof.
  intros TI (n & x & n' & x' & PO & T1 & T2 & SP). exists (S (List.length T + List.length P)). intro max.
  pose proof PO as (A & LM & FS & (M & MM & MB) & BB & _). unfold Initialize. replace (zlen m <? HEADER) with false by lia. rewrite MM, rbind_ok. replace (M <? zlen m) with false by lia.
  unfold titled in TI. rewrite (rd_split m 4 24 4 ltac:(lia) ltac:(lia) : rd m 4 28 = _) in TI. change (4 + 24) with 28 in TI. apply obind_inv in TI as (b1 & R1 & TI). apply obind_inv in TI as (b2 & R2 & TI). assert (TI2 : b1 ++ b2 = (TYPE_INFO ++ [0; 0; 0]) ++ [0; 0; 0; 0]) by (change (Ok (b1 ++ b2) = Ok ((TYPE_INFO ++ [0; 0; 0]) ++ [0; 0; 0; 0])) in TI; congruence). clear TI. rename TI2 into TI.
  assert (LB : zlen b1 = zlen (TYPE_INFO ++ [0; 0; 0])) by (change (zlen (TYPE_INFO ++ [0; 0; 0])) with 24; apply rd_inv in R1 as (_ & _ & _ & R1); [exact R1|lia]). apply app_inj_len in TI as [-> ->]; [|exact LB].
  unfold CheckExistingFile. rewrite (type_info_str _ R1), R2, FS, MM, LM, A. cbn [obind]. destruct (list_eq_dec Z.eq_dec TYPE_INFO TYPE_INFO); [|congruence]. change (unle [0; 0; 0; 0] =? 0) with true. rewrite !Z.eqb_refl. replace (HEADER <=? a) with true by lia. replace (a <=? zlen m) with true by lia. cbn [andb]. rewrite rbind_ok. cbn [negb].
  rewrite (check_ok m a TAGS n x T _ _ PO T1 SP) by lia. rewrite rbind_rret, rbind_ok. pose proof (spread_drop _ _ _ SP) as SPR. rewrite (check_ok m a PARAMS n' x' P _ _ PO T2 SPR) by lia. rewrite rbind_rret, rbind_ok. reflexivity.
Qed.
Theorem reopens k s m T P F : life k s m T P F -> opens_as m m.
Proof. intro LI. destruct (life_whole _ _ _ _ _ _ LI) as (B & a & I & _). apply (opened m T P B a); [exact (life_titled _ _ _ _ _ _ LI)|exact I]. Qed.
(** A new pool in the place of an old one *)
Lemma store_some f tr p v : 0 <= p -> p + 4 <= zlen (final f tr) -> exists tr', store f (Ok tr) p v = Ok tr' /\ zlen (final f tr') = zlen (final f tr).
Proof. intros P B. unfold store. cbn [obind]. destruct (wr32_some (final f tr) p v P B) as (m1 & W). rewrite W. cbn [obind]. exists (tr ++ [m1]). split; [reflexivity|]. rewrite final_snoc. apply (wr_len_ _ _ _ _ W). Qed.
Lemma wr_bytes_some bs : forall m p, 0 <= p -> p + zlen bs <= zlen m -> exists r, wr_bytes m p bs = Ok r /\ zlen (final m r) = zlen m.
Proof.
  induction bs as [|b bs IH]; intros m p P B; cbn [wr_bytes]; [exists []; auto|]. rewrite zlen_cons in B. pose proof (zlen_nonneg bs). destruct (wr_some m p [b] P) as (m1 & W); [change (zlen [b]) with 1; lia|]. rewrite W. cbn [obind]. pose proof (wr_len_ _ _ _ _ W) as L1.
  destruct (IH m1 (p + 1) ltac:(lia) ltac:(lia)) as (r & E & LR). rewrite E. cbn [obind]. exists (m1 :: r). split; [reflexivity|]. rewrite <- L1, <- LR. unfold final. destruct r as [|y r]; [reflexivity|]. change (last (m1 :: y :: r) m) with (last (y :: r) m). f_equal. apply last_default. discriminate.
Qed.
Lemma bytes_some f tr p bs : 0 <= p -> p + zlen bs <= zlen (final f tr) -> exists tr', bytes_store f (Ok tr) p bs = Ok tr' /\ zlen (final f tr') = zlen (final f tr).
Proof. intros P B. unfold bytes_store. cbn [obind]. destruct (wr_bytes_some bs _ p P B) as (r & E & L). rewrite E. cbn [obind]. exists (tr ++ r). split; [reflexivity|]. rewrite final_app. exact L. Qed.
Lemma create_some max f : exists tr, InitEmptyFile true max f = Ok (true, tr).
Proof.
  unfold InitEmptyFile. cbn [negb]. cbv zeta. assert (L0 : zlen (final f [resize f INITIAL]) = 16384) by (apply resize_len; unfold INITIAL; lia).
  destruct (bytes_some f [resize f INITIAL] 0 (zrepeat 0 HEADER)) as (t1 & -> & L1); [lia|rewrite zlen_repeat; unfold HEADER; lia|]. rewrite L0 in L1.
  destruct (bytes_some f t1 4 (TYPE_INFO ++ [0; 0; 0])) as (t2 & -> & L2); [lia|change (zlen (TYPE_INFO ++ [0; 0; 0])) with 24; lia|]. rewrite L1 in L2.
  destruct (store_some f t2 28 0) as (t3 & -> & L3); [lia|lia|]. rewrite L2 in L3. destruct (store_some f t3 32 INITIAL) as (t4 & -> & L4); [lia|lia|]. rewrite L3 in L4. destruct (store_some f t4 36 max) as (t5 & -> & L5); [lia|lia|]. rewrite L4 in L5. destruct (store_some f t5 52 HEADER) as (t6 & -> & L6); [lia|lia|]. rewrite L5 in L6.
  destruct (store_some f t6 56 INITIAL) as (t7 & -> & L7); [lia|lia|]. rewrite L6 in L7. destruct (store_some f t7 60 (-1)) as (t8 & -> & L8); [lia|lia|]. rewrite L7 in L8. destruct (store_some f t8 76 (-1)) as (t9 & -> & L9); [lia|lia|]. rewrite L8 in L9. destruct (store_some f t9 0 HEADER) as (t10 & -> & L10); [lia|lia|]. cbn [obind]. eauto.
Qed.
Theorem recreated fuel max k s m T P F M : life k s m T P F -> p_mmap_size m = Ok M -> INITIAL <= M -> exists m', Initialize fuel true true max m = rret (true, m') /\ forall k' s', life k' s' m' [] [] [].
Proof.
  intros LI MM MI. destruct (life_whole _ _ _ _ _ _ LI) as (B & a & I & _). apply names_pool in I as [PO _]. pose proof PO as (_ & _ & _ & (M' & MM' & MB) & BB & _). rewrite MM in MM'. injection MM' as <-. unfold Initialize. replace (zlen m <? HEADER) with false by lia. rewrite MM, rbind_ok. replace (M <? zlen m) with false by lia.
  destruct (create_some M m) as (tr & E). rewrite E, rbind_ok. exists (final m tr). split; [reflexivity|]. intros k' s'. destruct (create_ok M m tr MI (rd_s32_range _ _ _ MM) E) as (PO' & TI & _ & _ & N1 & N2). eapply life_start; [exact PO'|exact TI|]. intros t [-> | ->]; assumption.
Qed.
Theorem foreign fuel disk max f ok g : HEADER <= zlen f -> (forall s, rd_str f 4 = Ok s -> s <> TYPE_INFO) -> Initialize fuel disk false max f = rret (ok, g) -> ok = false /\ g = f.
Proof.
  intros Z0 NT E. unfold Initialize in E. replace (zlen f <? HEADER) with false in E by lia. apply BwCopyTop.rbind_inv in E as (mm & _ & E). destruct (mm <? zlen f); [apply rret_bool in E as [<- <-]; auto|].
  unfold CheckExistingFile in E. apply BwCopyTop.rbind_inv in E as (b & H & E). apply some_inj in H. apply obind_inv in H as (s & S & H). specialize (NT s S). destruct (list_eq_dec Z.eq_dec s TYPE_INFO); [congruence|].
  do 5 (apply obind_inv in H as (? & _ & H)). injection H as <-. apply rret_bool in E as [<- <-]. auto.
Qed.
Theorem short_lost fuel max f : zlen f < HEADER -> INITIAL <= max -> int32 max -> exists g, Initialize fuel true false max f = rret (true, g) /\ forall k s, life k s g [] [] [].
Proof.
  intros Z0 MI IM. unfold Initialize. replace (zlen f <? HEADER) with true by lia. destruct (create_some max f) as (tr & E). rewrite E, rbind_ok. exists (final f tr). split; [reflexivity|]. intros k s.
  destruct (create_ok max f tr MI IM E) as (PO' & TI & _ & _ & N1 & N2). eapply life_start; [exact PO'|exact TI|]. intros t [-> | ->]; assumption.
Qed.

(** ** Registering by id *)
Lemma nth_nil {A} (L : list A) i : zlen L <= i -> nth_error L (Z.to_nat i) = None.
Proof. intro H. apply nth_error_None. unfold zlen in H. lia. Qed.
Lemma checked_tag m T P B a id name type : BwNamesInv.inv m TAGS PARAMS T P B a -> t_index m TAGS <> Ok 0 -> typed_names T -> XBT_NULL <= type < XBT_LAST ->
  exists b, register_checked m TAGS id name type = Ok b /\ (b = true <-> agrees T P TAGS id name type).
Proof.
  intros I IX TN TY. unfold register_checked, agrees. replace ((XBT_NULL <=? type) && (type <? XBT_LAST)) with true by lia. cbn [negb]. rewrite !Z.eqb_refl. pose proof I as (n & x & n2 & x2 & PO & TB & _ & SP). pose proof TB as (MX & _ & X & _). rewrite MX. cbn [obind].
  destruct ((0 <=? id) && (id <? zlen T)) eqn:RG.
  - destruct (nth_error T (Z.to_nat id)) as [[nm ty]|] eqn:NE; [|apply nth_error_None in NE; unfold zlen in *; lia]. pose proof (name_at XTNR2str _ _ _ _ _ _ _ _ _ _ I IX NE) as NM. destruct (tag_type _ _ _ _ _ _ _ _ I IX NE) as [GT _]. rewrite Z2Nat.id in NM, GT by lia. unfold getTagName. rewrite NM, GT. cbn [obind].
    replace ((0 <=? id) && (id <=? zlen T - 1)) with true by lia. cbn [andb]. assert (LE : ty <= XBT_LAST) by exact (proj1 (Forall_forall _ _) TN _ (nth_error_In _ _ NE)).
    destruct (list_eq_dec Z.eq_dec name nm) as [->|D]; cbn [andb]; [|replace (XBT_LAST <? ty) with false by lia; exists false; split; [reflexivity|]; split; [discriminate|intros [_ Q]; congruence]].
    destruct (Z.eqb_spec ty type) as [->|D]; [exists true; split; [reflexivity|]; split; [intros _; split; [lia|reflexivity]|auto]|]. replace (XBT_LAST <? ty) with false by lia. exists false. split; [reflexivity|]. split; [discriminate|intros [_ Q]; congruence].
  - assert (NM : exists nm, getTagName m id = Ok nm). { unfold getTagName, name_of. rewrite X. cbn [obind]. destruct (x =? 0); [eauto|]. destruct (id <? 0) eqn:C; [eauto|]. rewrite MX. cbn [obind]. replace (zlen T - 1 <? id) with true by lia. eauto. }
    assert (GT : exists ty, getTagType m id = Ok ty /\ ty <= XBT_LAST). { unfold getTagType. rewrite X. cbn [obind]. destruct (x =? 0); [eexists; split; [reflexivity|unfold XBT_UNKNOWN, XBT_LAST; lia]|]. rewrite MX. cbn [obind]. replace ((0 <=? id) && (id <=? zlen T - 1)) with false by lia.
      destruct (isin id _); [eexists; split; [reflexivity|unfold XBT_NULL, XBT_LAST; lia]|]. destruct (isin id _); eexists; (split; [reflexivity|unfold XBT_BLOB, XBT_UNKNOWN, XBT_LAST; lia]). }
    destruct NM as (nm & ->). destruct GT as (ty & -> & LE). cbn [obind]. replace ((0 <=? id) && (id <=? zlen T - 1)) with false by lia. cbn [andb]. replace (XBT_LAST <? ty) with false by lia. exists false. split; [reflexivity|]. split; [discriminate|]. intros [I0 Q]. rewrite (nth_nil T id) in Q by lia. discriminate.
Qed.
Lemma checked_param m T P B a id name type : BwNamesInv.inv m TAGS PARAMS T P B a -> t_index m PARAMS <> Ok 0 -> typed_names P -> XBT_NULL <= type < XBT_LAST ->
  exists b, register_checked m PARAMS id name type = Ok b /\ (b = true <-> agrees T P PARAMS id name type).
Proof.
  intros I IX TN TY. unfold register_checked, agrees. replace ((XBT_NULL <=? type) && (type <? XBT_LAST)) with true by lia. cbn [negb]. change (PARAMS =? TAGS) with false. cbv iota. pose proof I as (n2 & x2 & n & x & PO & _ & TB & SP). pose proof TB as (MX & _ & X & _). rewrite MX. cbn [obind].
  destruct ((0 <=? id) && (id <? zlen P)) eqn:RG.
  - destruct (nth_error P (Z.to_nat id)) as [[nm ty]|] eqn:NE; [|apply nth_error_None in NE; unfold zlen in *; lia]. pose proof I as I2. apply inv_swap in I2. pose proof (name_at XPNR2str _ _ _ _ _ _ _ _ _ _ I2 IX NE) as NM. destruct (param_type _ _ _ _ _ _ _ _ I IX NE) as [GT _]. rewrite Z2Nat.id in NM, GT by lia. unfold getAttrName. rewrite NM, GT. cbn [obind].
    replace ((0 <=? id) && (id <=? zlen P - 1)) with true by lia. cbn [andb]. assert (LE : ty <= XBT_LAST) by exact (proj1 (Forall_forall _ _) TN _ (nth_error_In _ _ NE)).
    destruct (list_eq_dec Z.eq_dec name nm) as [->|D]; cbn [andb]; [|replace (XBT_LAST <? ty) with false by lia; exists false; split; [reflexivity|]; split; [discriminate|intros [_ Q]; congruence]].
    destruct (Z.eqb_spec ty type) as [->|D]; [exists true; split; [reflexivity|]; split; [intros _; split; [lia|reflexivity]|auto]|]. replace (XBT_LAST <? ty) with false by lia. exists false. split; [reflexivity|]. split; [discriminate|intros [_ Q]; congruence].
  - assert (NM : exists nm, getAttrName m id = Ok nm). { unfold getAttrName, name_of. rewrite X. cbn [obind]. destruct (x =? 0); [eauto|]. destruct (id <? 0) eqn:C; [eauto|]. rewrite MX. cbn [obind]. replace (zlen P - 1 <? id) with true by lia. eauto. }
    assert (GT : exists ty, getAttrType m id = Ok ty /\ ty <= XBT_LAST). { unfold getAttrType. rewrite X. cbn [obind]. destruct (x =? 0); [eexists; split; [reflexivity|unfold XBT_UNKNOWN, XBT_LAST; lia]|]. rewrite MX. cbn [obind]. replace ((0 <=? id) && (id <=? zlen P - 1)) with false by lia.
      repeat match goal with |- context [if ?c then _ else _] => destruct c end; eexists; (split; [reflexivity|vm_compute; discriminate]). }
    destruct NM as (nm & ->). destruct GT as (ty & -> & LE). cbn [obind]. replace ((0 <=? id) && (id <=? zlen P - 1)) with false by lia. cbn [andb]. replace (XBT_LAST <? ty) with false by lia. exists false. split; [reflexivity|]. split; [discriminate|]. intros [I0 Q]. rewrite (nth_nil P id) in Q by lia. discriminate.
Qed.
Theorem checked k s m T P F t id name type : life k s m T P F -> t = TAGS \/ t = PARAMS -> t_index m t <> Ok 0 -> typed_names T -> typed_names P -> XBT_NULL <= type < XBT_LAST ->
  exists b, register_checked m t id name type = Ok b /\ (b = true <-> agrees T P t id name type).
Proof. intros LI [-> | ->] IX TT TP TY; destruct (life_whole _ _ _ _ _ _ LI) as (B & a & I & _); [eapply checked_tag|eapply checked_param]; eauto. Qed.
Lemma program_ok k s m T P F : life k s m T P F -> has_indices m -> typed_names T -> typed_names P -> forall l f, Forall request l -> 0 <= f ->
  exists g, register_program m l f = Ok g /\ f <= g /\ (g = f <-> Forall (fun '(t, id, name, type) => agrees T P t id name type) l).
Proof.
  intros LI [XT XP] TT TP. induction l as [|[[[t id] name] type] l IH]; intros f R F0; cbn [register_program].
  { exists f. split; [reflexivity|]. split; [lia|]. split; [constructor|reflexivity]. }
  apply Forall_cons_iff in R as [RQ R2]. cbn [request] in RQ. destruct RQ as [C TY]. destruct (checked k s m T P F t id name type LI C) as (b & E & A); auto; [destruct C as [-> | ->]; assumption|]. rewrite E. cbn [obind]. replace ((XBT_NULL <=? type) && (type <? XBT_LAST)) with true by lia. cbn [negb]. rewrite orb_false_r. destruct b.
  - destruct (IH f R2 F0) as (g & G & LE & Q). exists g. split; [exact G|]. split; [exact LE|]. rewrite Forall_cons_iff. rewrite Q. intuition.
  - destruct (IH (f + 1) R2 ltac:(lia)) as (g & G & LE & Q). exists g. split; [exact G|]. split; [lia|]. rewrite Forall_cons_iff. split; [lia|]. intros [A2 _]. apply A in A2. discriminate.
Qed.
Theorem program_checked k s m T P F M a fuel l : life k s m T P F -> has_indices m -> typed_names T -> typed_names P -> Forall request l -> p_mmap_size m = Ok M -> p_allocator m = Ok a -> a + 4095 + 16384 <= M ->
  exists failures ok m', register_program m l 0 = Ok failures /\ allRegistered fuel true true failures m = rret (ok, m') /\ (ok = true <-> Forall (fun '(t, id, name, type) => agrees T P t id name type) l).
Proof.
  intros LI HI TT TP R MM AL RM. destruct (program_ok k s m T P F LI HI TT TP l 0 R ltac:(lia)) as (g & G & LE & Q). exists g. destruct (life_whole _ _ _ _ _ _ LI) as (B & a' & I & _). apply names_pool in I as [PO _]. assert (a' = a) as -> by (destruct PO as (A & _); congruence).
  destruct (makeSpace_some m a 16384 M PO MM ltac:(lia) RM) as (m' & MS). exists (g =? 0), m'. split; [exact G|]. split; [|rewrite <- Q; lia]. unfold allRegistered. rewrite MS, rbind_ok. cbn [negb].
  apply (makeSpace_ok _ _ a) in MS as (_ & [_ EX] & _); [|exact PO]. destruct HI as [XT XP]. pose proof PO as (_ & _ & _ & _ & BB & _). unfold HEADER in BB. assert (E1 : t_index m' TAGS = t_index m TAGS) by (unfold t_index, rd_s32, TAGS; rewrite EX by lia; reflexivity). assert (E2 : t_index m' PARAMS = t_index m PARAMS) by (unfold t_index, rd_s32, PARAMS; rewrite EX by lia; reflexivity).
  rewrite E1, E2. destruct (life_whole _ _ _ _ _ _ LI) as (B2 & a2 & (n & x & n2 & x2 & _ & (_ & _ & X & _) & (_ & _ & X2 & _) & _) & _). rewrite X, X2 in *. rewrite !rbind_ok. destruct (Z.eqb_spec x 0); [congruence|]. destruct (Z.eqb_spec x2 0); [congruence|]. reflexivity.
Qed.
(** Without an index *)
Theorem unindexed k s m T P F t id name type : life k s m T P F -> t = TAGS \/ t = PARAMS -> t_index m t = Ok 0 -> register_checked m t id name type = Ok false.
Proof.
  intros LI C X. unfold register_checked. destruct (negb _); [reflexivity|]. destruct (life_whole _ _ _ _ _ _ LI) as (B & a & (n & x & n2 & x2 & _ & (MT & _) & (MP & _) & _) & _).
  destruct C as [-> | ->]; [rewrite MT|rewrite MP]; cbn [obind]; [change (TAGS =? TAGS) with true|change (PARAMS =? TAGS) with false]; cbv iota; unfold getTagName, getAttrName, name_of, getTagType, getAttrType; rewrite X; cbn [obind]; change (0 =? 0) with true; cbv iota; cbn [obind]; rewrite andb_false_r; reflexivity.
Qed.
Theorem unnoticed k s m T F M a fuel : life k s m T [] F -> t_index m TAGS <> Ok 0 -> p_mmap_size m = Ok M -> p_allocator m = Ok a -> a + 4095 + 16384 <= M -> exists m', forall failures, allRegistered fuel true true failures m = rret (true, m').
Proof.
  intros LI XT MM AL RM. destruct (life_whole _ _ _ _ _ _ LI) as (B & a' & I & _). pose proof (names_pool _ _ _ _ _ _ _ I) as [PO _]. assert (a' = a) as -> by (destruct PO as (A & _); congruence).
  destruct (makeSpace_some m a 16384 M PO MM ltac:(lia) RM) as (m1 & MS). pose proof (makeSpace_ok _ _ _ _ _ _ PO MS) as (PO1 & EX & _). pose proof PO as (_ & _ & _ & _ & BB & _). unfold HEADER in BB.
  apply (inv_extends m m1 TAGS PARAMS T [] B a a tags_first) in I; auto; [|lia]. assert (E1 : t_index m1 TAGS = t_index m TAGS) by (unfold t_index, rd_s32, TAGS; rewrite (proj2 EX) by lia; reflexivity). rewrite <- E1 in XT. destruct I as (n & x & n2 & x2 & _ & (_ & _ & X & _) & (MP & _ & X2 & _ & _ & _ & _ & _ & _ & IX) & _).
  assert (x2 = 0) as -> by (destruct (Z.eq_dec x2 0) as [|D]; [assumption|]; destruct (IX D) as [D2 _]; congruence). rewrite X in XT.
  pose proof PO1 as (_ & _ & _ & _ & B1 & _). unfold HEADER in B1. destruct (wr32_some m1 (PARAMS + 8) 0) as (m2 & W); [unfold PARAMS; lia|unfold PARAMS; lia|]. exists m2. intro failures. unfold allRegistered. rewrite MS, rbind_ok. cbn [negb]. rewrite X, rbind_ok, X2, rbind_ok. destruct (Z.eqb_spec x 0); [congruence|]. change (negb (0 =? 0)) with false. rewrite andb_false_r.
  rewrite rbind_rret. cbn [negb]. rewrite X2, rbind_ok. change (0 =? 0) with true. cbv iota. unfold makeTable. rewrite W, rbind_ok. apply wr32_kept in W as (_ & _ & K & _); [|unfold int32; lia]. assert (MX : t_max_id m2 PARAMS = Ok (-1)) by (unfold t_max_id in *; rewrite (kept_s32 _ _ _ _ _ K) by (unfold PARAMS; lia); exact MP). rewrite MX, rbind_ok. reflexivity.
Qed.
