(** Adding attributes. *)
From Verif Require Import Base BaseFacts Types ListFacts Sort Xb XbSpec XbFacts XbWrite WriteProofs Bw BwFacts BwRing BwSpec BwHist BwAlloc BwProofs BwRead BwTop BwSym BwReg BwFileSpec BwFileProofs BwNamesSpec BwNamesFacts BwNamesInv BwNamesReg BwNamesOps BwNamesIndex BwNamesProofs BwLifeSpec BwLife BwOnly JsonSource BwSet BwNamesTop BwAttr BwAttrSpec.

(** ** Looking for an attribute *)
Definition lists m p field (L : list Z) : Prop :=
  el_offset m p = Ok p /\ rd_s32 m field = Ok (hd 0 L) /\ NoDup L /\ forall l1 e l2, L = l1 ++ e :: l2 -> 0 < e /\ el_next m e = Ok (hd (hd 0 L) l2).
Lemma inv_lists k s m F p L : BwProofs.inv k s m F -> In p (members F) -> owned F p false L -> lists m p (p + 20) L.
Proof.
  intros (h & a & _ & R & S) I O. destruct (owned_ring _ _ _ _ _ S I O) as (HD & ND & IN & NX). cbn [field_of] in HD. unfold lists.
  pose proof (rep_attr _ _ _ p R I) as RA. unfold el_attr in RA. rewrite (rep_off _ _ _ R p I), RA, HD. repeat split; auto.
  - apply (rep_in _ _ _ R), IN. rewrite H. apply in_or_app. right. left. reflexivity.
  - assert (J : In e L) by (rewrite H; apply in_or_app; right; left; reflexivity). rewrite (rep_next _ _ _ e R) by auto. f_equal. eapply NX; eauto.
Qed.
Lemma lists_bwe m p f L o : lists m p f L -> bwe m p o = Ok o.
Proof. intros (O & _). unfold bwe. rewrite O. cbn [obind]. f_equal. lia. Qed.
Lemma find_list m p fd L id : lists m p fd L -> (forall e, In e L -> has_id m e) -> forall l2 l1 e fuel, L = l1 ++ e :: l2 -> (List.length l2 < fuel)%nat ->
  (forall l3 t l4, e :: l2 = l3 ++ t :: l4 -> el_id m t = Ok id -> (forall e, In e l3 -> el_id m e <> Ok id) -> find_el fuel m p fd id e = rret (Some t)) /\
  ((forall t, In t (e :: l2) -> el_id m t <> Ok id) -> find_el fuel m p fd id e = rret None).
Proof.
  intros SH HI. pose proof SH as (SO & SC & ND & NX). induction l2 as [|y l2 IH]; intros l1 e fuel E FU; (destruct fuel as [|fuel]; [cbn in FU; lia|]).
  - assert (J : In e L) by (rewrite E; apply in_or_app; right; left; reflexivity). destruct (HI e J) as [i EI]. destruct (NX l1 e [] E) as [_ EN]. cbn [hd] in EN. rewrite find_el_S, EI, rbind_ok. split.
    + intros l3 t l4 ES ET NO. destruct l3 as [|z l3]; [|destruct l3; discriminate]. cbn [app] in ES. injection ES as -> _. rewrite EI in ET. injection ET as ->. rewrite Z.eqb_refl. reflexivity.
    + intro NO. destruct (Z.eqb_spec i id) as [->|N]; [exfalso; apply (NO e); [left; reflexivity|exact EI]|]. rewrite EN, rbind_ok. rewrite SC, rbind_ok, Z.eqb_refl. reflexivity.
  - assert (J : In e L) by (rewrite E; apply in_or_app; right; left; reflexivity). destruct (HI e J) as [i EI]. destruct (NX l1 e (y :: l2) E) as [_ EN]. cbn [hd] in EN.
    assert (E' : L = (l1 ++ [e]) ++ y :: l2) by (rewrite <- app_assoc; exact E). destruct (IH (l1 ++ [e]) y fuel E' ltac:(cbn in FU; lia)) as [IH1 IH2].
    assert (NF : y <> hd 0 L). { rewrite E. rewrite E in ND. destruct l1 as [|z l1]; cbn [app hd]; cbn [app] in ND; inversion ND as [|? ? N1 N2]; subst; intros ->; apply N1; [left; reflexivity|]. apply in_or_app. right. right. left. reflexivity. }
    assert (ST : i <> id -> find_el (S fuel) m p fd id e = find_el fuel m p fd id y).
    { intro N. rewrite find_el_S, EI, rbind_ok. destruct (Z.eqb_spec i id); [congruence|]. rewrite EN, rbind_ok, SC, rbind_ok. destruct (Z.eqb_spec y (hd 0 L)); [congruence|]. rewrite (lists_bwe _ _ _ _ _ SH), rbind_ok. reflexivity. }
    split.
    + intros l3 t l4 ES ET NO. destruct l3 as [|z l3]; cbn [app] in ES; injection ES as -> ES.
      * rewrite EI in ET. injection ET as ->. rewrite find_el_S, EI, rbind_ok, Z.eqb_refl. reflexivity.
      * assert (i <> id) by (intros ->; apply (NO z); [left; reflexivity|exact EI]). rewrite ST by assumption. apply (IH1 l3 t l4); auto. intros e' I. apply NO. right. exact I.
    + intro NO. assert (i <> id) by (intros ->; apply (NO e); [left; reflexivity|exact EI]). rewrite ST by assumption. apply IH2. intros t I. apply NO. right. exact I.
Qed.
Lemma get_found m p fd l1 t l2 id fuel : lists m p fd (l1 ++ t :: l2) -> (forall e, In e (l1 ++ t :: l2) -> has_id m e) -> el_id m t = Ok id -> (forall e, In e l1 -> el_id m e <> Ok id) -> (List.length (l1 ++ t :: l2) <= fuel)%nat ->
  get_el fuel m p fd id = rret (Some t).
Proof.
  intros SH HI ET NO FU. pose proof SH as (SO & SC & ND & NX). unfold get_el. rewrite SC, rbind_ok. destruct (l1 ++ t :: l2) as [|e l] eqn:EL; [destruct l1; discriminate|]. destruct (NX [] e l eq_refl) as [E0 _]. cbn [hd]. replace (e =? 0) with false by lia.
  rewrite (lists_bwe _ _ _ _ _ SH), rbind_ok. apply (find_list m p fd (e :: l) id SH HI l [] e fuel eq_refl ltac:(cbn in FU; lia)) with (l3 := l1) (l4 := l2); auto.
Qed.
Lemma get_none m p fd L id fuel : lists m p fd L -> (forall e, In e L -> has_id m e) -> (forall e, In e L -> el_id m e <> Ok id) -> (List.length L <= fuel)%nat -> get_el fuel m p fd id = rret None.
Proof.
  intros SH HI NO FU. pose proof SH as (SO & SC & ND & NX). unfold get_el. rewrite SC, rbind_ok. destruct L as [|e l]; [reflexivity|]. destruct (NX [] e l eq_refl) as [E0 _]. cbn [hd]. replace (e =? 0) with false by lia.
  rewrite (lists_bwe _ _ _ _ _ SH), rbind_ok. apply (find_list m p fd (e :: l) id SH HI l [] e fuel eq_refl ltac:(cbn in FU; lia)); auto.
Qed.

(** ** The type of an attribute *)
Lemma param_type m T P B a i nm ty : BwNamesInv.inv m TAGS PARAMS T P B a -> t_index m PARAMS <> Ok 0 -> nth_error P i = Some (nm, ty) -> getAttrType m (Z.of_nat i) = Ok ty /\ 0 <= ty < 256.
Proof.
  intros IV IX NI. apply inv_swap in IV. destruct IV as (n & x & n2 & x2 & PO & TB & _ & SP). pose proof TB as (MX & N & X & FL & L1 & G & ND & N4 & H & XX). assert (IL : (i < List.length P)%nat) by (apply nth_error_Some; congruence).
  assert (TY : 0 <= ty < 256) by (apply (proj1 (Forall_forall _ _) G (nm, ty)); eapply nth_error_In; eauto). split; [|exact TY]. rewrite X in IX. assert (X0 : x <> 0) by congruence. destruct (XX X0) as [NE II]. specialize (II i _ NI).
  destruct (table_bound _ _ _ _ _ _ _ PO TB SP NE) as [N1 N2]. unfold getAttrType. rewrite X. cbn [obind]. destruct (Z.eqb_spec x 0); [congruence|].
  unfold isin, XPNR_NULL, XPNR_NAME, XPNR_HASH, XPNR_MODIFIED, XPNR_COUNT, XPNR_FORMAT_VERSION, XPNR_TYPE_COUNT, XPNR_ID, XPNR_AUTHOR, XPNR_TIME_MS. cbn [existsb].
  repeat match goal with |- context [Z.of_nat i =? ?c] => replace (Z.of_nat i =? c) with false by lia end. cbn [orb]. rewrite MX. cbn [obind]. replace ((0 <=? Z.of_nat i) && (Z.of_nat i <=? zlen P - 1)) with true by (unfold zlen; lia). rewrite II. cbn [obind].
  assert (O0 : 0 <= off P i) by (unfold off; apply zlen_nonneg). unfold HEADER in *. destruct (Z.eqb_spec (n + off P i) 0); [lia|]. pose proof (stored_at m n P i (nm, ty) (H NE) NI) as HE. cbn [fst snd] in HE. destruct (proj1 (Forall_forall _ _) G _ (nth_error_In _ _ NI)) as [PS _]. apply has_entry in HE as (_ & _ & T2 & _); [exact T2|unfold zlen in *; lia|exact TY|apply PS].
Qed.

(** ** A new attribute with its value *)
Lemma fresh_var disk m a id ty n flags x m' z : pool m a -> fresh disk m id ty n flags = Ok (Some x, m') -> XBT_IS_VARSIZE ty = true -> XBT_Size2 ty n = Ok z -> rd_s32 m' (x + 24) = Ok (z - 4).
Proof.
  intros PO E V SZ. unfold fresh in E. apply obind_inv in E as ([y m1] & NE & E). destruct y as [y|]; [|discriminate]. apply obind_inv in E as (m2 & IN & E). injection E as -> ->.
  pose proof NE as NE2. apply (new_element_ok _ _ a) in NE2; [|exact PO]. destruct NE2 as (s2 & a' & S2 & S0 & _). rewrite SZ in S2. injection S2 as <-.
  unfold new_element in NE. rewrite SZ in NE. cbn [obind] in NE. replace (z <? 0) with false in NE by lia. apply int_inv in NE as [I24 NE]. apply obind_inv in NE as ([x1 m3] & _ & NE). apply obind_inv in NE as ([x2 m4] & _ & NE). destruct x2 as [x2|]; [|discriminate].
  apply obind_inv in NE as (w1 & _ & NE). apply obind_inv in NE as (w2 & _ & NE). apply obind_inv in NE as (w3 & _ & NE). apply obind_inv in NE as (w4 & _ & NE). rewrite V in NE. apply obind_inv in NE as (w5 & W5 & NE). injection NE as <- ->.
  destruct (wr32_kept _ _ _ _ W5) as (_ & _ & _ & G); [unfold int32, INT_MIN, INT_MAX in *; lia|]. unfold init in IN. apply obind_inv in IN as (b & _ & IN). destruct ((0 <? x2) && (x2 + 24 <=? unle b)); [|discriminate].
  destruct (wr_kept _ _ _ _ IN) as (_ & _ & K & _). rewrite (kept_s32 _ _ _ _ _ K); [exact G|]. right. change (zlen (le 4 x2 ++ le 2 id ++ [flags; ty] ++ le 4 x2 ++ le 4 x2 ++ le 4 0 ++ le 4 0)) with 24. lia.
Qed.
Lemma made_attr k s m T P F disk id ty n z bs d x m0 m1 : life k s m T P F -> fresh disk m id ty n ATTR = Ok (Some x, m0) -> wr m0 (x + d) bs = Ok m1 -> 0 <= ty < 256 -> XBT_Size2 ty n = Ok z -> 24 <= d -> d + zlen bs <= 24 + (z + 3) / 4 * 4 -> -32768 <= id < 32768 ->
  life (set k x false) (set s x (24 + (z + 3) / 4 * 4)) m1 T P ((None, [x]) :: F) /\ ~ In x (members F) /\ (forall e, In e (members F) -> rd m1 e (s e) = rd m e (s e)) /\
  el_id m1 x = Ok id /\ el_type m1 x = Ok ty /\ el_flags m1 x = Ok ATTR /\ rd m1 (x + d) (zlen bs) = Ok bs /\ rd m1 TAGS 32 = rd m TAGS 32 /\ (XBT_IS_VARSIZE ty = true -> 28 <= d -> rd_s32 m1 (x + 24) = Ok (z - 4)) /\ 0 <= z /\ 0 < x.
Proof.
  intros LI FR W TY SZ D BS ID.
  assert (FE : 0 <= ATTR < 256) by (unfold ATTR; lia). pose proof (life_new k s m T P F disk id ty n z ATTR x m0 LI FE TY FR SZ) as L0. change (is_element ATTR) with false in L0. pose proof (life_whole _ _ _ _ _ _ LI) as WH. destruct (whole_new k s m T P F disk id ty n z ATTR x m0 WH FE TY FR SZ) as (_ & NI & KK).
  pose proof (zlen_nonneg bs). assert (LW : life (set k x false) (set s x (24 + (z + 3) / 4 * 4)) m1 T P ((None, [x]) :: F)) by (apply (life_write _ _ m0 _ _ _ x (x + d) bs); auto; [left; reflexivity|lia|rewrite set_same; lia]).
  split; [exact LW|]. split; [exact NI|]. destruct WH as (B & a & I & EL & IB & SS). destruct (names_pool _ _ _ _ _ _ _ I) as [PO _]. pose proof PO as (_ & _ & _ & _ & BB & _). pose proof (fresh_var _ _ _ _ _ _ _ _ _ z PO FR) as FV. apply (fresh_ok _ _ a) in FR; [|exact PO]. destruct FR as (s2 & a' & S2 & S0 & AX & X4 & _ & XA & PO' & EX & _ & HD). rewrite SZ in S2. injection S2 as <-.
  destruct (wr_kept _ _ _ _ W) as (_ & _ & KW & GW). pose proof KW as [_ KE]. unfold HEADER, TAGS in *. assert (IX : int32 x). { destruct (pool_len _ _ PO') as [_ IA]. unfold int32 in *. lia. }
  destruct (header_fields _ _ _ _ _ HD IX FE) as (_ & HF & HT & HI & _). specialize (HT TY). specialize (HI ID). split; [|split; [|split; [|split; [|split; [exact GW|split; [|split; [|lia]]]]]]].
  - intros e J. rewrite <- (KK e J). destruct (inv_in _ _ _ _ _ _ EL PO J) as (? & ? & ?). apply KE; lia.
  - unfold el_id, rd_s16 in *. rewrite KE by lia. exact HI.
  - unfold el_type, rd_u8 in *. rewrite KE by lia. exact HT.
  - unfold el_flags, rd_u8 in *. rewrite KE by lia. exact HF.
  - rewrite KE by lia. apply EX; lia.
  - intros V D2. rewrite (kept_s32 _ _ _ _ _ KW) by lia. apply FV; auto.
Qed.
Lemma whole_more k s m m' T P F : whole k s m T P F -> only_links (members F) m m' -> rd m' TAGS 32 = rd m TAGS 32.
Proof.
  intros (B & a & I & EL & _) [ZL OL]. destruct (names_pool _ _ _ _ _ _ _ I) as [PO _]. apply OL; [lia|]. intros e J. destruct (inv_in _ _ _ _ _ e EL PO J) as (? & ? & ?). unfold HEADER, TAGS in *. lia.
Qed.
Lemma added_any k F p c L x : owned F p c L -> k x = c -> exists F', adds k p x ((None, [x]) :: F) F' /\ owned F' p c (L ++ [x]) /\ forall q b Lq, (q, b) <> (p, c) -> owned F q b Lq -> owned F' q b Lq.
Proof.
  intros [O|[-> U]] KX.
  - apply in_split in O as (F1 & F2 & ->). assert (PM : Permutation (F1 ++ (Some (p, c), L) :: F2) ((Some (p, c), L) :: F1 ++ F2)) by (symmetry; apply Permutation_middle).
    exists ((Some (p, c), L ++ [x]) :: F1 ++ F2). split; [|split].
    + pose proof (adds_last k p x ((None, [x]) :: F1 ++ (Some (p, c), L) :: F2) [] [] L (F1 ++ F2)) as A. rewrite KX in A. cbn [app] in A. apply A. apply perm_skip, PM.
    + left. left. reflexivity.
    + intros q b Lq N [O|[-> U]]; [left; right; apply (in_other _ _ _ _ _ _ _ PM) in O; [exact O|congruence]|]. right. split; [reflexivity|]. intros L' [E|J]; [congruence|]. apply (U L'). apply (in_other _ _ _ _ _ _ _ PM); [congruence|exact J].
  - exists ((Some (p, c), [x]) :: F). split; [|split].
    + pose proof (adds_first k p x ((None, [x]) :: F) [] [] F) as A. rewrite KX in A. apply A; [reflexivity|exact U].
    + left. left. reflexivity.
    + intros q b Lq N [O|[-> V]]; [left; right; exact O|]. right. split; [reflexivity|]. intros L' [E|J]; [congruence|]. apply (V L' J).
Qed.

(** ** Adding, for all types *)
Lemma adds_members k p x F F' e : adds k p x F F' -> In e (members F) -> In e (members F').
Proof.
  intros A I. destruct A as [F B1 B2 R PM U|F B1 B2 L R PM]; apply (Permutation_in _ (members_perm _ _ PM)) in I; revert I; unfold members; cbn [flat_map snd app]; rewrite !in_app_iff; cbn [In]; rewrite ?in_app_iff; tauto.
Qed.
Lemma attr_done_ok k s m T P F p A id disk ty wanted n z bs d r m' : life k s m T P F -> In p (members F) -> owned F p false A -> getAttrType m id = Ok ty -> wanted ty = true ->
  0 <= ty < 256 -> XBT_Size2 ty n = Ok z -> 24 <= d -> d + zlen bs <= 24 + (z + 3) / 4 * 4 -> -32768 <= id < 32768 -> attr_ disk m p id wanted n d bs = Ok (r, m') ->
  r = None /\ life k s m' T P F /\ (forall e, In e (members F) -> rd m' e (s e) = rd m e (s e)) /\ rd m' TAGS 32 = rd m TAGS 32 \/
  r = Some p /\ exists x, attr_done k s m T P F p A id x m' /\ el_type m' x = Ok ty /\ rd m' (x + d) (zlen bs) = Ok bs /\ rd m' TAGS 32 = rd m TAGS 32 /\
    (XBT_IS_VARSIZE ty = true -> 28 <= d -> rd_s32 m' (x + 24) = Ok (z - 4)) /\ 0 <= z /\ 0 < x /\ x + 24 + (z + 3) / 4 * 4 <= zlen m'.
Proof.
  intros LI IP OW GT WA TY SZ D BS ID E. unfold attr_ in E. pose proof (life_whole _ _ _ _ _ _ LI) as (B & a & I & EL & _). pose proof EL as (hh & aa & PL & RP & SH). rewrite (rep_off _ _ _ RP p IP) in E. cbn [obind] in E. rewrite Z.eqb_refl in E. cbn [negb] in E.
  rewrite GT in E. cbn [obind] in E. rewrite WA in E. cbn [negb] in E. apply obind_inv in E as ([x m0] & FR & E). destruct x as [x|].
  2:{ injection E as <- <-. left. split; [reflexivity|]. split; [eapply life_not_new; eauto|]. destruct (names_pool _ _ _ _ _ _ _ I) as [PO _]. pose proof PO as (_ & _ & _ & _ & BB & _). unfold HEADER in BB. apply (fresh_ok _ _ a) in FR; [|exact PO]. destruct FR as (a' & _ & _ & [_ EX]). unfold TAGS. split; [|apply EX; lia].
      intros e J. destruct (inv_in _ _ _ _ _ e EL PO J) as (? & ? & ?). unfold HEADER in *. apply EX; lia. }
  apply obind_inv in E as (m1 & W & E). destruct (made_attr _ _ _ _ _ _ _ _ _ _ _ _ _ _ _ _ LI FR W TY SZ D BS ID) as (L1 & NX & KK & XI & XT & XF & XV & TG & XS & Z0 & X0). set (k1 := set k x false) in *. set (s1 := set s x (24 + (z + 3) / 4 * 4)) in *.
  pose proof (life_whole _ _ _ _ _ _ L1) as W1. destruct (added_any k1 F p false A x OW ltac:(apply set_same)) as (F' & AD & OW' & OT). assert (IP1 : In p (members ((None, [x]) :: F))) by (right; exact IP).
  pose proof W1 as (B1 & a1 & I1 & E1 & _). destruct (inv_add _ _ _ _ _ _ _ E1 IP1 AD) as (pre & m2 & EA & _ & _ & OL). rewrite EA in E. cbn [obind] in E. injection E as <- <-. rewrite final_snoc. right. split; [reflexivity|].
  pose proof (life_add k1 s1 m1 T P _ p x F' true _ L1 IP1 AD EA) as L2. rewrite final_snoc in L2. destruct (whole_data _ _ _ _ _ _ _ W1 OL) as [DD TG2]. pose proof (whole_more _ _ _ _ _ _ _ W1 OL) as TG3. pose proof (DD x (or_introl eq_refl)) as DX.
  destruct (names_pool _ _ _ _ _ _ _ I) as [PO _]. destruct (names_pool _ _ _ _ _ _ _ I1) as [PO1 _]. pose proof PO as (_ & _ & _ & _ & BB & _). pose proof PO1 as (_ & _ & _ & _ & BB1 & _).
  assert (AG : forall e, In e (members F) -> k1 e = k e /\ s1 e = s e) by (intros e J; assert (e <> x) by (intros ->; auto); unfold k1, s1; rewrite !set_other by auto; auto).
  pose proof (inv_in _ _ _ _ _ x E1 PO1 (or_introl eq_refl)) as (X1 & X2 & X3). assert (SX : s1 x = 24 + (z + 3) / 4 * 4) by apply set_same. pose proof (zlen_nonneg bs). unfold HEADER in *. destruct OL as [ZL OL].
  exists x. split; [|split; [|split; [|split; [|split; [|split; [exact Z0|split; [exact X0|lia]]]]]]].
  - exists k1, s1, F'. split; [exact L2|]. split; [exact AG|]. split; [exact OW'|]. split; [exact NX|]. split; [apply set_same|]. split; [destruct DX as (-> & _); exact XI|]. split.
    + intros e J. destruct (DD e (or_intror J)) as (D1 & D2 & D3). destruct (inv_in _ _ _ _ _ e EL PO J) as (Q1 & Q2 & Q3). unfold HEADER in *. destruct (rd_same_data s m m1 e) as (C1 & C2 & C3); auto; try lia. destruct (AG e J) as [_ SE]. rewrite SE in D3. unfold same_data. rewrite D1, D2, D3. auto.
    + intros q b Lq N O. apply OT; auto.
  - destruct DX as (_ & -> & _). exact XT.
  - rewrite (same_sub s1 m1 m2 x) by (auto; lia). exact XV.
  - rewrite TG3. exact TG.
  - intros V D2. unfold rd_s32. rewrite (same_sub s1 m1 m2 x) by (auto; try lia). apply XS; auto.
Qed.

(** ** The calls *)
Definition shaped c ty disk m p id : Prop := exists wanted n d bs z, attr_run c disk m p id = attr_ disk m p id wanted n d bs /\ wanted ty = true /\ (forall t, wanted t = true -> In t (attr_types c)) /\ XBT_Size2 ty n = Ok z /\ 24 <= d /\ d + zlen bs <= 24 + (z + 3) / 4 * 4 /\
  forall m' x, el_type m' x = Ok ty -> rd m' (x + d) (zlen bs) = Ok bs -> (XBT_IS_VARSIZE ty = true -> 28 <= d -> rd_s32 m' (x + 24) = Ok (z - 4)) -> 0 < x -> x + 24 + (z + 3) / 4 * 4 <= zlen m' ->
  exists data, bw_getData m' x = Ok (ty, data, attr_value c).
Ltac eqt := let t := fresh in let H := fresh in intros t H; apply Z.eqb_eq in H; subst t; left; reflexivity.
Lemma shaped_4 ty c disk m p id v : attr_run c disk m p id = attr_ disk m p id (fun t => t =? ty) 0 24 (le 4 v) -> attr_value c = le 4 v -> attr_types c = [ty] -> XBT_IS_4 ty = true -> shaped c ty disk m p id.
Proof.
  intros R AV AT I4. exists (fun t => t =? ty), 0, 24, (le 4 v), 4. split; [exact R|]. split; [apply Z.eqb_refl|]. split; [rewrite AT; eqt|]. split; [apply size_4, I4|]. change (zlen (le 4 v)) with 4. split; [lia|]. split; [lia|].
  intros m' x ET RD _ X0 XL. exists (le 4 v). rewrite AV. unfold bw_getData. rewrite ET. cbn [obind]. replace (ty =? XBT_STRING) with false by (destruct (Z.eqb_spec ty XBT_STRING); [subst ty; discriminate I4|reflexivity]). rewrite I4. change (zlen (le 4 v)) with 4 in RD. rewrite RD. reflexivity.
Qed.
Lemma shaped_8 ty wanted c disk m p id v : attr_run c disk m p id = attr_ disk m p id wanted 0 24 (le 8 v) -> wanted ty = true -> (forall t, wanted t = true -> In t (attr_types c)) -> attr_value c = le 8 v -> XBT_IS_8 ty = true -> shaped c ty disk m p id.
Proof.
  intros R W AT AV I8. exists wanted, 0, 24, (le 8 v), 8. split; [exact R|]. split; [exact W|]. split; [exact AT|].
  assert (C : ty = XBT_INT64 \/ ty = XBT_DOUBLE \/ ty = XBT_UNIX_TIME64_MSEC \/ ty = XBT_UINT64). { unfold XBT_IS_8, isin in I8. cbn [existsb] in I8. rewrite !orb_true_iff, !Z.eqb_eq in I8. intuition congruence. }
  change (zlen (le 8 v)) with 8. split; [destruct C as [-> |[-> |[-> | ->]]]; reflexivity|]. split; [lia|]. split; [lia|].
  intros m' x ET RD _ X0 XL. exists (le 8 v). rewrite AV. unfold bw_getData. rewrite ET. cbn [obind]. change (zlen (le 8 v)) with 8 in RD.
  replace (ty =? XBT_STRING) with false by (destruct C as [-> |[-> |[-> | ->]]]; reflexivity). replace (XBT_IS_4 ty) with false by (destruct C as [-> |[-> |[-> | ->]]]; reflexivity). replace (XBT_IS_VARSIZE ty) with false by (destruct C as [-> |[-> |[-> | ->]]]; reflexivity).
  replace (XBT_FIXEDSIZE ty) with 8 by (destruct C as [-> |[-> |[-> | ->]]]; reflexivity). change (8 <? 0) with false. cbv iota. rewrite RD. reflexivity.
Qed.
Lemma shaped_var ty c disk m p id bs n : attr_run c disk m p id = attr_ disk m p id (fun t => t =? ty) n 28 bs -> zlen bs = n -> attr_value c = bs -> attr_types c = [ty] -> ty = XBT_BLOB \/ ty = XBT_HEX -> shaped c ty disk m p id.
Proof.
  intros R N AV AT TT. exists (fun t => t =? ty), n, 28, bs, (n + 4). split; [exact R|]. split; [apply Z.eqb_refl|]. split; [rewrite AT; eqt|]. split; [destruct TT as [-> | ->]; reflexivity|]. split; [lia|]. split; [lia|].
  assert (V : XBT_IS_VARSIZE ty = true) by (destruct TT as [-> | ->]; reflexivity). pose proof (zlen_nonneg bs).
  intros m' x ET RD RS X0 XL. specialize (RS V ltac:(lia)). replace (n + 4 - 4) with n in RS by lia. destruct (rd_some m' (x + 24) (4 + n)) as [dd DD]; [lia..|]. exists dd. rewrite AV. unfold bw_getData. rewrite ET. cbn [obind].
  replace (ty =? XBT_STRING) with false by (destruct TT as [-> | ->]; reflexivity). replace (XBT_IS_4 ty) with false by (destruct TT as [-> | ->]; reflexivity). rewrite V, RS. cbn [obind]. rewrite DD. cbn [obind]. rewrite N in RD. rewrite RD. reflexivity.
Qed.
Lemma shaped_fixed ty n w c disk m p id v : XBT_Size2 ty 0 = Ok n -> XBT_FIXEDSIZE ty = w -> 0 <= w <= n -> n <= zlen v -> attr_run c disk m p id = attrFixed ty disk m p id v -> attr_value c = ztake w v -> attr_types c = [ty] ->
  (ty =? XBT_STRING) = false -> XBT_IS_4 ty = false -> XBT_IS_VARSIZE ty = false -> shaped c ty disk m p id.
Proof.
  intros SZ FS W LV R AV AT N1 N2 N3. destruct (rd_some v 0 n) as [bs RV]; [lia..|]. assert (BL : zlen bs = n /\ bs = ztake n v). { pose proof RV as RV2. unfold rd in RV2. destruct ((0 <=? 0) && _); [|discriminate]. injection RV2 as <-. split; [apply zlen_slice; lia|reflexivity]. } destruct BL as [BL BE].
  exists (fun t => t =? ty), 0, 24, bs, n. split; [|split; [apply Z.eqb_refl|split; [rewrite AT; eqt|split; [exact SZ|split; [lia|split; [lia|]]]]]].
  - rewrite R. unfold attrFixed. rewrite SZ. cbn [obind]. rewrite RV. reflexivity.
  - intros m' x ET RD _ X0 XL. exists (ztake w v). rewrite AV. unfold bw_getData. rewrite ET. cbn [obind]. rewrite N1, N2, N3, FS. replace (w <? 0) with false by lia.
    assert (H : has m' (x + 24) (ztake w v ++ zskip w bs)). { replace (ztake w v) with (ztake w bs) by (rewrite BE; unfold ztake; rewrite firstn_firstn; f_equal; lia). rewrite ztake_zskip. rewrite BL in RD. apply rd_inv in RD; [|lia]. tauto. }
    apply has_app in H as [H _]. apply has_rd in H. assert (WL : zlen (ztake w v) = w) by (unfold zlen, ztake in *; rewrite firstn_length; lia). rewrite WL in H. rewrite H. reflexivity.
Qed.
Lemma shaped_str c disk m p id v w : attr_run c disk m p id = attr_ disk m p id (fun t => t =? XBT_STRING) (zlen v + zlen w) 24 (v ++ 0 :: w) -> cstring v -> attr_value c = v ++ [0] -> attr_types c = [XBT_STRING] -> shaped c XBT_STRING disk m p id.
Proof.
  intros R CV AV AT. exists (fun t => t =? XBT_STRING), (zlen v + zlen w), 24, (v ++ 0 :: w), (zlen v + zlen w + 1). split; [exact R|]. split; [apply Z.eqb_refl|]. split; [rewrite AT; eqt|]. split; [reflexivity|]. split; [lia|].
  assert (L : zlen (v ++ 0 :: w) = zlen v + zlen w + 1) by (rewrite zlen_app, zlen_cons; lia). split; [lia|].
  intros m' x ET RD _ X0 XL. exists (v ++ [0]). rewrite AV. unfold bw_getData. rewrite ET. cbn [obind]. change (XBT_STRING =? XBT_STRING) with true. cbv iota. pose proof (zlen_nonneg (v ++ 0 :: w)). apply rd_inv in RD; [|lia]. destruct RD as (_ & _ & H0 & _).
  change (v ++ 0 :: w) with (v ++ [0] ++ w) in H0. rewrite app_assoc in H0. apply has_app in H0 as [H0 _]. rewrite (has_str _ _ _ CV H0). reflexivity.
Qed.
Lemma shape_of c ty disk m p id : In ty (attr_types c) -> attr_args c -> shaped c ty disk m p id.
Proof.
  intros I AR. destruct c; cbn [attr_types attr_args] in I, AR;
    cbn [In] in I; try match type of I with _ \/ False => destruct I as [<-|[]] end.
  - exists (fun t => t =? XBT_NULL), 0, 24, [], 0. split; [reflexivity|]. split; [reflexivity|]. split; [eqt|]. split; [reflexivity|]. split; [lia|]. split; [reflexivity|]. intros m' x ET RD _ X0 XL. exists []. unfold bw_getData. rewrite ET. cbn [obind]. change (rd m' (x + 24) 0 = Ok []) in RD. change (obind (rd m' (x + 24) 0) (fun b => Ok (XBT_NULL, b, b)) = Ok (XBT_NULL, [], [])). rewrite RD. reflexivity.
  - apply (shaped_str _ _ _ _ _ v []); auto. cbn [attr_run attrStr]. rewrite Z.add_0_r. reflexivity. cbn [attr_value]. rewrite cstr_id by auto. reflexivity.
  - apply (shaped_str _ _ _ _ _ (cstr v) (zrepeat 0 (zlen v - zlen (cstr v)))); auto; [|apply cstr_cstring, AR]. cbn [attr_run]. unfold attrStr2. pose proof (cstr_len v). rewrite zlen_repeat by lia. f_equal; [lia|]. f_equal. unfold zrepeat. induction (Z.to_nat (zlen v - zlen (cstr v))) as [|q IH]; [reflexivity|]. cbn [repeat app]. rewrite IH. reflexivity.
  - apply (shaped_var _ _ _ _ _ _ v (zlen v)); auto.
  - apply (shaped_var _ _ _ _ _ _ (zrepeat 0 n) n); auto. apply zlen_repeat. lia.
  - apply (shaped_var _ _ _ _ _ _ v (zlen v)); auto.
  - apply (shaped_var _ _ _ _ _ _ (zrepeat 0 n) n); auto. apply zlen_repeat. lia.
  - apply (shaped_4 _ _ _ _ _ _ v); reflexivity.
  - apply (shaped_4 _ _ _ _ _ _ v); reflexivity.
  - apply (shaped_4 _ _ _ _ _ _ bits); reflexivity.
  - assert (I8 : XBT_IS_8 ty = true) by (destruct I as [<-|[<-|[<-|[<-|[]]]]]; reflexivity). apply (shaped_8 _ XBT_IS_8 _ _ _ _ _ v); auto. intros t H. unfold XBT_IS_8, isin in H. apply existsb_exists in H as (y & J & Q). apply Z.eqb_eq in Q. subst y. exact J.
  - apply (shaped_8 _ (fun t => t =? XBT_UINT64) _ _ _ _ _ v); auto. eqt.
  - apply (shaped_8 _ (fun t => t =? XBT_DOUBLE) _ _ _ _ _ bits); auto. eqt.
  - apply (shaped_4 _ _ _ _ _ _ v); reflexivity.
  - apply (shaped_8 _ (fun t => t =? XBT_UNIX_TIME64_MSEC) _ _ _ _ _ v); auto. eqt.
  - apply (shaped_fixed _ 16 16 _ _ _ _ _ v); auto; try reflexivity; lia.
  - apply (shaped_fixed _ 24 20 _ _ _ _ _ v); auto; try reflexivity; lia.
Qed.
(** Other types are refused. *)
Lemma refused c ty disk m p id : el_offset m p = Ok p -> getAttrType m id = Ok ty -> ~ In ty (attr_types c) -> attr_args c -> attr_run c disk m p id = Ok (None, m).
Proof.
  intros EO GT NI AR. destruct (attr_types c) as [|ty0 l] eqn:AT; [destruct c; discriminate|]. destruct (shape_of c ty0 disk m p id) as (wanted & n & d & bs & z & -> & _ & WW & _); [rewrite AT; left; reflexivity|exact AR|].
  unfold attr_. rewrite EO. cbn [obind]. rewrite Z.eqb_refl. cbn [negb]. rewrite GT. cbn [obind]. destruct (wanted ty) eqn:W; [|reflexivity]. exfalso. apply NI. rewrite <- AT. apply WW, W.
Qed.
Lemma attr_known k s m T P F : life k s m T P F -> zlen P <= 128.
Proof. intro LI. apply life_whole in LI as (B & a & I & _). apply inv_swap in I. destruct (inv_known _ _ _ _ _ _ _ I) as [_ H]. exact H. Qed.
