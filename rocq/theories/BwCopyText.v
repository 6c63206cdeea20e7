(** Copying a document into a pool: texts become values of the types of the pool. *)
From Verif Require Import Base BaseFacts Types Scan ScanProofs ListFacts SizeProofs Sort Xb XbSpec XbFacts XbWrite WriteProofs XbBin BinSpec Bw BwFacts BwRing BwSpec BwHist BwAlloc BwProofs BwRead BwTop BwSym BwReg BwFileSpec BwFileProofs BwNamesSpec BwNamesFacts BwNamesInv BwNamesReg BwNamesOps BwNamesIndex BwNamesProofs BwLifeSpec BwLife BwOnly JsonSource BwSet BwNamesTop BwAttr BwAttrSpec BwAttrProofs BwAttrTop BwTag BwTagSpec BwTagProofs BwTagTop BwSourceSpec BwCopy BwCopySpec BwCopyProofs BwCopyTop BwCopyTextSpec.

Lemma zlen_tl (p : list Z) : zlen (tl p) <= zlen p.
Proof. destruct p; [reflexivity|]. cbn [tl]. rewrite zlen_cons. lia. Qed.
Lemma hex_half : forall n count p, let '(_, out, _) := scan_hex_loop n count p in 2 * zlen out <= zlen p.
Proof.
  induction n as [|n IH]; intros count p; cbn [scan_hex_loop]; [apply zlen_nonneg|]. set (p0 := if cur p =? 45 then tl p else if cur p =? 32 then tl p else p).
  assert (L : zlen p0 <= zlen p) by (unfold p0; destruct (cur p =? 45); [apply zlen_tl|]; destruct (cur p =? 32); [apply zlen_tl|lia]). pose proof (zlen_nonneg p).
  destruct (hexval (cur p0)) eqn:H1; [|change (zlen (@nil Z)) with 0; lia]. destruct (hexval (cur (tl p0))) eqn:H2; [|change (zlen (@nil Z)) with 0; lia].
  specialize (IH (count + 1) (tl (tl p0))). destruct (scan_hex_loop n (count + 1) (tl (tl p0))) as [[c out] r]. rewrite zlen_cons.
  destruct p0 as [|c0 [|c1 q]]; [discriminate H1|discriminate H2|]. cbn [tl] in IH. rewrite !zlen_cons in L. lia.
Qed.
Lemma ScanHex_half p n : let '(_, out, _) := ScanHex p n in 2 * zlen out <= zlen p.
Proof. unfold ScanHex. destruct p as [|c p]; [vm_compute; discriminate|]. apply hex_half. Qed.

Lemma fits_fixed ty b n z w : XBT_Size2 ty n = Ok z -> 0 <= w <= z -> 24 + z <= align_up 8 (24 + w) -> zlen b = w -> (forall src, value_size ty src = w) -> fits ty b.
Proof. intros E1 E2 E3 E4 E5. exists n, z. split; [exact E1|]. split; [lia|]. rewrite E4. split; [lia|]. split; [exact E3|]. intro pad. unfold value_bytes. rewrite E5. replace w with (zlen b) by lia. apply take_app. Qed.
(** The values texts are converted to fit in the room of their types. *)
Lemma text_fits fl v ty lim st : XBT_FromString fl v ty 0 lim = Ok st -> ty <> XBT_STRING -> ty <> XBT_UNIX_DATE -> zlen v <= INT_MAX -> fits ty (st_bytes st) /\ zlen (st_bytes st) <= INT_MAX.
Proof.
  intros E NS ND LV. unfold INT_MAX in *. unfold XBT_FromString in E. cbv zeta in E.
  repeat match type of E with (if ty =? ?t then _ else _) = _ => let H := fresh "H" in destruct (ty =? t) eqn:H; [apply Z.eqb_eq in H; subst ty|] end; try discriminate E; try (exfalso; apply NS; reflexivity); try (exfalso; apply ND; reflexivity).
  all: try (apply obind_inv in E as (w & _ & E); cbv beta in E). all: try match type of E with (let '(_, _) := ?w in _) = _ => is_var w; destruct w end.
  all: try (injection E as <-; cbn [st_bytes]; split; [|vm_compute; discriminate]; first [apply (fits_fixed _ _ 4 4 4); [reflexivity|lia|vm_compute; discriminate|reflexivity|reflexivity] | apply (fits_fixed _ _ 8 8 8); [reflexivity|lia|vm_compute; discriminate|reflexivity|reflexivity]]; fail).
  - destruct v; [|discriminate]. injection E as <-. cbn [st_bytes]. split; [|vm_compute; discriminate]. apply (fits_fixed _ _ 0 0 0); [reflexivity|lia|vm_compute; discriminate|reflexivity|reflexivity].
  - pose proof (ScanHex_bound v 16 ltac:(lia)) as HB. destruct (ScanHex v 16) as [[n bs] rest]. destruct HB as (HN & HL & _). destruct (n =? 16) eqn:N; [|discriminate]. injection E as <-. cbn [st_bytes]. split; [|lia]. apply (fits_fixed _ _ 16 16 16); [reflexivity|lia|vm_compute; discriminate|lia|reflexivity].
  - pose proof (ScanHex_bound v 20 ltac:(lia)) as HB. destruct (ScanHex v 20) as [[n bs] rest]. destruct HB as (HN & HL & _). destruct (n =? 20) eqn:N; [|discriminate]. injection E as <-. cbn [st_bytes]. split; [|lia]. apply (fits_fixed _ _ 20 24 20); [reflexivity|lia|vm_compute; discriminate|lia|reflexivity].
  - clear - E LV. destruct (lim <? align_up 4 0 + 4) eqn:C; [discriminate|]. pose proof (ScanHex_bound v (lim - (align_up 4 0 + 4)) ltac:(lia)) as HB. pose proof (ScanHex_half v (lim - (align_up 4 0 + 4))) as HH. destruct (ScanHex v _) as [[n bs] rest]. destruct HB as (HN & HL & _). injection E as <-. cbn [st_bytes].
    change (fits XBT_HEX (le 4 n ++ bs) /\ zlen (le 4 n ++ bs) <= 2147483647). assert (Z4 : zlen (le 4 n) = 4) by reflexivity. pose proof (zlen_nonneg bs). split; [|rewrite zlen_app; lia]. exists n, (n + 4). split; [reflexivity|]. split; [lia|]. rewrite zlen_app, Z4. split; [lia|]. split; [pose proof (align8_ge (24 + (4 + zlen bs))); lia|].
    intro pad. unfold value_bytes. change (value_size XBT_HEX ((le 4 n ++ bs) ++ pad)) with (4 + unle (ztake 4 ((le 4 n ++ bs) ++ pad))). rewrite <- app_assoc, (ztake_app_l 4) by lia. replace (ztake 4 (le 4 n)) with (le 4 n) by reflexivity.
    rewrite (unle_le_small 4) by (change (256 ^ Z.of_nat 4) with 4294967296; lia). replace (4 + n) with (zlen (le 4 n ++ bs)) by (rewrite zlen_app; lia). rewrite app_assoc. apply take_app.
Qed.
(** The text of a reference *)
Lemma ref_text d r p ty v : bytes d -> ref_ok d r p -> read_data d r = Ok (ty, v) -> dr_type r = XBT_STRING -> exists s, rd_str d p = Ok s /\ cstring s /\ v = s ++ [0] /\ dr_size r = zlen v /\ ty = XBT_STRING.
Proof.
  intros BD (DP & SZ) RD DT. unfold read_data in RD. rewrite DP in RD. apply obind_inv in RD as (b & RB & E). injection E as TY <-. destruct SZ as [[I4 _]|[[_ (s & RS & SS)]|[[V _]|(_ & NS & _)]]]; [rewrite DT in I4; discriminate I4| |rewrite DT in V; discriminate V|contradiction].
  destruct (rd_str_inv _ _ _ RS) as [HS SC]. assert (CS : cstring s) by (rewrite SC; apply cstr_cstring, bytes_skip, BD). assert (b = s ++ [0]) as ->. { pose proof (has_rd _ _ _ HS) as RR. rewrite zlen_app in RR. change (zlen [0]) with 1 in RR. rewrite <- SS in RR. congruence. }
  exists s. split; [exact RS|]. split; [exact CS|]. split; [reflexivity|]. rewrite zlen_app. change (zlen [0]) with 1. split; [exact SS|congruence].
Qed.
Lemma from_text_inv fl d r p ty ty0 v o : bytes d -> zlen d <= INT_MAX -> ref_ok d r p -> read_data d r = Ok (ty0, v) -> dr_type r = XBT_STRING -> ty <> XBT_STRING -> ty <> XBT_UNIX_DATE -> from_text fl d r ty = Ok o ->
  o = None \/ exists text st, o = Some (st_bytes st) /\ cstring text /\ v = text ++ [0] /\ XBT_FromString fl text ty 0 (zlen v + 64) = Ok st /\ fits ty (st_bytes st) /\ zlen (st_bytes st) <= INT_MAX.
Proof.
  intros BD ZD RO RD DT NS NE E. destruct (ref_text _ _ _ _ _ BD RO RD DT) as (s & RS & CS & -> & SZ & ->). unfold from_text in E. rewrite (proj1 RO), RS in E. cbn [obind] in E. rewrite SZ in E.
  destruct (XBT_FromString fl s ty 0 (zlen (s ++ [0]) + 64)) as [st| |] eqn:FS; [|left; congruence|discriminate]. right. injection E as <-.
  assert (LS : zlen s <= INT_MAX). { pose proof (ref_len _ _ _ _ _ RD RO ltac:(rewrite SZ; apply zlen_nonneg)) as LV. rewrite zlen_app in LV. change (zlen [0]) with 1 in LV. lia. }
  exists s, st. split; [reflexivity|]. split; [exact CS|]. split; [reflexivity|]. split; [exact FS|]. apply (text_fits _ _ _ _ _ FS NS NE LS).
Qed.

(** An attribute *)
Lemma attr_put k s m T P F p A i nm ty bs x m1 res m' : life k s m T P F -> In p (members F) -> owned F p false A -> nth_error P i = Some (nm, ty) -> ty <> XBT_UNKNOWN -> 0 <= ty < 256 -> fits ty bs -> zlen bs <= INT_MAX ->
  put_el m (Z.of_nat i) ty ATTR (zlen bs) (Ok bs) = Ok (x, m1) -> match x with None => Ok (None, m1) | Some a => obind (add m1 p a) (fun '(_, tr) => Ok (Some p, final m1 tr)) end = Ok (res, m') ->
  attr_result k s m T P F p A res m' nm ty bs.
Proof.
  intros LI IP OW NT NU TY FI LB PE E. assert (ID : -32768 <= Z.of_nat i < 32768). { pose proof (attr_known _ _ _ _ _ _ LI) as P1. assert (IL : (i < List.length P)%nat) by (apply nth_error_Some; congruence). unfold zlen in P1. lia. }
  destruct (put_done _ _ _ _ _ _ _ _ _ _ _ _ LI TY flag_attr ID FI ltac:(lia) PE) as [QU H]. destruct x as [x|].
  2:{ injection E as <- <-. exists k, s, F. split; [exact H|]. split; [eapply quiet_grown; eauto|]. split; [auto|]. left. reflexivity. }
  destruct H as (k1 & s1 & w & L1 & AG & NX & KX & EI & ET & RW & VB). change (is_element ATTR) with false in KX. apply obind_inv in E as ([ok tr] & EA & E). injection E as <- <-.
  assert (NPX : p <> x) by (intros ->; auto). destruct (add_step k1 s1 m1 T P _ p x false A ok tr L1 (or_introl eq_refl) (or_intror IP) NPX (owned_free _ _ _ _ _ OW) KX EA) as (F' & L2 & DD & OW' & OT & FR & TG & _).
  destruct (evo_free p x k s m T P F k1 s1 m1 LI QU AG) as ((A1 & A2) & A3 & A4). exists k1, s1, F'. split; [exact L2|]. split; [|split].
  - split; [split|split; [eapply heads_trans; eauto|]].
    + intros e J. destruct (A1 e J) as (J1 & K1 & S1 & D1). destruct (DD e J1) as [J2 D2]. split; [exact J2|]. split; [exact K1|]. split; [exact S1|]. eapply same_trans; [exact S1|exact D1|exact D2].
    + intros q2 b L J N O. apply OT; [congruence|]. apply owned_free, O.
    + intros B0 J. apply FR; [right; exact J|]. intros ->. apply NX. apply in_flat_map. exists (None, [x]). split; [exact J|left; reflexivity].
  - intros L O. apply OT; [congruence|]. apply owned_free, O.
  - right. split; [reflexivity|]. exists x, w. split; [exact OW'|]. destruct (DD x (or_introl eq_refl)) as (_ & D1 & D2 & D3). split; [|exact VB]. split; [exact KX|]. exists i, ty. rewrite D1, D2, D3. auto.
Qed.
Lemma attr_text fl d k s m T P F p A i nm tyr r q ty v res m' : life k s m T P F -> In p (members F) -> owned F p false A -> t_index m PARAMS <> Ok 0 -> nth_error P i = Some (nm, tyr) -> tyr <> XBT_UNKNOWN ->
  bytes d -> zlen d <= INT_MAX -> ref_ok d r q -> read_data d r = Ok (ty, v) -> holdable ty v -> no_date P nm ty -> attrData fl d m p (Z.of_nat i) r = Ok (res, m') ->
  exists ty' v', attr_result k s m T P F p A res m' nm ty' v' /\ (res = None \/ reads_as fl P (nm, ty', v') (nm, ty, v)).
Proof.
  intros LI IP OW IX NT NU BD ZD RO RD HO ND E. assert (DT : dr_type r = ty). { unfold read_data in RD. destruct (dr_data r); [|discriminate]. apply obind_inv in RD as (b & _ & Q). injection Q as <- _. reflexivity. }
  pose proof (life_whole _ _ _ _ _ _ LI) as (B & a & I & EL & _). pose proof EL as (hh & aa & PL & RP & SH). destruct (param_type m T P B a i nm tyr I IX NT) as [GT TY].
  destruct ((dr_type r =? XBT_STRING) && negb (tyr =? XBT_STRING)) eqn:CV.
  - assert (DS : dr_type r = XBT_STRING) by lia. assert (NS : tyr <> XBT_STRING) by lia. assert (NE : tyr <> XBT_UNIX_DATE) by (intros ->; apply ND; [congruence|eapply nth_error_In; eauto]).
    unfold attrData in E. rewrite (rep_off _ _ _ RP p IP) in E. cbn [obind] in E. rewrite Z.eqb_refl in E. cbn [negb] in E. rewrite GT in E. cbn [obind] in E. cbv zeta in E. rewrite CV in E. apply obind_inv in E as (o & FT & E).
    destruct (from_text_inv _ _ _ _ _ _ _ _ BD ZD RO RD DS NS NE FT) as [->|(text & st & -> & CS & EV & FS & FI & LB)].
    { injection E as <- <-. exists ty, v. split; [|left; reflexivity]. exists k, s, F. split; [exact LI|]. split; [apply evo_same|]. split; [auto|]. left. reflexivity. }
    apply obind_inv in E as ([x m1] & PE & E). exists tyr, (st_bytes st). split; [exact (attr_put _ _ _ _ _ _ _ _ _ _ _ _ _ _ _ _ LI IP OW NT NU TY FI LB PE E)|]. right. split; [reflexivity|]. right.
    split; [eapply nth_error_In; eauto|]. split; [congruence|]. split; [exact NS|]. exists text, st. auto.
  - assert (TX : ty = XBT_STRING -> tyr = XBT_STRING) by lia. pose proof (attr_step _ _ _ _ _ _ _ _ _ _ _ _ _ _ _ _ _ _ _ LI IP OW IX NT NU BD ZD RO RD HO TX E) as AR. exists ty, v. split; [exact AR|].
    destruct (Z.eq_dec tyr ty) as [TE|TN].
    + right. split; [reflexivity|]. left. split; [right; rewrite <- TE; eapply nth_error_In; eauto|auto].
    + left. unfold attrData in E. rewrite (rep_off _ _ _ RP p IP) in E. cbn [obind] in E. rewrite Z.eqb_refl in E. cbn [negb] in E. rewrite GT in E. cbn [obind] in E. cbv zeta in E. rewrite CV in E. replace (tyr =? dr_type r) with false in E by lia. cbn [negb] in E. congruence.
Qed.
(** An element *)
Lemma tag_text fl disk d k s m T P F i nm tyr r q ty v res m' : life k s m T P F -> t_index m TAGS <> Ok 0 -> nth_error T i = Some (nm, tyr) -> tyr <> XBT_UNKNOWN ->
  bytes d -> zlen d <= INT_MAX -> ref_ok d r q -> read_data d r = Ok (ty, v) -> holdable ty v -> no_date T nm ty -> tagData fl disk d m (Z.of_nat i) r = Ok (res, m') ->
  exists ty' v', tag_result k s m T P F i res m' nm ty' v' /\ (res = None \/ reads_as fl T (nm, ty', v') (nm, ty, v)).
Proof.
  intros LI IX NT NU BD ZD RO RD HO ND E. assert (DT : dr_type r = ty). { unfold read_data in RD. destruct (dr_data r); [|discriminate]. apply obind_inv in RD as (b & _ & Q). injection Q as <- _. reflexivity. }
  destruct ((ty =? XBT_STRING) && negb (tyr =? XBT_STRING)) eqn:CV.
  - assert (DS : dr_type r = XBT_STRING) by lia. assert (NS : tyr <> XBT_STRING) by lia. assert (NE : tyr <> XBT_UNIX_DATE) by (intros ->; apply ND; [congruence|eapply nth_error_In; eauto]). assert (TS : ty = XBT_STRING) by lia.
    assert (ID : -32768 <= Z.of_nat i < 32768). { pose proof (tags_few _ _ _ _ _ _ LI) as T1. assert (IL : (i < List.length T)%nat) by (apply nth_error_Some; congruence). unfold zlen in T1. lia. }
    unfold tagData in E. apply int_inv in E as [_ E]. apply obind_inv in E as ([ok m1] & MS & E). destruct (space_same _ _ _ _ _ _ _ _ _ _ LI MS) as (L1 & S1 & TG). assert (Q1 : quiet s m m1 F) by (split; [exact S1|eapply space_heads; eauto]).
    destruct (pool_short _ _ _ _ _ _ LI) as [ZL _]. destruct ok; cbn [negb] in E; [|injection E as <- <-; exists ty, v; split; [split; auto|left; reflexivity]]. rewrite DS in E. change (XBT_STRING =? XBT_NULL) with false in E. cbv iota in E.
    pose proof (life_whole _ _ _ _ _ _ L1) as (B & a & I & EL & _). assert (IX1 : t_index m1 TAGS <> Ok 0). { unfold t_index, rd_s32 in *. rewrite (rd_within m m1 TAGS 32) by (auto; unfold TAGS; lia). exact IX. } destruct (tag_type m1 T P B a i nm tyr I IX1 NT) as [GT TY]. rewrite GT in E. cbn [obind] in E.
    replace (tyr =? XBT_STRING) with false in E by lia. cbn [negb] in E. change (XBT_STRING =? XBT_STRING) with true in E. cbn [negb] in E. apply obind_inv in E as (o & FT & E).
    destruct (from_text_inv _ _ _ _ _ _ _ _ BD ZD RO RD DS NS NE FT) as [->|(text & st & -> & CS & EV & FS & FI & LB)].
    { injection E as <- <-. exists ty, v. split; [split; auto|left; reflexivity]. }
    exists tyr, (st_bytes st). split.
    + destruct (put_done _ _ _ _ _ _ _ _ _ _ _ _ L1 TY flag_element ID FI LB E) as [QU H]. split; [eapply quiet_trans; eauto|]. destruct res as [x|]; [|exact H].
      destruct H as (k1 & s1 & w & L2 & AG & NX & KX & EI & ET & RW & VB). exists k1, s1, w. split; [exact L2|]. split; [exact AG|]. split; [exact NX|]. split; [exact KX|]. split; [exact EI|]. split; [|exact VB]. exists i, tyr. auto.
    + right. split; [reflexivity|]. right. split; [eapply nth_error_In; eauto|]. split; [exact TS|]. split; [exact NS|]. exists text, st. auto.
  - assert (TX : ty = XBT_STRING -> tyr = XBT_STRING) by lia. pose proof (tag_step _ _ _ _ _ _ _ _ _ _ _ _ _ _ _ _ _ _ LI IX NT NU BD ZD RO RD HO TX E) as TR. exists ty, v. split; [exact TR|].
    destruct (Z.eq_dec ty XBT_NULL) as [EN|NN]; [right; split; [reflexivity|]; left; auto|]. destruct (Z.eq_dec tyr ty) as [TE|TN].
    + right. split; [reflexivity|]. left. split; [right; rewrite <- TE; eapply nth_error_In; eauto|auto].
    + left. unfold tagData in E. apply int_inv in E as [_ E]. apply obind_inv in E as ([ok m1] & MS & E). destruct (space_same _ _ _ _ _ _ _ _ _ _ LI MS) as (L1 & S1 & TG). destruct (pool_short _ _ _ _ _ _ LI) as [ZL _]. destruct ok; cbn [negb] in E; [|congruence]. rewrite DT in E. replace (ty =? XBT_NULL) with false in E by lia.
      pose proof (life_whole _ _ _ _ _ _ L1) as (B & a & I & EL & _). assert (IX1 : t_index m1 TAGS <> Ok 0). { unfold t_index, rd_s32 in *. rewrite (rd_within m m1 TAGS 32) by (auto; unfold TAGS; lia). exact IX. } destruct (tag_type m1 T P B a i nm tyr I IX1 NT) as [GT TY]. rewrite GT in E. cbn [obind] in E.
      replace (tyr =? ty) with false in E by lia. cbn [negb] in E. replace (ty =? XBT_STRING) with false in E by lia. cbn [negb] in E. congruence.
Qed.
