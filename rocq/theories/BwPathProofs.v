(** Copying the keys of an item, and a path of a document. *)
From Verif Require Import Base BaseFacts Types ListFacts SizeProofs CompareProofs Sort Xb XbSpec XbFacts XbWrite WriteProofs XbBin BinSpec Bw BwFacts BwRing BwSpec BwHist BwAlloc BwProofs BwRead BwTop BwSym BwReg BwFileSpec BwFileProofs BwNamesSpec BwNamesFacts BwNamesInv BwNamesReg BwNamesOps BwNamesIndex BwNamesProofs BwLifeSpec BwLife BwOnly JsonSource BwSet BwNamesTop BwAttr BwAttrSpec BwAttrProofs BwAttrTop BwTag BwTagSpec BwTagProofs BwTagTop BwSource BwSourceSpec BwSourceProofs BwCopy BwCopySpec BwCopyProofs BwCopyTop BwKeys BwKeysSpec BwKeysProofs BwKeysTop BwCopyRoom.

Lemma forall2_len {A B} (Q : A -> B -> Prop) l l' : Forall2 Q l l' -> List.length l = List.length l'.
Proof. induction 1; cbn; congruence. Qed.
Lemma life_names k s m T P F : life k s m T P F -> NoDup (map fst T) /\ NoDup (map fst P).
Proof. intro LI. pose proof (life_whole _ _ _ _ _ _ LI) as (B & a & (n & x & n' & x' & _ & T1 & T2 & _) & _). destruct T1 as (_ & _ & _ & _ & _ & _ & N1 & _), T2 as (_ & _ & _ & _ & _ & _ & N2 & _). auto. Qed.
Lemma says_at k s m P a nm ty w id v tyr : NoDup (map fst P) -> attr_says k s m P a (nm, ty, w) -> 0 <= id -> nth_error P (Z.to_nat id) = Some (nm, tyr) -> there ty w -> value_bytes ty w = v -> attr_at s m a (id, ty, v).
Proof.
  intros ND (_ & i & ty' & EI & NI & _ & ET & RW) I0 NT TH VB. exists w. assert (EQ : i = Z.to_nat id).
  { apply (proj1 (NoDup_nth_error (map fst P)) ND); [rewrite map_length; apply nth_error_Some; congruence|]. rewrite !nth_error_map, NI, NT. reflexivity. }
  subst i. rewrite Z2Nat.id in EI by exact I0. auto.
Qed.
Lemma at_kept p k s m F k' s' m' F' a d : evo p k s m F k' s' m' F' -> In a (members F) -> attr_at s m a d -> attr_at s' m' a d.
Proof. intros ((G & _) & _) J. destruct (G a J) as (_ & _ & S & D1 & D2 & D3). destruct d as [[id ty] v]. intros (w & H). exists w. rewrite D1, D2, S, D3. exact H. Qed.
Lemma ats_kept p k s m F k' s' m' F' A E : evo p k s m F k' s' m' F' -> (forall a, In a A -> In a (members F)) -> Forall2 (attr_at s m) A E -> Forall2 (attr_at s' m') A E.
Proof. intros EV IN H. induction H; constructor; [eapply at_kept; [exact EV|apply IN; left; reflexivity|assumption]|apply IHForall2; intros; apply IN; right; assumption]. Qed.
Lemma ref_read d r ty v w : read_data d r = Ok (ty, v) -> ref_bytes d (dr_data r) (dr_size r) = Ok w -> dr_type r = ty /\ w = v /\ 0 <= dr_size r.
Proof.
  unfold read_data, ref_bytes. destruct (dr_data r); [|discriminate]. intros RD RB. apply obind_inv in RD as (b & RD & Q). injection Q as Q1 Q2. destruct (Z.ltb_spec (dr_size r) 0); [discriminate|]. rewrite RD in RB. injection RB as <-. auto.
Qed.

Section Path.
Variables (key : Z -> bool) (fl : floats) (disk : bool) (d : list Z) (R : reader) (T P : names).
Hypothesis bytes_d : bytes d.
Hypothesis short_d : zlen d <= INT_MAX.
Hypothesis tags_agree : agrees d (rd_tags R) T.
Hypothesis params_agree : agrees d (rd_params R) P.

(** What a new element at the end of the path holds *)
Definition content (whole : bool) k s m F y res : Prop := whole = true -> part_of d R T P k s m F y res.

(** ** The keys of an item *)
Lemma keys_safe y p : (forall i q id, getParamByIndex d (Some y) i = Ok (Some q) -> pd_name d q = Ok id -> 0 <= id < sy_count (rd_params R)) ->
  forall n i attrs U k s m F A ok m', read_bin_attrs n d R y i = Ok attrs -> (forall n ty v, In (n, ty, v) attrs -> holdable ty v /\ text_name P n ty) -> (forall n ty v, In (n, ty, v) attrs -> In ty known_types) -> attrs_from n d y i = Ok U ->
  life k s m T P F -> In p (members F) -> owned F p false A -> indexed m -> copy_keys key n fl d m p y i = Ok (ok, m') ->
  exists k' s' F', life k' s' m' T P F' /\ evo p k s m F k' s' m' F' /\ (forall L, owned F p true L -> owned F' p true L) /\
  (ok = false \/ ok = true /\ exists A2, owned F' p false (A ++ A2) /\ Forall2 (attr_at s' m') A2 (keyed key U)).
Proof.
  intros NM. induction n as [|n IH]; intros i attrs U k s m F A ok m' RA CO KT AF LI IP OW IX E.
  - cbn in RA, E, AF. injection RA as <-. injection AF as <-. injection E as <- <-. exists k, s, F. split; [exact LI|]. split; [apply evo_same|]. split; [auto|]. right. split; [reflexivity|]. exists []. rewrite app_nil_r. split; [exact OW|constructor].
  - cbn [read_bin_attrs copy_keys attrs_from] in RA, E, AF. apply obind_inv in RA as (q & GP & RA). rewrite GP in E, AF. cbn [obind] in E, AF. destruct q as [q|]; [|discriminate]. apply obind_inv in RA as (id & PN & RA). apply obind_inv in RA as (nm & SY & RA). apply obind_inv in RA as ([ty v] & DR & RA). apply obind_inv in RA as (rest & RR & RA). injection RA as <-.
    apply obind_inv in DR as (r & GD & RD). rewrite PN in E, AF. cbn [obind] in E, AF. rewrite GD in AF. cbn [obind] in AF. apply obind_inv in AF as (w & RB & AF). apply obind_inv in AF as (U2 & AF2 & AF). injection AF as <-. destruct (ref_read _ _ _ _ _ RD RB) as (DT & -> & S0). rewrite DT.
    assert (CO2 : forall n ty v, In (n, ty, v) rest -> holdable ty v /\ text_name P n ty) by (intros; apply CO; right; assumption). assert (KT2 : forall n ty v, In (n, ty, v) rest -> In ty known_types) by (intros n0 ty0 v0 J; apply (KT n0 ty0 v0); right; exact J).
    unfold keyed. cbn [filter attr_id fst]. fold (keyed key U2). destruct (key id) eqn:KI; cbn [negb] in E; [|exact (IH _ _ _ _ _ _ _ _ _ _ RR CO2 KT2 AF2 LI IP OW IX E)].
    apply obind_inv in E as ([res m1] & AC & E). unfold attrCopy in AC. rewrite GD in AC. cbn [obind] in AC. rewrite PN in AC. cbn [obind] in AC. pose proof (NM _ _ _ GP PN) as IR. destruct (params_agree id nm IR SY) as (tyr & NU & NT). destruct (param_ref _ _ _ _ GD) as (pp & RO).
    destruct (CO nm ty v (or_introl eq_refl)) as [HO TX]. replace id with (Z.of_nat (Z.to_nat id)) in AC by lia. assert (TX' : ty = XBT_STRING -> tyr = XBT_STRING) by (intro Q; apply (TX Q); eapply nth_error_In; eauto).
    destruct (attr_step _ _ _ _ _ _ _ _ _ _ _ _ _ _ _ _ _ _ _ LI IP OW (proj2 IX) NT NU bytes_d short_d RO RD HO TX' AC) as (k1 & s1 & F1 & L1 & EV1 & OK1 & H1). destruct H1 as [->|(-> & x & v' & OX & AX & VB)].
    { injection E as <- <-. exists k1, s1, F1. split; [exact L1|]. split; [exact EV1|]. split; [exact OK1|]. left. reflexivity. }
    destruct (ref_fits _ _ _ _ _ bytes_d RO RD S0 HO) as (_ & _ & _ & FI). destruct FI as (n0 & z & _ & _ & _ & _ & PAD). pose proof (there_of ty v' v (KT nm ty v (or_introl eq_refl)) VB PAD HO) as TH. pose proof (says_at _ _ _ _ _ _ _ _ id v tyr (proj2 (life_names _ _ _ _ _ _ LI)) AX (proj1 IR) NT TH VB) as AT.
    pose proof EV1 as ((G1 & _) & TG1 & _). destruct (G1 p IP) as (IP1 & _). destruct (IH (i + 1) rest U2 k1 s1 m1 F1 (A ++ [x]) ok m' RR CO2 KT2 AF2 L1 IP1 OX (indexed_kept _ _ _ _ _ _ _ LI TG1 IX) E) as (k2 & s2 & F2 & L2 & EV2 & OK2 & H2).
    exists k2, s2, F2. split; [exact L2|]. split; [eapply evo_trans; eauto|]. split; [auto|]. destruct H2 as [->|(-> & A2 & O2 & FA)]; [left; reflexivity|right]. split; [reflexivity|]. exists (x :: A2). rewrite <- app_assoc in O2. split; [exact O2|].
    constructor; [|exact FA]. eapply at_kept; [exact EV2| |exact AT]. eapply owned_members; [exact OX|apply in_or_app; right; left; reflexivity].
Qed.
(** All attributes of an item *)
Lemma all_at y k s m F (LI : life k s m T P F) : (forall i q id, getParamByIndex d (Some y) i = Ok (Some q) -> pd_name d q = Ok id -> 0 <= id < sy_count (rd_params R)) ->
  forall n i attrs U A attrs', read_bin_attrs n d R y i = Ok attrs -> (forall n ty v, In (n, ty, v) attrs -> holdable ty v) -> (forall n ty v, In (n, ty, v) attrs -> In ty known_types) -> attrs_from n d y i = Ok U ->
  Forall2 (attr_says k s m P) A attrs' -> map attr_doc attrs' = attrs -> Forall2 (attr_at s m) A U.
Proof.
  intros NM. induction n as [|n IH]; intros i attrs U A attrs' RA CO KT AF FA MA.
  - cbn in RA, AF. injection RA as <-. injection AF as <-. destruct attrs'; [|discriminate]. inversion FA; subst. constructor.
  - cbn [read_bin_attrs attrs_from] in RA, AF. apply obind_inv in RA as (q & GP & RA). rewrite GP in AF. cbn [obind] in AF. destruct q as [q|]; [|discriminate]. apply obind_inv in RA as (id & PN & RA). apply obind_inv in RA as (nm & SY & RA). apply obind_inv in RA as ([ty v] & DR & RA). apply obind_inv in RA as (rest & RR & RA). injection RA as <-.
    apply obind_inv in DR as (r & GD & RD). rewrite PN in AF. cbn [obind] in AF. rewrite GD in AF. cbn [obind] in AF. apply obind_inv in AF as (w & RB & AF). apply obind_inv in AF as (U2 & AF2 & AF). injection AF as <-. destruct (ref_read _ _ _ _ _ RD RB) as (DT & -> & S0). rewrite DT.
    destruct attrs' as [|[[nm' ty'] w'] attrs']; [discriminate|]. cbn [map attr_doc] in MA. injection MA as E1 E2 E3 E4. subst nm' ty'. inversion FA as [|a ? A2 ? AX FA2]; subst.
    pose proof (NM _ _ _ GP PN) as IR. destruct (params_agree id nm IR SY) as (tyr & NU & NT). destruct (param_ref _ _ _ _ GD) as (pp & RO). pose proof (CO nm _ _ (or_introl eq_refl)) as HO.
    destruct (ref_fits _ _ _ _ _ bytes_d RO RD S0 HO) as (_ & _ & _ & FI). destruct FI as (n0 & z & _ & _ & _ & _ & PAD). pose proof (there_of _ w' _ (KT nm _ _ (or_introl eq_refl)) eq_refl PAD HO) as TH.
    constructor; [exact (says_at _ _ _ _ _ _ _ _ id _ tyr (proj2 (life_names _ _ _ _ _ _ LI)) AX (proj1 IR) NT TH eq_refl)|].
    eapply (IH (i + 1)); [exact RR| | |exact AF2|exact FA2|reflexivity]; intros n1 ty1 v1 J; [apply (CO n1 ty1 v1)|apply (KT n1 ty1 v1)]; right; exact J.
Qed.
(** An element with the keys of the item, or all its attributes *)
Definition has_keys s m F x y : Prop := exists A E U, owned F x false A /\ Forall2 (attr_at s m) A E /\ item_attrs d y = Ok U /\ (E = U \/ E = keyed key U).
Definition has_only s m F x y : Prop := exists A U, owned F x false A /\ item_attrs d y = Ok U /\ Forall2 (attr_at s m) A (keyed key U).
Lemma only_keys s m F x y : has_only s m F x y -> has_keys s m F x y.
Proof. intros (A & U & H1 & H2 & H3). exists A, (keyed key U), U. auto. Qed.
Lemma keyed_twice l : keyed key (keyed key l) = keyed key l.
Proof. unfold keyed. induction l as [|a l IH]; [reflexivity|]. cbn [filter]. destruct (key (attr_id a)) eqn:K; [|exact IH]. cbn [filter]. rewrite K, IH. reflexivity. Qed.
Lemma own_keys U E : NoDup (map attr_id (keyed key U)) -> zlen (keyed key U) <= 16 -> E = U \/ E = keyed key U -> equal_keys fl key U E = Ok true.
Proof.
  intros ND LE EU. assert (KE : keyed key E = keyed key U) by (destruct EU as [->| ->]; [reflexivity|apply keyed_twice]). destruct (equal_means fl key U E) as (b & EQ & BE); rewrite ?KE in *; [exact ND| |].
  - intros id ty v ty' v' J1 J2. pose proof (one_id attr_id _ _ _ ND J1 J2 eq_refl) as Q. injection Q as -> ->. reflexivity.
  - rewrite EQ. f_equal. apply BE. split; [exact LE|reflexivity].
Qed.
Lemma short_list k s m F x c L : life k s m T P F -> owned F x c L -> (List.length L <= List.length (members F))%nat.
Proof. intros LI OW. pose proof (life_whole _ _ _ _ _ _ LI) as (B & a & _ & (h & a2 & _ & _ & SH) & _). eapply owned_short; [exact LI|exact OW|exact (sh_nodup _ _ SH)]. Qed.
Lemma has_keys_equal k s m F x y fuel : life k s m T P F -> In x (members F) -> item key d R T P y -> has_keys s m F x y -> (List.length (members F) <= fuel)%nat -> EqualKeys key fuel fl d m x y = rret true.
Proof.
  intros LI IX (fr & n & ty & v & attrs & kids & U & _ & _ & _ & _ & IA & ND & LE) (A & E & U' & OW & FA & IA' & EU) FU. rewrite IA in IA'. injection IA' as <-.
  rewrite (equal_keys_ok _ _ _ _ _ _ _ _ _ _ _ _ _ _ fuel LI IX OW FA IA); [rewrite (own_keys _ _ ND LE EU); reflexivity|].
  pose proof (short_list _ _ _ _ _ _ _ LI OW). lia.
Qed.
Lemma copy_keys_safe k s m F x y ok m' : item key d R T P y -> life k s m T P F -> indexed m -> In x (members F) -> owned F x false [] -> owned F x true [] -> CopyKeys key fl d m x y = Ok (ok, m') ->
  exists k' s' F', life k' s' m' T P F' /\ evo x k s m F k' s' m' F' /\ owned F' x true [] /\ (ok = false \/ ok = true /\ has_only s' m' F' x y).
Proof.
  intros (fr & n & ty & v & attrs & kids & U & RN & ND & CO & KT & IA & _) LI IX IP OA OL E. destruct fr as [|fr]; [discriminate|]. destruct (node_data _ _ _ _ _ _ _ _ _ RN) as (id & pc & cc & rr & IN & SY & PC & CC & RA & GD & RD & RK). inversion ND as [y' NM1 NM2 NM3 EQ]; subst y'.
  assert (SAME : exists k' s' F', life k' s' m T P F' /\ evo x k s m F k' s' m F' /\ owned F' x true [] /\ (false = false \/ false = true /\ has_only s' m F' x y)) by (exists k, s, F; split; [exact LI|]; split; [apply evo_same|auto]).
  unfold CopyKeys in E. apply obind_inv in E as (c & _ & E). destruct (negb (c =? 0)) in E; [injection E as <- <-; exact SAME|]. apply obind_inv in E as (a & _ & E). destruct (negb (a =? 0)) in E; [injection E as <- <-; exact SAME|].
  apply obind_inv in E as (eid & _ & E). rewrite IN in E. cbn [obind] in E. destruct (negb (eid =? id)) in E; [injection E as <- <-; exact SAME|]. rewrite PC in E. cbn [obind] in E. pose proof IA as IA2. unfold item_attrs in IA. rewrite PC in IA. cbn [obind] in IA.
  destruct (CO _ (or_introl eq_refl)) as (_ & _ & COA). destruct (keys_safe y x NM2 _ _ _ _ _ _ _ _ _ _ _ RA COA KT IA LI IP OA IX E) as (k' & s' & F' & L1 & EV & OK1 & H). exists k', s', F'. split; [exact L1|]. split; [exact EV|]. split; [apply OK1, OL|].
  destruct H as [->|(-> & A & OX & FA)]; [left; reflexivity|right]. split; [reflexivity|]. exists A, U. auto.
Qed.
Lemma fill_safe fuel k s m F x y r m' : item key d R T P y -> life k s m T P F -> indexed m -> In x (members F) -> owned F x false [] -> owned F x true [] -> CopyAll fuel fl disk d m (Some x) y = rret (r, m') ->
  exists k' s' F', life k' s' m' T P F' /\ evo x k s m F k' s' m' F' /\ (r = None \/ r = Some x /\ has_keys s' m' F' x y /\ content true k' s' m' F' y x).
Proof.
  intros (fr & n & ty & v & attrs & kids & U & RN & ND & CO & KT & IA & _) LI IX IP OA OL E. destruct (copy_safe fl disk d R T P bytes_d short_d tags_agree params_agree _ _ _ _ _ _ _ _ _ _ _ _ _ _ _ RN ND CO LI IP OA OL IX E) as (k' & s' & F' & L1 & EV & H).
  exists k', s', F'. split; [exact L1|]. split; [exact EV|]. destruct H as [[-> _]|[-> FD]]; [left; reflexivity|right]. split; [reflexivity|]. destruct (holds_of _ _ _ _ _ _ _ _ _ _ _ FD) as (ks & SU & _ & HO). destruct FD as (A & L & attrs' & kids' & O1 & _ & FA & _ & MA & _). split; [|intros _; do 7 eexists; eauto].
  destruct fr as [|fr]; [discriminate|]. destruct (node_data _ _ _ _ _ _ _ _ _ RN) as (id & pc & cc & rr & IN & SY & PC & CC & RA & _). inversion ND as [y' NM1 NM2 NM3 EQ]; subst y'. pose proof IA as IA2. unfold item_attrs in IA. rewrite PC in IA. cbn [obind] in IA. destruct (CO _ (or_introl eq_refl)) as (_ & _ & COA).
  exists A, U, U. split; [exact O1|]. split; [|auto]. eapply (all_at y k' s' m' F' L1 NM2); eauto. intros n0 ty0 v0 J. apply (COA n0 ty0 v0 J).
Qed.
(** A new element for an item *)
Lemma null_step k s m F i nm tyr res m' : life k s m T P F -> nth_error T i = Some (nm, tyr) -> bw_tag disk m (Z.of_nat i) = Ok (res, m') ->
  quiet s m m' F /\ match res with
  | None => life k s m' T P F
  | Some x => exists k' s', life k' s' m' T P ((None, [x]) :: F) /\ (forall e, In e (members F) -> k' e = k e /\ s' e = s e) /\ ~ In x (members F) /\ k' x = true /\ el_id m' x = Ok (Z.of_nat i)
  end.
Proof.
  intros LI NT E. assert (ID : -32768 <= Z.of_nat i < 32768). { pose proof (tags_few _ _ _ _ _ _ LI) as T1. assert (IL : (i < List.length T)%nat) by (apply nth_error_Some; congruence). unfold zlen in T1. lia. }
  unfold bw_tag in E. assert (HE : heads m m') by (eapply make_heads; [exact LI| |exact E]; lia). destruct (make_ok k s m T P F disk (Z.of_nat i) XBT_NULL 0 0 0 24 [] res m' LI ltac:(vm_compute; intuition congruence) eq_refl ltac:(lia) ltac:(vm_compute; congruence) ID E) as [(-> & L2 & S2)|(x & -> & TD & _)].
  - split; [split; auto|exact L2].
  - destruct TD as (k' & s' & L2 & AG & NX & KX & EI & ET & KK). split; [split; auto|]. exists k', s'. auto.
Qed.
Lemma item_name k s m F y nm : life k s m T P F -> item key d R T P y -> it_name d y = Ok nm -> exists n tyr, nth_error T (Z.to_nat nm) = Some (n, tyr) /\ Z.of_nat (Z.to_nat nm) = nm.
Proof.
  intros LI (fr & n & ty & v & attrs & kids & U & RN & ND & _) E. destruct fr as [|fr]; [discriminate|]. destruct (node_data _ _ _ _ _ _ _ _ _ RN) as (id & pc & cc & rr & IN & SY & _). rewrite E in IN. injection IN as <-. inversion ND as [y' NM1 NM2 NM3 EQ]; subst y'. specialize (NM1 _ E). destruct (tags_agree nm n NM1 SY) as (tyr & _ & NT). exists n, tyr. split; [exact NT|]. lia.
Qed.
(** Made and added to [x] *)
Lemma child_step k s m F x y nm t m1 L ok tr : item key d R T P y -> life k s m T P F -> In x (members F) -> owned F x true L -> it_name d y = Ok nm -> bw_tag disk m nm = Ok (Some t, m1) -> add m1 x t = Ok (ok, tr) ->
  exists k' s' F', life k' s' (final m1 tr) T P F' /\ evo x k s m F k' s' (final m1 tr) F' /\ owned F' x true (L ++ [t]) /\ (forall A, owned F x false A -> owned F' x false A) /\ ~ In t (members F) /\ In t (members F') /\ owned F' t false [] /\ owned F' t true [] /\ el_id (final m1 tr) t = Ok nm.
Proof.
  intros IT LI IX OL IN BT EA. destruct (item_name _ _ _ _ _ _ LI IT IN) as (n & tyr & NT & NE). rewrite <- NE in BT. destruct (null_step _ _ _ _ _ _ _ _ _ LI NT BT) as [QU (k' & s' & L1 & AG & NX & KX & EI)]. rewrite NE in EI.
  assert (NXT : x <> t) by (intros ->; auto). destruct (add_step k' s' m1 T P _ x t true L ok tr L1 (or_introl eq_refl) (or_intror IX) NXT (owned_free _ _ _ _ _ OL) KX EA) as (F' & L2 & DD & OW' & OT & FR & TG & _).
  destruct (evo_free x t k s m T P F k' s' m1 LI QU AG) as ((A1 & A2) & A3 & A4). exists k', s', F'. split; [exact L2|]. split.
  { split; [split|split; [eapply heads_trans; eauto|]].
    + intros e J. destruct (A1 e J) as (J1 & K1 & S1 & D1). destruct (DD e J1) as [J2 D2]. split; [exact J2|]. split; [exact K1|]. split; [exact S1|]. eapply same_trans; [exact S1|exact D1|exact D2].
    + intros q2 b L0 J N O. apply OT; [congruence|]. apply owned_free, O.
    + intros B0 J. apply FR; [right; exact J|]. intros ->. apply NX. apply in_flat_map. exists (None, [t]). split; [exact J|left; reflexivity]. }
  split; [exact OW'|]. split; [intros A O; apply OT; [congruence|]; apply owned_free, O|]. split; [exact NX|]. destruct (DD t (or_introl eq_refl)) as (JT & D1 & D2 & D3). split; [exact JT|].
  split; [apply OT; [congruence|]; eapply none_owned; eauto|]. split; [apply OT; [congruence|]; eapply none_owned; eauto|]. rewrite D1. exact EI.
Qed.
(** ** The search *)
Fixpoint first_equal U (L : list Z) (Es : list (list attr)) : outcome (option Z) :=
  match L, Es with c :: L, E :: Es => obind (equal_keys fl key U E) (fun b => if b then Ok (Some c) else first_equal U L Es) | _, _ => Ok None end.
Definition with_attrs s m F c E : Prop := exists A, owned F c false A /\ Forall2 (attr_at s m) A E.
Lemma find_equal_ok k s m F x L lf e U : life k s m T P F -> In x (members F) -> owned F x true L -> item_attrs d e = Ok U -> (List.length (members F) <= lf)%nat ->
  forall l2 E2 l1 c fuel, L = l1 ++ c :: l2 -> Forall2 (with_attrs s m F) (c :: l2) E2 -> (List.length l2 < fuel)%nat -> find_equal key fuel lf fl d m x e c = Some (first_equal U (c :: l2) E2).
Proof.
  intros LI IX OL IA LF. pose proof (life_whole _ _ _ _ _ _ LI) as (B & a & I0 & EL & _). pose proof (inv_list _ _ _ _ _ _ _ EL IX OL) as (_ & SC & ND & NX). change (x + field_of true) with (x + 16) in SC.
  induction l2 as [|c2 l2 IH]; intros E2 l1 c fuel EQ FE FU; inversion FE as [|? E ? Es (A & OA & FA) FE2]; subst E2; (destruct fuel as [|fuel]; [lia|]); cbn [find_equal first_equal].
  all: assert (IC : In c (members F)) by (eapply owned_members; [exact OL|]; rewrite EQ; apply in_or_app; right; left; reflexivity). all: rewrite (equal_keys_ok _ _ _ _ _ _ _ _ _ _ _ _ _ _ lf LI IC OA FA IA) by (pose proof (short_list _ _ _ _ _ _ _ LI OA); lia). all: destruct (equal_keys fl key U E) as [b| |]; try reflexivity. all: cbn [obind]; rewrite rbind_ok; destruct b; [reflexivity|]. all: destruct (NX _ _ _ EQ) as [_ EN]; rewrite EN, rbind_ok; unfold el_child; rewrite SC, rbind_ok.
  - cbn [hd]. rewrite Z.eqb_refl. inversion FE2; subst. reflexivity.
  - cbn [hd]. assert (EQ' : L = (l1 ++ [c]) ++ c2 :: l2) by (rewrite <- app_assoc; exact EQ). assert (N2 : c2 <> hd 0 L). { rewrite EQ in ND |- *. destruct l1 as [|y l1]; cbn [hd app] in *; inversion ND as [|? ? N1 N2]; subst; intros ->; apply N1; [left; reflexivity|apply in_or_app; right; right; left; reflexivity]. }
    destruct (Z.eqb_spec c2 (hd 0 L)); [congruence|]. assert (IC2 : In c2 (members F)) by (eapply owned_members; [exact OL|]; rewrite EQ'; apply in_or_app; right; left; reflexivity). rewrite (proj2 (follow_ok k s m T P F LI x c2 IX IC2)), rbind_ok. apply (IH Es (l1 ++ [c]) c2 fuel EQ' FE2). cbn in FU. lia.
Qed.
Lemma search_ok k s m F x L fuel e U Es : life k s m T P F -> In x (members F) -> owned F x true L -> item_attrs d e = Ok U -> Forall2 (with_attrs s m F) L Es -> (List.length (members F) <= fuel)%nat -> search key fuel fl d m x e = Some (first_equal U L Es).
Proof.
  intros LI IX OL IA FE FU. pose proof (life_whole _ _ _ _ _ _ LI) as (B & a & I0 & EL & _). pose proof (inv_list _ _ _ _ _ _ _ EL IX OL) as (_ & SC & ND & NX). change (x + field_of true) with (x + 16) in SC. unfold search, el_child. rewrite SC, rbind_ok. pose proof (short_list _ _ _ _ _ _ _ LI OL) as SL.
  destruct L as [|c L]; cbn [hd]; [inversion FE; subst; reflexivity|]. destruct (NX [] c L eq_refl) as [C0 _]. replace (c =? 0) with false by lia. assert (IC : In c (members F)) by (eapply owned_members; [exact OL|left; reflexivity]). rewrite (proj2 (follow_ok k s m T P F LI x c IX IC)), rbind_ok.
  apply (find_equal_ok k s m F x (c :: L) fuel e U LI IX OL IA FU L Es [] c fuel eq_refl FE). cbn in SL. lia.
Qed.
Lemma first_equal_end U L Es t E : List.length L = List.length Es -> first_equal U L Es = Ok None -> equal_keys fl key U E = Ok true -> first_equal U (L ++ [t]) (Es ++ [E]) = Ok (Some t).
Proof.
  revert Es. induction L as [|c L IH]; intros [|E0 Es] LE FN EQ; try discriminate; cbn [app first_equal] in *.
  - rewrite EQ. reflexivity.
  - apply obind_inv in FN as (b & EB & FN). rewrite EB. cbn [obind]. destruct b; [discriminate|]. apply IH; auto.
Qed.
Lemma first_equal_in U L Es c : first_equal U L Es = Ok (Some c) -> In c L.
Proof.
  revert Es. induction L as [|c0 L IH]; intros [|E0 Es] FN; try discriminate. cbn [first_equal] in FN. apply obind_inv in FN as (b & EB & FN). destruct b; [injection FN as ->; left; reflexivity|right; eauto].
Qed.

(** ** The walk *)
Lemma walk_null fuel whole m src items r m' : walk key fuel whole fl disk d m src None true items = rret (r, m') -> r = None /\ m' = m.
Proof.
  destruct items as [|e items]; cbn [walk negb]; [|discriminate]. destruct whole; [|discriminate]. intro E. apply rbind_inv in E as ([r0 m0] & E1 & E). destruct fuel; [discriminate|]. cbn in E1. injection E1 as <- <-. injection E as <- <-. auto.
Qed.
(** The path is found in the pool as it is now. *)
Definition keys_equal m F x y : Prop := forall fuel, (List.length (members F) <= fuel)%nat -> EqualKeys key fuel fl d m x y = rret true.
Definition again m F src x items res : Prop :=
  (forall fuel whole disk, (List.length (members F) <= fuel)%nat -> walk key fuel whole fl disk d m src (Some x) false items = rret (Some res, m)) /\
  (items = [] /\ res = x \/ items <> [] /\ keys_equal m F res (last items src)).
Lemma last_cons {A} (e : A) l a : last (e :: l) a = last l e.
Proof. revert e a. induction l as [|b l IH]; intros e a; [reflexivity|]. transitivity (last (b :: l) a); [reflexivity|]. rewrite !IH. reflexivity. Qed.
Lemma again_step m F src e t items res : again m F e t items res -> keys_equal m F t e -> keys_equal m F res (last (e :: items) src).
Proof. intros [_ [[-> ->]|[N H]]] K; [exact K|]. rewrite last_cons. destruct items as [|a l]; [congruence|]. rewrite last_cons in *. exact H. Qed.
Lemma has_keys_kept t k s m F k' s' m' F' x y : evo t k s m F k' s' m' F' -> x <> t -> In x (members F) -> has_keys s m F x y -> has_keys s' m' F' x y.
Proof.
  intros EV NE IX (A & E & U & OW & FA & H). exists A, E, U. pose proof EV as ((_ & G2) & _). split; [apply G2; auto|]. split; [|exact H]. eapply ats_kept; [exact EV| |exact FA]. intros a J. exact (owned_members _ _ _ _ _ OW J).
Qed.
Lemma evo_then x t k s m F k1 s1 m1 F1 k2 s2 m2 F2 : evo x k s m F k1 s1 m1 F1 -> evo t k1 s1 m1 F1 k2 s2 m2 F2 -> ~ In t (members F) -> evo x k s m F k2 s2 m2 F2.
Proof.
  intros ((A1 & A2) & A3 & A4) ((B1 & B2) & B3 & B4) NT. split; [split|split; [eapply heads_trans; eauto|auto]].
  - intros e J. destruct (A1 e J) as (J1 & K1 & S1 & D1). destruct (B1 e J1) as (J2 & K2 & S2 & D2). split; [exact J2|]. split; [congruence|]. split; [congruence|]. eapply same_trans; [exact S1|exact D1|exact D2].
  - intros q b L J N O. destruct (A1 q J) as (J1 & _). apply B2; auto. intros ->. auto.
Qed.
Lemma walk_new : forall items src k s m F x fuel whole r m', Forall (item key d R T P) items -> item key d R T P src -> life k s m T P F -> indexed m -> In x (members F) -> owned F x false [] -> owned F x true [] ->
  walk key fuel whole fl disk d m src (Some x) true items = rret (r, m') ->
  exists k' s' F', life k' s' m' T P F' /\ evo x k s m F k' s' m' F' /\ forall res, r = Some res -> In res (members F') /\ has_keys s' m' F' x src /\ again m' F' src x items res /\ content whole k' s' m' F' (last items src) res.
Proof.
  induction items as [|e items IH]; intros src k s m F x fuel whole r m' FI IS LI IX IP OA OL E; cbn [walk negb] in E.
  - destruct whole.
    + apply rbind_inv in E as ([r0 m0] & CA & E). injection E as <- <-. destruct (fill_safe _ _ _ _ _ _ _ _ _ IS LI IX IP OA OL CA) as (k' & s' & F' & L1 & EV & H). exists k', s', F'. split; [exact L1|]. split; [exact EV|]. intros res Q. destruct H as [->|(-> & H & CT)]; [discriminate|]. injection Q as <-. split; [apply EV; exact IP|]. split; [exact H|]. split; [|exact CT]. split; [|auto]. intros fuel' whole' disk' _. reflexivity.
    + unfold copy_into in E. apply rbind_some in E as ([ok m0] & CK & E). injection E as <- <-. destruct (copy_keys_safe _ _ _ _ _ _ _ _ IS LI IX IP OA OL CK) as (k' & s' & F' & L1 & EV & _ & H). exists k', s', F'. split; [exact L1|]. split; [exact EV|]. intros res Q. destruct H as [->|[-> H]]; [discriminate|]. injection Q as <-. split; [apply EV; exact IP|]. split; [exact (only_keys _ _ _ _ _ H)|]. split; [|intro; discriminate]. split; [|auto]. intros fuel' whole' disk' _. reflexivity.
  - inversion FI as [|? ? IE FI2]; subst. unfold copy_into in E. apply rbind_some in E as ([ok m1] & CK & E). destruct (copy_keys_safe _ _ _ _ _ _ _ _ IS LI IX IP OA OL CK) as (k1 & s1 & F1 & L1 & EV1 & OL1 & H1).
    destruct H1 as [->|[-> H1]]; [|apply only_keys in H1]; cbn [negb] in E. { injection E as <- <-. exists k1, s1, F1. split; [exact L1|]. split; [exact EV1|]. intros res Q. discriminate. }
    pose proof EV1 as ((G1 & G1') & TG1 & _). destruct (G1 x IP) as (IP1 & _). pose proof (indexed_kept _ _ _ _ _ _ _ LI TG1 IX) as IX1.
    apply rbind_inv in E as (c & SE & E). assert (CN : c = None).
    { pose proof (life_whole _ _ _ _ _ _ L1) as (B & a & I0 & EL & _). pose proof (inv_list _ _ _ _ _ _ _ EL IP1 OL1) as (_ & SC & _). change (x + field_of true) with (x + 16) in SC. unfold search, el_child in SE. rewrite SC, rbind_ok in SE. cbn in SE. injection SE as <-. reflexivity. }
    subst c. apply rbind_some in E as (nm & IN & E). apply rbind_some in E as ([t m2] & BT & E). destruct t as [t|].
    2:{ rewrite rbind_rret in E. destruct (walk_null _ _ _ _ _ _ _ E) as [-> ->]. destruct (item_name _ _ _ _ _ _ L1 IE IN) as (n & tyr & NT & NE). rewrite <- NE in BT. destruct (null_step _ _ _ _ _ _ _ _ _ L1 NT BT) as [QU L2]. exists k1, s1, F1. split; [exact L2|]. split; [|intros res Q; discriminate].
        eapply evo_trans; [exact EV1|]. eapply quiet_grown; [exact L1|exact QU|]. auto. }
    apply rbind_some in E as (m3 & EA & E). apply obind_inv in EA as ([ok tr] & EA & Q). injection Q as <-. destruct (child_step _ _ _ _ _ _ _ _ _ _ _ _ IE L1 IP1 OL1 IN BT EA) as (k3 & s3 & F3 & L3 & EV3 & OL3 & OA3 & NT & IT & TA & TC & _). cbn [app] in OL3.
    pose proof EV3 as ((G3 & _) & TG3 & _). destruct (G3 x IP1) as (IP3 & _). assert (NXT : x <> t) by (intros ->; auto).
    destruct (IH e k3 s3 _ F3 t fuel whole r m' FI2 IE L3 (indexed_kept _ _ _ _ _ _ _ L1 TG3 IX1) IT TA TC E) as (k4 & s4 & F4 & L4 & EV4 & H4). exists k4, s4, F4. split; [exact L4|]. split.
    { eapply evo_then; [eapply evo_trans; [exact EV1|exact EV3]|exact EV4|]. intro J. apply NT. apply G1, J. }
    intros res Q. destruct (H4 res Q) as (IR & HK & AG & CT). split; [exact IR|]. split; [|rewrite last_cons; split; [|exact CT]].
    + eapply has_keys_kept; [exact EV4|exact NXT|exact IP3|]. destruct H1 as (A & E0 & U & OW & FA & HU). exists A, E0, U. split; [apply OA3, OW|]. split; [|exact HU]. eapply ats_kept; [exact EV3| |exact FA]. intros a J. exact (owned_members _ _ _ _ _ OW J).
    + pose proof EV4 as ((G4 & G4') & _). destruct (G4 x IP3) as (IP4 & _). destruct (G4 t IT) as (IT4 & _). split; [|right; split; [discriminate|]; eapply again_step; [exact AG|]; intros fuel' FU'; eapply has_keys_equal; eauto].
      intros fuel' whole' disk' FU. cbn [walk negb]. rewrite rbind_rret. cbn [negb]. pose proof (G4' x true [t] IP3 NXT OL3) as OL4. pose proof IE as (fr & n & ty & v & attrs & kids & U & _ & _ & _ & _ & IA & ND & LE).
      destruct HK as (A & E0 & U' & OW & FA & IA' & EU). rewrite IA in IA'. injection IA' as <-. rewrite (search_ok k4 s4 m' F4 x [t] fuel' e U [E0] L4 IP4 OL4 IA); [|constructor; [exists A; auto|constructor]|exact FU]. cbn [first_equal]. rewrite (own_keys _ _ ND LE EU). cbn [obind]. rewrite rbind_ok. apply (proj1 AG), FU.
Qed.
Lemma owned_ex (F : forest) p b : exists L, owned F p b L.
Proof.
  induction F as [|[o L] F [L1 IH]]; [exists []; right; split; [reflexivity|intros L' []]|]. assert (D : {o = Some (p, b)} + {o <> Some (p, b)}) by (repeat decide equality). destruct D as [->|N]; [exists L; left; left; reflexivity|].
  destruct IH as [J|[-> U]]; [exists L1; left; right; exact J|exists []; right]. split; [reflexivity|]. intros L' [J|J]; [congruence|exact (U L' J)].
Qed.
Lemma all_with s m F L : sound s m F -> exists Es, Forall2 (with_attrs s m F) L Es.
Proof.
  intro SO. induction L as [|c L (Es & IH)]; [exists []; constructor|]. destruct (owned_ex F c false) as [A OA]. assert (AE : exists E, Forall2 (attr_at s m) A E).
  { assert (H : forall a, In a A -> exists d, attr_at s m a d) by (intros; eapply SO; eauto). clear - H. induction A as [|a A IH]; [exists []; constructor|]. destruct (H a (or_introl eq_refl)) as [x Hx]. destruct IH as [E FE]; [intros; apply H; right; assumption|]. exists (x :: E). constructor; assumption. }
  destruct AE as [E FE]. exists (E :: Es). constructor; [exists A; auto|exact IH].
Qed.
Lemma with_kept z k s m F k' s' m' F' c E : evo z k s m F k' s' m' F' -> (forall A, owned F z false A -> owned F' z false A) -> In c (members F) -> with_attrs s m F c E -> with_attrs s' m' F' c E.
Proof.
  intros EV ZA IC (A & OA & FA). exists A. pose proof EV as ((_ & G2) & _). split; [destruct (Z.eq_dec c z) as [->|N]; [apply ZA, OA|apply G2; auto]|]. eapply ats_kept; [exact EV| |exact FA]. intros a J. exact (owned_members _ _ _ _ _ OA J).
Qed.
Lemma withs_kept z k s m F k' s' m' F' L Es : evo z k s m F k' s' m' F' -> (forall A, owned F z false A -> owned F' z false A) -> (forall c, In c L -> In c (members F)) -> Forall2 (with_attrs s m F) L Es -> Forall2 (with_attrs s' m' F') L Es.
Proof. intros EV ZA IN H. induction H; constructor; [eapply with_kept; eauto; apply IN; left; reflexivity|apply IHForall2; intros; apply IN; right; assumption]. Qed.
Lemma first_equal_more U L1 L2 Es E2 c : first_equal U L1 Es = Ok (Some c) -> first_equal U (L1 ++ L2) (Es ++ E2) = Ok (Some c).
Proof. revert Es. induction L1 as [|c0 L1 IH]; intros [|E0 Es] FN; try discriminate. cbn [first_equal app] in *. apply obind_inv in FN as (b & EB & FN). rewrite EB. cbn [obind]. destruct b; auto. Qed.
Lemma first_equal_keys s m F U L Es c : Forall2 (with_attrs s m F) L Es -> first_equal U L Es = Ok (Some c) -> exists E, with_attrs s m F c E /\ equal_keys fl key U E = Ok true.
Proof. intro H. induction H as [|c0 E0 L Es W _ IH]; [discriminate|]. cbn [first_equal]. intro FN. apply obind_inv in FN as (b & EB & FN). destruct b; [injection FN as <-; eauto|auto]. Qed.
Lemma grows_any F F' z Q : grows F F' z Q -> grows F F' z (fun _ => True).
Proof. intros [H1 H2]. split; [exact H1|]. intros L O. destruct (H2 L O) as [H|(t & H3 & H4 & _)]; [left; exact H|right; eauto]. Qed.
Lemma walk_old : forall items src k s m F x fuel whole r m', Forall (item key d R T P) items -> life k s m T P F -> indexed m -> sound s m F -> In x (members F) -> (List.length (members F) <= fuel)%nat ->
  walk key fuel whole fl disk d m src (Some x) false items = rret (r, m') ->
  exists k' s' F' z, life k' s' m' T P F' /\ In z (members F) /\ evo z k s m F k' s' m' F' /\ grows F F' z (fun _ => True) /\
  forall res, r = Some res -> In res (members F') /\ grows F F' z (fun t => exists E, with_attrs s' m' F' t E) /\ again m' F' src x items res /\ (In res (members F) \/ content whole k' s' m' F' (last items src) res).
Proof.
  induction items as [|e items IH]; intros src k s m F x fuel whole r m' FI LI IX SO IP FU E; cbn [walk negb] in E.
  - injection E as <- <-. exists k, s, F, x. assert (SAME : forall Q, grows F F x Q) by (intro Q; split; auto). split; [exact LI|]. split; [exact IP|]. split; [apply evo_same|]. split; [apply SAME|]. intros res Q. injection Q as <-. split; [exact IP|]. split; [apply SAME|]. split; [|left; exact IP]. split; [|auto]. intros fuel' whole' disk' _. reflexivity.
  - inversion FI as [|? ? IE FI2]; subst. rewrite rbind_rret in E. cbn [negb] in E. apply rbind_inv in E as (c & SE & E). destruct (owned_ex F x true) as [L OL]. destruct (all_with s m F L SO) as [Es FE]. pose proof IE as (fr & n & ty & v & attrs & kids & U & _ & _ & _ & _ & IA & ND & LE).
    assert (LM : forall c, In c L -> In c (members F)) by (intros c0 J; exact (owned_members _ _ _ _ _ OL J)).
    rewrite (search_ok k s m F x L fuel e U Es LI IP OL IA FE FU) in SE. assert (FN : first_equal U L Es = Ok c) by (unfold rret in SE; congruence). clear SE. destruct c as [c|].
    + assert (IC : In c (members F)) by (apply LM; eapply first_equal_in; eauto). destruct (IH e k s m F c fuel whole r m' FI2 LI IX SO IC FU E) as (k' & s' & F' & z & L1 & IZ & EV & GR & H). exists k', s', F', z. split; [exact L1|]. split; [exact IZ|]. split; [exact EV|]. split; [exact GR|].
      intros res Q. destruct (H res Q) as (IR & GE & AG & CT). split; [exact IR|]. split; [exact GE|]. rewrite last_cons. split; [|exact CT]. pose proof (proj1 EV) as [G1 G2].
      split; [|right; split; [discriminate|]; eapply again_step; [exact AG|]; intros fuel' FU'; destruct (first_equal_keys _ _ _ _ _ _ _ FE FN) as (Ec & WC & QC); destruct (with_kept _ _ _ _ _ _ _ _ _ _ _ EV (proj1 GR) IC WC) as (A' & OA' & FA'); rewrite (equal_keys_ok _ _ _ _ _ _ _ _ _ _ _ _ _ _ fuel' L1 (proj1 (G1 c IC)) OA' FA' IA) by (pose proof (short_list _ _ _ _ _ _ _ L1 OA'); lia); rewrite QC; reflexivity].
      intros fuel' whole' disk' FU'. cbn [walk negb]. rewrite rbind_rret. cbn [negb]. destruct (G1 x IP) as (IP' & _). pose proof (withs_kept _ _ _ _ _ _ _ _ _ _ _ EV (proj1 GR) LM FE) as FE'.
      assert (CASES : owned F' x true L \/ exists t Et, owned F' x true (L ++ [t]) /\ with_attrs s' m' F' t Et). { destruct (Z.eq_dec x z) as [->|N]; [destruct (proj2 GE L OL) as [H1|(t & _ & H1 & Et & H2)]; [left; exact H1|right; eauto]|left; apply G2; auto]. }
      destruct CASES as [OL'|(t & Et & OL' & WT)].
      * rewrite (search_ok k' s' m' F' x L fuel' e U Es L1 IP' OL' IA FE' FU'), FN, rbind_ok. apply (proj1 AG), FU'.
      * rewrite (search_ok k' s' m' F' x (L ++ [t]) fuel' e U (Es ++ [Et]) L1 IP' OL' IA), (first_equal_more _ _ _ _ _ _ FN), rbind_ok; [apply (proj1 AG), FU'| |exact FU']. apply Forall2_app; [exact FE'|constructor; [exact WT|constructor]].
    + apply rbind_some in E as (nm & IN & E). apply rbind_some in E as ([t m1] & BT & E). destruct t as [t|].
      2:{ rewrite rbind_rret in E. destruct (walk_null _ _ _ _ _ _ _ E) as [-> ->]. destruct (item_name _ _ _ _ _ _ LI IE IN) as (n0 & tyr & NT & NE). rewrite <- NE in BT. destruct (null_step _ _ _ _ _ _ _ _ _ LI NT BT) as [QU L1]. exists k, s, F, x. split; [exact L1|]. split; [exact IP|]. split; [eapply quiet_grown; [exact LI|exact QU|auto]|]. split; [split; auto|]. intros res Q. discriminate. }
      apply rbind_some in E as (m2 & EA & E). apply obind_inv in EA as ([ok tr] & EA & Q). injection Q as <-. destruct (child_step _ _ _ _ _ _ _ _ _ _ _ _ IE LI IP OL IN BT EA) as (k3 & s3 & F3 & L3 & EV3 & OL3 & OA3 & NT & IT & TA & TC & _).
      pose proof EV3 as ((G3 & _) & TG3 & _). destruct (G3 x IP) as (IP3 & _). assert (NXT : x <> t) by (intros ->; auto).
      destruct (walk_new items e k3 s3 _ F3 t fuel whole r m' FI2 IE L3 (indexed_kept _ _ _ _ _ _ _ LI TG3 IX) IT TA TC E) as (k4 & s4 & F4 & L4 & EV4 & H4). exists k4, s4, F4, x. pose proof EV4 as ((G4 & G4') & _). destruct (G4 x IP3) as (IP4 & _). pose proof (G4' x true _ IP3 NXT OL3) as OL4. pose proof (evo_then _ _ _ _ _ _ _ _ _ _ _ _ _ _ EV3 EV4 NT) as EV.
      assert (GA : forall A, owned F x false A -> owned F4 x false A) by (intros A O; apply (G4' x false A IP3 NXT); apply OA3, O). assert (UN : forall L', owned F x true L' -> L' = L).
      { intros L' O. pose proof (life_whole _ _ _ _ _ _ LI) as (B & a & _ & (h & a2 & _ & _ & SH) & _). destruct O as [O|[-> O]], OL as [OL|[-> OL]]; try (exfalso; first [exact (O _ OL)|exact (OL _ O)]); [|reflexivity]. clear - O OL SH. pose proof (sh_owners _ _ SH) as ND. unfold owners in ND. clear SH. induction F as [|[o l] F IH]; [destruct O|]. cbn [flat_map fst] in ND. destruct O as [O|O], OL as [OL|OL].
        - congruence.
        - injection O as -> ->. exfalso. inversion ND as [|? ? N1 N2]; subst. apply N1. apply in_flat_map. exists (Some (x, true), L). split; [exact OL|left; reflexivity].
        - injection OL as -> ->. exfalso. inversion ND as [|? ? N1 N2]; subst. apply N1. apply in_flat_map. exists (Some (x, true), L'). split; [exact O|left; reflexivity].
        - apply IH; auto. destruct o; [inversion ND; assumption|exact ND]. }
      split; [exact L4|]. split; [exact IP|]. split; [exact EV|]. split; [split; [exact GA|]; intros L' O; rewrite (UN L' O); right; exists t; auto|].
      intros res Q. destruct (H4 res Q) as (IR & HK & AG & CT). pose proof HK as HK2. destruct HK as (A & E0 & U' & OW & FA & IA' & EU). rewrite IA in IA'. injection IA' as <-. assert (WT : with_attrs s4 m' F4 t E0) by (exists A; auto). split; [exact IR|]. split; [split; [exact GA|]; intros L' O; rewrite (UN L' O); right; exists t; eauto|].
      rewrite last_cons. split; [|right; exact CT]. destruct (G4 t IT) as (IT4 & _). split; [|right; split; [discriminate|]; eapply again_step; [exact AG|]; intros fuel' FU'; eapply has_keys_equal; eauto].
      intros fuel' whole' disk' FU'. cbn [walk negb]. rewrite rbind_rret. cbn [negb]. rewrite (search_ok k4 s4 m' F4 x (L ++ [t]) fuel' e U (Es ++ [E0]) L4 IP4 OL4 IA); [|apply Forall2_app; [exact (withs_kept _ _ _ _ _ _ _ _ _ _ _ EV GA LM FE)|constructor; [exact WT|constructor]]|exact FU'].
      rewrite (first_equal_end _ _ _ _ _ (forall2_len _ _ _ FE) FN (own_keys _ _ ND LE EU)), rbind_ok. apply (proj1 AG), FU'.
Qed.

(** ** The whole path *)
Definition found_again y items m F res : Prop :=
  (forall fuel whole disk, (List.length (members F) <= fuel)%nat -> CopyPath key fuel whole fl disk d R m (Some y) items = rret (Some res, m)) /\ keys_equal m F res (last items y).
Lemma grown_trans p k1 s1 m1 F1 k2 s2 m2 F2 k3 s3 m3 F3 : grown k1 s1 m1 F1 p k2 s2 m2 F2 -> grown k2 s2 m2 F2 p k3 s3 m3 F3 -> grown k1 s1 m1 F1 p k3 s3 m3 F3.
Proof.
  intros (A1 & A2) (B1 & B2). split.
  - intros e J. destruct (A1 e J) as (J1 & K1 & S1 & D1). destruct (B1 e J1) as (J2 & K2 & S2 & D2). split; [exact J2|]. split; [congruence|]. split; [congruence|]. eapply same_trans; [exact S1|exact D1|exact D2].
  - intros q b L J N O. destruct (A1 q J) as (J1 & _). auto.
Qed.
Lemma root_kept m m' : heads m m' -> p_root m' = p_root m.
Proof. intros [_ H]. unfold p_root, rd_s32. rewrite H. reflexivity. Qed.
Lemma root_step k s m F t m' : life k s m T P F -> In t (members F) -> p_root m = Ok 0 -> setRoot m t = Ok m' -> life k s m' T P F /\ grown k s m F t k s m' F /\ p_root m' = Ok t /\ (indexed m -> indexed m').
Proof.
  intros LI IT R0 E. pose proof (life_root _ _ _ _ _ _ _ _ LI IT E) as L1. split; [exact L1|]. pose proof (life_whole _ _ _ _ _ _ LI) as (B & a & I & EL & _). destruct (names_pool _ _ _ _ _ _ _ I) as [PO _]. destruct (inv_in _ _ _ _ _ t EL PO IT) as (T1 & T2 & T3). pose proof PO as (AL & _ & _ & _ & BB & _). pose proof EL as (h & a2 & _ & RP & _). unfold setRoot in E. rewrite R0 in E. cbn [obind Z.eqb negb] in E. rewrite (rep_off _ _ _ RP t IT) in E. cbn [obind] in E.
  apply obind_inv in E as (a' & AL' & E). assert (AA : a' = a) by congruence. subst a'. unfold HEADER in *. replace ((0 <=? t) && (t <? a)) with true in E by lia. destruct (wr_kept _ _ _ _ E) as (_ & _ & [ZL KE] & HS). change (zlen (le 4 t)) with 4 in *. split; [|split].
  - split; [|auto]. intros e J. split; [exact J|]. split; [reflexivity|]. split; [reflexivity|]. destruct (inv_in _ _ _ _ _ e EL PO J) as (? & ? & ?). unfold HEADER in *. apply rd_same_data; [lia..|]. apply KE; lia.
  - unfold p_root. unfold rd_s32. rewrite HS. cbn [obind]. f_equal. apply s32_le. destruct (pool_len _ _ PO) as [IZ _]. unfold int32 in *. lia.
  - unfold indexed, t_index, rd_s32. intro IX. rewrite !KE by (unfold TAGS, PARAMS; lia). exact IX.
Qed.
(** The element the path starts at *)
Definition starts m F x : Prop := exists r id, p_root m = Ok r /\ In r (members F) /\ el_id m r = Ok id /\ In x (members F) /\ (id <> XTNR_TRANSACTION /\ x = r \/ id = XTNR_TRANSACTION /\ el_child m r = Ok x).
Lemma member_pos k s m F e : life k s m T P F -> In e (members F) -> 0 < e.
Proof. intros LI J. pose proof (life_whole _ _ _ _ _ _ LI) as (B & a & I & EL & _). destruct (names_pool _ _ _ _ _ _ _ I) as [PO _]. destruct (inv_in _ _ _ _ _ e EL PO J) as (? & _). unfold HEADER in *. lia. Qed.
Lemma starts_again k s m F x y nm items res : rd_root R = Some y -> life k s m T P F -> starts m F x -> it_name d y = Ok nm -> 0 <= nm -> el_id m x = Ok nm -> (forall fuel, (List.length (members F) <= fuel)%nat -> EqualKeys key fuel fl d m x y = rret true) ->
  again m F y x items res -> found_again y items m F res.
Proof.
  intros RR LI (r & id & PR & IR & EI & IX & ST) IN N0 EX EQ AG. split; [|destruct AG as [_ [[-> ->]|[_ H]]]; auto]. intros fuel whole disk' FU. unfold CopyPath. rewrite RR, Z.eqb_refl. cbn [negb]. rewrite IN, rbind_ok, PR, rbind_ok. pose proof (member_pos _ _ _ _ _ LI IR). pose proof (member_pos _ _ _ _ _ LI IX). replace (r =? 0) with false by lia. cbv zeta.
  rewrite (proj2 (follow_ok k s m T P F LI r r IR IR)), rbind_ok, EI, rbind_ok. unfold XTNR_TRANSACTION in *. destruct ST as [[NE ->]|[-> EC]].
  - replace (id =? -10) with false by lia. cbn [andb]. rewrite EX in EI. injection EI as <-. rewrite ?EX, rbind_ok, Z.eqb_refl. cbn [negb]. rewrite EQ, rbind_rret by exact FU. apply (proj1 AG), FU.
  - replace (nm =? -10) with false by lia. change (-10 =? -10) with true. cbn [andb negb]. rewrite EC, rbind_ok. replace (x =? 0) with false by lia. rewrite (proj2 (follow_ok k s m T P F LI r x IR IX)), rbind_ok, EX, rbind_ok, Z.eqb_refl. cbn [negb]. rewrite EQ, rbind_rret by exact FU. apply (proj1 AG), FU.
Qed.
Lemma evo_id p k s m F k' s' m' F' e : evo p k s m F k' s' m' F' -> In e (members F) -> el_id m' e = el_id m e.
Proof. intros ((G & _) & _) J. apply (G e J). Qed.
Lemma child_of k s m F x L : life k s m T P F -> In x (members F) -> owned F x true L -> el_child m x = Ok (hd 0 L).
Proof. intros LI IX OL. pose proof (life_whole _ _ _ _ _ _ LI) as (B & a & I0 & EL & _). pose proof (inv_list _ _ _ _ _ _ _ EL IX OL) as (_ & SC & _). exact SC. Qed.
(** From an element on that is there already *)
Lemma from_old k s m F x y nm items fuel whole r m' : rd_root R = Some y -> it_name d y = Ok nm -> 0 <= nm -> item key d R T P y -> Forall (item key d R T P) items -> life k s m T P F -> indexed m -> sound s m F -> starts m F x -> (List.length (members F) <= fuel)%nat ->
  rbind (Some (el_id m x)) (fun id => if negb (id =? nm) then rret (None, m) else rbind (EqualKeys key fuel fl d m x y) (fun b => if b then walk key fuel whole fl disk d m y (Some x) false items else rret (None, m))) = rret (r, m') ->
  exists k' s' F', life k' s' m' T P F' /\ grew k s m F k' s' m' F' /\ p_root m' = p_root m /\ forall res, r = Some res -> In res (members F') /\ found_again y items m' F' res /\ (In res (members F) \/ content whole k' s' m' F' (last items y) res).
Proof.
  intros RR IN N0 IY FI LI IX SO ST FU E. pose proof ST as (r0 & id0 & PR & IR & EI & IPX & STX). assert (SAME : exists k' s' F', life k' s' m T P F' /\ grew k s m F k' s' m F' /\ p_root m = p_root m /\ forall res, None = Some res -> In res (members F') /\ found_again y items m F' res /\ (In res (members F) \/ content whole k' s' m F' (last items y) res)).
  { exists k, s, F. split; [exact LI|]. split; [|split; [reflexivity|intros; discriminate]]. exists r0. split; [apply (evo_same r0 k s m F)|]. intros _. split; auto. }
  apply rbind_some in E as (id & EX & E). destruct (Z.eqb_spec id nm) as [->|NE]; cbn [negb] in E; [|injection E as <- <-; exact SAME]. apply rbind_inv in E as (b & EQ & E). destruct b; [|injection E as <- <-; exact SAME].
  destruct (walk_old _ _ _ _ _ _ _ _ _ _ _ FI LI IX SO IPX FU E) as (k' & s' & F' & z & L1 & IZ & EV & GR & H). exists k', s', F'. split; [exact L1|]. split; [exists z; split; [exact (proj1 EV)|auto]|]. split; [apply root_kept, EV|]. intros res Q. destruct (H res Q) as (IRes & GE & AG & CT). split; [exact IRes|]. split; [|exact CT]. pose proof (proj1 (proj1 EV)) as G1.
  apply (starts_again k' s' m' F' x y nm items res RR L1); auto.
  - exists r0, id0. rewrite (root_kept _ _ (proj1 (proj2 EV))), (evo_id _ _ _ _ _ _ _ _ _ _ EV IR). split; [exact PR|]. split; [apply G1, IR|]. split; [exact EI|]. split; [apply G1, IPX|]. destruct STX as [STX|[-> EC]]; [left; exact STX|right]. split; [reflexivity|].
    destruct (owned_ex F r0 true) as [L OL]. pose proof (child_of _ _ _ _ _ _ LI IR OL) as CO. rewrite EC in CO. injection CO as CO. pose proof (member_pos _ _ _ _ _ LI IPX) as X0. assert (IR' : In r0 (members F')) by apply G1, IR. destruct (Z.eq_dec r0 z) as [->|NZ].
    + destruct (proj2 GR L OL) as [O|(t & _ & O & _)]; rewrite (child_of _ _ _ _ _ _ L1 IR' O); [congruence|]. destruct L as [|c L]; cbn [hd app] in *; [lia|congruence].
    + rewrite (child_of _ _ _ _ _ _ L1 IR' (proj2 (proj1 EV) r0 true L IR NZ OL)). congruence.
  - rewrite (evo_id _ _ _ _ _ _ _ _ _ _ EV IPX). exact EX.
  - intros fuel' FU'. destruct (all_with s m F [x] SO) as [Es FE]. inversion FE as [|? Ex ? ? WX _]; subst. pose proof (with_kept _ _ _ _ _ _ _ _ _ _ _ EV (proj1 GR) IPX WX) as (A' & OA' & FA'). destruct WX as (A & OA & FA). pose proof IY as (fr & n & ty & v & attrs & kids & U & _ & _ & _ & _ & IA & _).
    rewrite (equal_keys_ok _ _ _ _ _ _ _ _ _ _ _ _ _ _ fuel LI IPX OA FA IA) in EQ by (pose proof (short_list _ _ _ _ _ _ _ LI OA); lia). rewrite (equal_keys_ok _ _ _ _ _ _ _ _ _ _ _ _ _ _ fuel' L1 (proj1 (G1 x IPX)) OA' FA' IA) by (pose proof (short_list _ _ _ _ _ _ _ L1 OA'); lia). exact EQ.
Qed.
Lemma path_safe k s m F y items fuel whole r r0 m' : rd_root R = Some y -> item key d R T P y -> Forall (item key d R T P) items -> life k s m T P F -> indexed m -> sound s m F -> p_root m = Ok r0 -> r0 = 0 \/ In r0 (members F) -> (List.length (members F) <= fuel)%nat ->
  CopyPath key fuel whole fl disk d R m (Some y) items = rret (r, m') ->
  exists k' s' F', life k' s' m' T P F' /\ grew k s m F k' s' m' F' /\ (r0 <> 0 -> p_root m' = Ok r0) /\ forall res, r = Some res -> In res (members F') /\ found_again y items m' F' res /\ (In res (members F) \/ content whole k' s' m' F' (last items y) res).
Proof.
  intros RR IY FI LI IX SO PR IR FU E. unfold CopyPath in E. rewrite RR, Z.eqb_refl in E. cbn [negb] in E. apply rbind_some in E as (nm & IN & E). destruct (item_name _ _ _ _ _ _ LI IY IN) as (nn & tyr & NT & NE). assert (N0 : 0 <= nm) by lia. rewrite PR, rbind_ok in E. cbv zeta in E. destruct (Z.eqb_spec r0 0) as [->|NR].
  - clear IR. apply rbind_some in E as ([t m1] & BT & E). rewrite <- NE in BT. destruct (null_step _ _ _ _ _ _ _ _ _ LI NT BT) as [QU H]. destruct t as [t|].
    2:{ rewrite rbind_rret in E. destruct (walk_null _ _ _ _ _ _ _ E) as [-> ->]. exists k, s, F. split; [exact H|]. split; [|split; [intros Q; congruence|intros; discriminate]]. exists 0. split; [|intro J; pose proof (member_pos _ _ _ _ _ LI J); lia]. apply (quiet_grown k s m T P F 0 m1 k s LI QU). auto. }
    destruct H as (k1 & s1 & L1 & AG & NX & KX & EI). rewrite NE in EI. apply rbind_some in E as (m2 & SR & E). assert (PR1 : p_root m1 = Ok 0) by (rewrite (root_kept m m1 (proj2 QU)); exact PR). destruct (root_step k1 s1 m1 _ t m2 L1 (or_introl eq_refl) PR1 SR) as (L2 & G2 & PR2 & IX2). pose proof (IX2 (indexed_kept _ _ _ _ _ _ _ LI (proj2 QU) IX)) as IX3.
    destruct (walk_new items y k1 s1 m2 _ t fuel whole r m' FI IY L2 IX3 (or_introl eq_refl) (none_owned T P k s m F t false LI NX) (none_owned T P k s m F t true LI NX) E) as (k' & s' & F' & L3 & EV & H). exists k', s', F'. split; [exact L3|]. split.
    { exists t. split; [|intro J; contradiction]. eapply grown_trans; [exact (proj1 (evo_free t t k s m T P F k1 s1 m1 LI QU AG))|]. eapply grown_trans; [exact G2|exact (proj1 EV)]. }
    split; [intro Q; congruence|]. intros res Q. destruct (H res Q) as (IRes & HK & AGN & CT). split; [exact IRes|]. split; [|right; exact CT]. assert (IT : In t (members F')) by (apply (proj1 (proj1 EV)); left; reflexivity). assert (ET : el_id m' t = Ok nm) by (rewrite (evo_id _ _ _ _ _ _ _ _ _ _ EV (or_introl eq_refl)), <- EI; apply (proj1 G2); left; reflexivity).
    apply (starts_again k' s' m' F' t y nm items res RR L3); auto.
    + exists t, nm. rewrite (root_kept _ _ (proj1 (proj2 EV))). split; [exact PR2|]. split; [exact IT|]. split; [exact ET|]. split; [exact IT|]. left. unfold XTNR_TRANSACTION. split; [lia|reflexivity].
    + intros fuel' FU'. eapply has_keys_equal; eauto.
  - destruct IR as [IR|IR]; [congruence|]. rewrite (proj2 (follow_ok k s m T P F LI r0 r0 IR IR)), rbind_ok in E. apply rbind_some in E as (id & EI & E).
    assert (OLD : forall x, starts m F x -> rbind (Some (el_id m x)) (fun id => if negb (id =? nm) then rret (None, m) else rbind (EqualKeys key fuel fl d m x y) (fun b => if b then walk key fuel whole fl disk d m y (Some x) false items else rret (None, m))) = rret (r, m') ->
      exists k' s' F', life k' s' m' T P F' /\ grew k s m F k' s' m' F' /\ (r0 <> 0 -> p_root m' = Ok r0) /\ forall res, r = Some res -> In res (members F') /\ found_again y items m' F' res /\ (In res (members F) \/ content whole k' s' m' F' (last items y) res)).
    { intros x ST E2. destruct (from_old _ _ _ _ _ _ _ _ _ _ _ _ RR IN N0 IY FI LI IX SO ST FU E2) as (k' & s' & F' & H1 & H2 & H3 & H4). exists k', s', F'. split; [exact H1|]. split; [exact H2|]. split; [intros _; congruence|exact H4]. }
    destruct (Z.eqb_spec id XTNR_TRANSACTION) as [->|NTR].
    2:{ cbn [andb] in E. apply (OLD r0); [|exact E]. exists r0, id. auto 10. }
    unfold XTNR_TRANSACTION in E at 1. replace (nm =? -10) with false in E by lia. cbn [andb negb] in E. destruct (owned_ex F r0 true) as [L OL]. rewrite (child_of _ _ _ _ _ _ LI IR OL), rbind_ok in E. destruct L as [|c L]; cbn [hd] in E.
    + cbn [Z.eqb] in E. apply rbind_some in E as ([t m1] & BT & E). destruct t as [t|]; [|discriminate]. pose proof BT as BT2. rewrite <- NE in BT2. destruct (null_step _ _ _ _ _ _ _ _ _ LI NT BT2) as [QU (k1 & s1 & L1 & AG & NX & KX & _)].
      apply rbind_some in E as (o & EO & E). apply rbind_some in E as (m2 & W & E). assert (EA : add m1 r0 t = Ok (true, [m2])).
      { pose proof (life_whole _ _ _ _ _ _ L1) as (B & a & I & EL & _). pose proof EL as (h & a2 & PL & _). destruct (pl_kind _ _ _ _ _ PL t (or_introl eq_refl)) as (f & EF & KF). unfold add. rewrite EF. cbn [obind]. unfold list_field. rewrite KF, KX. assert (IR1 : In r0 (members ((None, [t]) :: F))) by (right; exact IR). pose proof (child_of _ _ _ _ _ _ L1 IR1 (owned_free t _ _ _ _ OL)) as CC. unfold el_child in CC. rewrite CC. cbn [obind hd Z.eqb]. rewrite EO. cbn [obind]. rewrite W. reflexivity. }
      destruct (child_step _ _ _ _ _ _ _ _ _ _ _ _ IY LI IR OL IN BT EA) as (k3 & s3 & F3 & L3 & EV3 & OL3 & OA3 & NT3 & IT & TA & TC & ET). change (final m1 [m2]) with m2 in *. cbn [app] in OL3. pose proof EV3 as ((G3 & _) & TG3 & _). destruct (G3 r0 IR) as (IR3 & _).
      rewrite (child_of _ _ _ _ _ _ L3 IR3 OL3), rbind_ok in E. cbn [hd] in E. rewrite (proj2 (follow_ok k3 s3 m2 T P F3 L3 r0 t IR3 IT)), rbind_ok in E. assert (NXT : r0 <> t) by (intros ->; auto).
      destruct (walk_new items y k3 s3 m2 F3 t fuel whole r m' FI IY L3 (indexed_kept _ _ _ _ _ _ _ LI TG3 IX) IT TA TC E) as (k4 & s4 & F4 & L4 & EV4 & H4). exists k4, s4, F4. pose proof EV4 as ((G4 & G4') & TG4 & _). destruct (G4 r0 IR3) as (IR4 & _). destruct (G4 t IT) as (IT4 & _). pose proof (G4' r0 true _ IR3 NXT OL3) as OL4. pose proof (evo_then _ _ _ _ _ _ _ _ _ _ _ _ _ _ EV3 EV4 NT3) as EV.
      split; [exact L4|]. split.
      { exists r0. split; [exact (proj1 EV)|]. intros _. split; [intros A O; apply (G4' r0 false A IR3 NXT); apply OA3, O|]. intros L' O. right. exists t. split; [exact NT3|]. split; [|exact I].
        assert (L' = []) as ->; [|exact OL4]. pose proof (child_of _ _ _ _ _ _ LI IR O) as C1. rewrite (child_of _ _ _ _ _ _ LI IR OL) in C1. injection C1 as C1. destruct L' as [|c L']; [reflexivity|]. cbn [hd] in C1. assert (JC : In c (members F)) by (eapply owned_members; [exact O|left; reflexivity]). pose proof (member_pos _ _ _ _ _ LI JC). lia. }
      split; [intros _; rewrite (root_kept _ _ (proj1 (proj2 EV))); exact PR|]. intros res Q. destruct (H4 res Q) as (IRes & HK & AGN & CT). split; [exact IRes|]. split; [|right; exact CT]. assert (ET4 : el_id m' t = Ok nm) by (rewrite (evo_id _ _ _ _ _ _ _ _ _ _ EV4 IT); exact ET).
      apply (starts_again k4 s4 m' F4 t y nm items res RR L4); auto; [|intros fuel' FU'; eapply has_keys_equal; eauto].
      exists r0, XTNR_TRANSACTION. rewrite (root_kept _ _ (proj1 (proj2 EV))), (evo_id _ _ _ _ _ _ _ _ _ _ EV IR). split; [exact PR|]. split; [exact IR4|]. split; [exact EI|]. split; [exact IT4|]. right. split; [reflexivity|]. rewrite (child_of _ _ _ _ _ _ L4 IR4 OL4). reflexivity.
    + assert (IC : In c (members F)) by (eapply owned_members; [exact OL|left; reflexivity]). pose proof (member_pos _ _ _ _ _ LI IC). replace (c =? 0) with false in E by lia. rewrite (proj2 (follow_ok k s m T P F LI r0 c IR IC)), rbind_ok in E. apply (OLD c); [|exact E].
      exists r0, XTNR_TRANSACTION. split; [exact PR|]. split; [exact IR|]. split; [exact EI|]. split; [exact IC|]. right. split; [reflexivity|]. rewrite (child_of _ _ _ _ _ _ LI IR OL). reflexivity.
Qed.
End Path.

(** ** Statements *)
Lemma keys_copied key fl d R T P k s m F x y ok m' : bytes d -> zlen d <= INT_MAX -> agrees d (rd_params R) P -> item key d R T P y -> life k s m T P F -> t_index m TAGS <> Ok 0 -> t_index m PARAMS <> Ok 0 -> In x (members F) -> owned F x false [] -> owned F x true [] ->
  CopyKeys key fl d m x y = Ok (ok, m') ->
  exists k' s' F', life k' s' m' T P F' /\ grown k s m F x k' s' m' F' /\ (ok = true -> (exists A U, owned F' x false A /\ item_attrs d y = Ok U /\ Forall2 (attr_at s' m') A (keyed key U)) /\
    forall fuel, (List.length (members F') <= fuel)%nat -> EqualKeys key fuel fl d m' x y = rret true).
Proof.
  intros BD ZD AP IT LI I1 I2 IX OA OL E. destruct (copy_keys_safe key fl d R T P BD ZD AP k s m F x y ok m' IT LI (conj I1 I2) IX OA OL E) as (k' & s' & F' & L1 & EV & _ & H). exists k', s', F'. split; [exact L1|]. split; [exact (proj1 EV)|]. intros ->. destruct H as [H|[_ H]]; [discriminate|]. split; [exact H|]. intros fuel FU.
  eapply (has_keys_equal key fl d R T P k' s' m' F'); eauto; [apply (proj1 EV), IX|apply only_keys, H].
Qed.
Lemma path_copied key fl disk d R T P k s m F y items fuel whole r r0 m' : bytes d -> zlen d <= INT_MAX -> agrees d (rd_tags R) T -> agrees d (rd_params R) P -> rd_root R = Some y -> item key d R T P y -> Forall (item key d R T P) items ->
  life k s m T P F -> t_index m TAGS <> Ok 0 -> t_index m PARAMS <> Ok 0 -> sound s m F -> p_root m = Ok r0 -> r0 = 0 \/ In r0 (members F) -> (List.length (members F) <= fuel)%nat -> CopyPath key fuel whole fl disk d R m (Some y) items = rret (r, m') ->
  exists k' s' F', life k' s' m' T P F' /\ grew k s m F k' s' m' F' /\ (r0 <> 0 -> p_root m' = Ok r0) /\
  forall res, r = Some res -> In res (members F') /\ (In res (members F) \/ whole = false \/ part_of d R T P k' s' m' F' (last items y) res) /\
    forall fuel', (List.length (members F') <= fuel')%nat -> EqualKeys key fuel' fl d m' res (last items y) = rret true /\ forall whole' disk', CopyPath key fuel' whole' fl disk' d R m' (Some y) items = rret (Some res, m').
Proof.
  intros BD ZD AT AP RR IY FI LI I1 I2 SO PR IR FU E. destruct (path_safe key fl disk d R T P BD ZD AT AP k s m F y items fuel whole r r0 m' RR IY FI LI (conj I1 I2) SO PR IR FU E) as (k' & s' & F' & H1 & H2 & H3 & H4). exists k', s', F'. split; [exact H1|]. split; [exact H2|]. split; [exact H3|].
  intros res Q. destruct (H4 res Q) as (J & [AG EQ] & CT). split; [exact J|]. split; [|intros fuel' FU'; split; [apply EQ, FU'|intros; apply AG, FU']]. destruct CT as [CT|CT]; [left; exact CT|right]. destruct whole; [right; apply CT; reflexivity|left; reflexivity].
Qed.
(** More than 16 keys *)
Lemma many_keys fl key k s m T P F x A E d y U fuel : life k s m T P F -> In x (members F) -> owned F x false A -> Forall2 (attr_at s m) A E -> item_attrs d y = Ok U -> NoDup (map attr_id (keyed key E)) -> comparable (keyed key U) (keyed key E) ->
  (List.length A <= fuel)%nat -> 16 < zlen (keyed key U) -> EqualKeys key fuel fl d m x y = rret false.
Proof.
  intros LI IX OW FA IA ND CM FU LT. destruct (keys_compared fl _ _ _ _ _ _ _ _ _ _ _ _ _ _ LI IX OW FA IA ND CM FU) as (b & EQ & H). rewrite EQ. destruct b; [|reflexivity]. destruct (proj1 H eq_refl). lia.
Qed.
