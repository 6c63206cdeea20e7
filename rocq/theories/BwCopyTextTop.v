(** Copying a document into a pool with other types: whole subtrees. *)
From Verif Require Import Base BaseFacts Types Scan ScanProofs ListFacts SizeProofs Sort Xb XbSpec XbFacts XbWrite WriteProofs XbBin BinSpec Bw BwFacts BwRing BwSpec BwHist BwAlloc BwProofs BwRead BwTop BwSym BwReg BwFileSpec BwFileProofs BwNamesSpec BwNamesFacts BwNamesInv BwNamesReg BwNamesOps BwNamesIndex BwNamesProofs BwLifeSpec BwLife BwOnly JsonSource BwSet BwNamesTop BwAttr BwAttrSpec BwAttrProofs BwAttrTop BwTag BwTagSpec BwTagProofs BwTagTop BwSourceSpec BwCopy BwCopySpec BwCopyProofs BwCopyTop BwCopyRoom BwCopyTextSpec BwCopyText.

Lemma sub_app {A B} (R : A -> B -> Prop) a b l l' : sub R a [b] -> sub R l l' -> sub R (a ++ l) (b :: l').
Proof. intros S1 S2. inversion S1 as [|x y q q' H S|y q q' S]; subst; inversion S; subst; cbn [app]; [apply sub_keep; assumption|apply sub_drop; assumption]. Qed.

Section Copy.
Variables (fl : floats) (disk : bool) (d : list Z) (R : reader) (T P : names).
Hypothesis bytes_d : bytes d.
Hypothesis short_d : zlen d <= INT_MAX.
Hypothesis tags_agree : agrees d (rd_tags R) T.
Hypothesis params_agree : agrees d (rd_params R) P.

Lemma attrs_text y p : (forall i q id, getParamByIndex d (Some y) i = Ok (Some q) -> pd_name d q = Ok id -> 0 <= id < sy_count (rd_params R)) ->
  forall n i attrs k s m F A ok m', read_bin_attrs n d R y i = Ok attrs -> (forall n ty v, In (n, ty, v) attrs -> holdable ty v /\ no_date P n ty) -> life k s m T P F -> In p (members F) -> owned F p false A -> indexed m ->
  copy_attrs n fl d m p y i = Ok (ok, m') ->
  exists k' s' F', life k' s' m' T P F' /\ evo p k s m F k' s' m' F' /\ (forall L, owned F p true L -> owned F' p true L) /\
  (ok = false \/ ok = true /\ exists A2 attrs', owned F' p false (A ++ A2) /\ Forall2 (attr_says k' s' m' P) A2 attrs' /\ Forall2 (reads_as fl P) (map attr_doc attrs') attrs).
Proof.
  intros NM. induction n as [|n IH]; intros i attrs k s m F A ok m' RA CO LI IP OW IX E.
  - cbn in RA, E. injection RA as <-. injection E as <- <-. exists k, s, F. split; [exact LI|]. split; [apply evo_same|]. split; [auto|]. right. split; [reflexivity|]. exists [], []. rewrite app_nil_r. split; [exact OW|]. split; [constructor|constructor].
  - cbn [read_bin_attrs copy_attrs] in RA, E. apply obind_inv in RA as (q & GP & RA). rewrite GP in E. cbn [obind] in E. destruct q as [q|]; [|discriminate]. apply obind_inv in RA as (id & PN & RA). apply obind_inv in RA as (nm & SY & RA). apply obind_inv in RA as ([ty v] & DR & RA). apply obind_inv in RA as (rest & RR & RA). injection RA as <-.
    apply obind_inv in DR as (r & GD & RD). apply obind_inv in E as ([res m1] & AC & E). unfold attrCopy in AC. rewrite GD in AC. cbn [obind] in AC. rewrite PN in AC. cbn [obind] in AC. pose proof (NM _ _ _ GP PN) as IR. destruct (params_agree id nm IR SY) as (tyr & NU & NT). destruct (param_ref _ _ _ _ GD) as (pp & RO).
    destruct (CO nm ty v (or_introl eq_refl)) as [HO TX]. replace id with (Z.of_nat (Z.to_nat id)) in AC by lia.
    destruct (attr_text _ _ _ _ _ _ _ _ _ _ _ _ _ _ _ _ _ _ _ LI IP OW (proj2 IX) NT NU bytes_d short_d RO RD HO TX AC) as (ty2 & v2 & (k1 & s1 & F1 & L1 & EV1 & OK1 & H1) & RA2). destruct H1 as [->|(-> & x & v' & OX & AX & VB)].
    { injection E as <- <-. exists k1, s1, F1. split; [exact L1|]. split; [exact EV1|]. split; [exact OK1|]. left. reflexivity. }
    destruct RA2 as [RA2|RA2]; [discriminate RA2|].
    pose proof EV1 as ((G1 & _) & TG1 & _). destruct (G1 p IP) as (IP1 & _). destruct (IH (i + 1) rest k1 s1 m1 F1 (A ++ [x]) ok m' RR (fun n0 ty0 v0 J => CO n0 ty0 v0 (or_intror J)) L1 IP1 OX (indexed_kept _ _ _ _ _ _ _ LI TG1 IX) E) as (k2 & s2 & F2 & L2 & EV2 & OK2 & H2).
    exists k2, s2, F2. split; [exact L2|]. split; [eapply evo_trans; eauto|]. split; [auto|]. destruct H2 as [->|(-> & A2 & attrs' & O2 & FA & MA)]; [left; reflexivity|right]. split; [reflexivity|]. exists (x :: A2), ((nm, ty2, v') :: attrs'). rewrite <- app_assoc in O2. split; [exact O2|]. split.
    + constructor; [|exact FA]. destruct EV2 as ((G2 & _) & _). assert (IX1 : In x (members F1)) by (eapply owned_members; [exact OX|apply in_or_app; right; left; reflexivity]). destruct (G2 x IX1) as (_ & K & S & D). eapply attr_kept; eauto.
    + cbn [map attr_doc]. rewrite VB. constructor; assumption.
Qed.

(** What a copy comes to *)
Definition copied_text k s m F p r m' attrs kids : Prop :=
  exists attrs2 kids2, (r = None \/ Forall2 (reads_as fl P) attrs2 attrs /\ sub (taken fl T P) kids2 kids) /\ copied T P (r = None) k s m F p r m' attrs2 kids2.
Lemma kids_text k' fr p y : (forall i c, getChildByIndex d (Some y) i = Ok (Some c) -> named d R c) ->
  (forall y n ty v attrs kids k s m F e r m', read_bin_node fr d R y = rret (BNode n ty v attrs kids) -> named d R y -> (forall u, In u (belements (BNode n ty v attrs kids)) -> can_hold T P u) ->
     life k s m T P F -> In e (members F) -> owned F e false [] -> owned F e true [] -> indexed m -> CopyAll k' fl disk d m (Some e) y = rret (r, m') -> copied_text k s m F e r m' attrs kids) ->
  forall n i ks k s m F L0 m', read_kids (read_bin_node fr d R) d y n i = rret ks -> (forall u, In u (flat_map belements ks) -> can_hold T P u) -> life k s m T P F -> In p (members F) -> owned F p true L0 -> indexed m ->
  copy_kids (CopyAll k' fl disk d) fl disk d p y n i m = rret m' ->
  exists k' s' F', life k' s' m' T P F' /\ evo p k s m F k' s' m' F' /\ (forall A, owned F p false A -> owned F' p false A) /\
  exists L ks', owned F' p true (L0 ++ L) /\ Forall2 (tree_q (fun e => ~ In e (members F)) k' s' m' T P F') L ks' /\ sub (taken fl T P) (map doc_of ks') ks.
Proof.
  intros NC REC. induction n as [|n IH]; intros i ks k s m F L0 m' RK CO LI IP OW IX E.
  - cbn in RK, E. injection RK as <-. injection E as <-. exists k, s, F. split; [exact LI|]. split; [apply evo_same|]. split; [auto|]. exists [], []. rewrite app_nil_r. split; [exact OW|]. split; constructor.
  - cbn [read_kids copy_kids] in RK, E. fold (read_kids (read_bin_node fr d R) d y) in RK. fold (copy_kids (CopyAll k' fl disk d) fl disk d p y) in E. apply rbind_some in RK as (c & GC & RK). rewrite GC, rbind_Ok in E. destruct c as [c|]; [|discriminate].
    apply rbind_inv in RK as (t & RT & RK). apply rbind_inv in RK as (rest & RR & RK). injection RK as <-. destruct t as [nm ty v attrs kids]. pose proof (NC _ _ GC) as NDC. destruct fr as [|fr]; [discriminate|]. destruct (node_data _ _ _ _ _ _ _ _ _ RT) as (id & pc & cc & r & IN & SY & _ & _ & _ & GD & RD & _).
    rewrite GD, rbind_Ok, IN, rbind_Ok in E. apply rbind_some in E as ([e m1] & TD & E). apply rbind_inv in E as ([r2 m2] & CA & E). apply rbind_inv in E as (m3 & AD & E).
    inversion NDC as [c' NM1 NM2 NM3 EQ]; subst c'. pose proof (NM1 _ IN) as IR. destruct (tags_agree id nm IR SY) as (tyr & NU & NT). destruct (item_ref _ _ _ GD) as (pp & RO).
    assert (CO1 : forall u, In u (belements (BNode nm ty v attrs kids)) -> can_hold T P u) by (intros u J; apply CO; cbn [flat_map]; apply in_or_app; left; exact J).
    destruct (CO1 _ (or_introl eq_refl)) as (HO & TX & _). replace id with (Z.of_nat (Z.to_nat id)) in TD by lia.
    destruct (tag_text _ _ _ _ _ _ _ _ _ _ _ _ _ _ _ _ _ _ LI (proj1 IX) NT NU bytes_d short_d RO RD HO TX TD) as (ty2 & v2 & TR & RA2).
    assert (ST : exists k3 s3 F3, life k3 s3 m3 T P F3 /\ evo p k s m F k3 s3 m3 F3 /\ (forall A, owned F p false A -> owned F3 p false A) /\
      exists L1 ks1, owned F3 p true (L0 ++ L1) /\ Forall2 (tree_q (fun e => ~ In e (members F)) k3 s3 m3 T P F3) L1 ks1 /\ sub (taken fl T P) (map doc_of ks1) [BNode nm ty v attrs kids]).
    { destruct e as [e|].
      - destruct RA2 as [RA2|RA2]; [discriminate RA2|].
        destruct TR as ((QU & TG) & k1 & s1 & v' & L1 & AG & NX & KX & EI & SA & VB).
        destruct (REC c nm ty v attrs kids k1 s1 m1 _ e r2 m2 RT NDC CO1 L1 (or_introl eq_refl)) as (attrs2 & kids2 & RD2 & CP); [eapply none_owned; eauto..|exact (indexed_kept _ _ _ _ _ _ _ LI TG IX)|exact CA|].
        destruct (kid_made T P (r2 = None) (Z.to_nat id) k s m F p L0 e m1 nm ty2 v2 r2 m2 attrs2 kids2 m3 k1 s1 v' LI IP OW (conj QU TG) L1 AG NX KX EI SA VB CP AD) as (k3 & s3 & F3 & L3 & EV & OA & H).
        exists k3, s3, F3. split; [exact L3|]. split; [exact EV|]. split; [exact OA|]. destruct H as [(_ & _ & O3)|(ER & O3 & t' & TQ & _ & [PR|PR])].
        + exists [], []. rewrite app_nil_r. split; [exact O3|]. split; [constructor|]. apply sub_drop. constructor.
        + congruence.
        + destruct RD2 as [RD2|[RD2 RD3]]; [congruence|]. exists [e], [t']. split; [exact O3|]. split; [constructor; [exact TQ|constructor]|]. cbn [map]. rewrite PR. apply sub_keep; [|constructor]. constructor; assumption.
      - destruct k'; [discriminate|]. injection CA as <- <-. injection AD as <-. destruct TR as [QU L1]. exists k, s, F. split; [exact L1|]. split; [eapply quiet_grown; eauto|]. split; [auto|]. exists [], []. rewrite app_nil_r. split; [exact OW|]. split; [constructor|]. apply sub_drop. constructor. }
    destruct ST as (k3 & s3 & F3 & L3 & EV & OA & L1 & ks1 & O3 & FT & SU). pose proof EV as ((G1 & _) & TG & _). destruct (G1 p IP) as (IP3 & _).
    destruct (IH (i + 1) rest k3 s3 m3 F3 (L0 ++ L1) m' RR) as (k4 & s4 & F4 & L4 & EV4 & OA4 & L2 & ks2 & O4 & FT4 & SU4); [intros u J; apply CO; cbn [flat_map]; apply in_or_app; right; exact J|exact L3|exact IP3|exact O3|exact (indexed_kept _ _ _ _ _ _ _ LI TG IX)|exact E|].
    exists k4, s4, F4. split; [exact L4|]. split; [eapply evo_trans; eauto|]. split; [auto|]. exists (L1 ++ L2), (ks1 ++ ks2). rewrite app_assoc. split; [exact O4|]. split.
    + apply Forall2_app.
      * apply (trees_kept (fun e0 => ~ In e0 (members F)) (fun e0 => ~ In e0 (members F)) p k3 s3 m3 T P F3); [exact EV4| |exact FT]. intros q NQ. split; [intros ->; auto|exact NQ].
      * apply (trees_kept (fun e0 => ~ In e0 (members F3)) (fun e0 => ~ In e0 (members F)) p k4 s4 m' T P F4); [apply evo_same| |exact FT4]. intros q NQ. split; [intros ->; auto|]. intro J. apply NQ. apply (G1 q J).
    + rewrite map_app. apply sub_app; assumption.
Qed.
Lemma copy_text : forall fuel fr y n ty v attrs kids k s m F e r m', read_bin_node fr d R y = rret (BNode n ty v attrs kids) -> named d R y -> (forall u, In u (belements (BNode n ty v attrs kids)) -> can_hold T P u) ->
  life k s m T P F -> In e (members F) -> owned F e false [] -> owned F e true [] -> indexed m -> CopyAll fuel fl disk d m (Some e) y = rret (r, m') -> copied_text k s m F e r m' attrs kids.
Proof.
  induction fuel as [|fuel IH]; intros fr y n ty v attrs kids k s m F p r m' RN ND CO LI IP OA OL IX E; [discriminate|].
  destruct fr as [|fr]; [discriminate|]. destruct (node_data _ _ _ _ _ _ _ _ _ RN) as (id & pc & cc & rr & IN & SY & PC & CC & RA & GD & RD & RK). inversion ND as [y' NM1 NM2 NM3 EQ]; subst y'.
  assert (SAME : copied_text k s m F p None m attrs kids) by (exists [], []; split; [left; reflexivity|]; exists k, s, F; split; [exact LI|]; split; [apply evo_same|left; auto]).
  rewrite CopyAll_S in E. apply rbind_some in E as (ch & _ & E). destruct (negb (ch =? 0)) in E; [injection E as <- <-; exact SAME|]. apply rbind_some in E as (at0 & _ & E). destruct (negb (at0 =? 0)) in E; [injection E as <- <-; exact SAME|].
  apply rbind_some in E as (eid & _ & E). rewrite IN, rbind_Ok in E. destruct (negb (eid =? id)) in E; [injection E as <- <-; exact SAME|]. rewrite PC, rbind_Ok in E. apply rbind_some in E as ([ok m1] & CA & E).
  destruct (CO _ (or_introl eq_refl)) as (_ & _ & COA). destruct (attrs_text y p NM2 (Z.to_nat pc) 0 attrs k s m F [] ok m1 RA COA LI IP OA IX CA) as (k1 & s1 & F1 & L1 & EV1 & OK1 & H1). pose proof EV1 as ((G1 & _) & TG & _). destruct (G1 p IP) as (IP1 & _).
  destruct H1 as [->|(-> & A2 & attrs' & O1 & FA & MA)]; cbn [negb] in E.
  { injection E as <- <-. exists [], []. split; [left; reflexivity|]. exists k1, s1, F1. split; [exact L1|]. split; [exact EV1|]. left. auto. }
  rewrite CC, rbind_Ok in E. apply rbind_inv in E as (m2 & CK & E). injection E as <- <-.
  destruct (kids_text fuel fr p y NM3 (IH fr) (Z.to_nat cc) 0 kids k1 s1 m1 F1 [] m2 RK) as (k2 & s2 & F2 & L2 & EV2 & OK2 & L & ks & O2 & FT & SU); auto.
  { intros u J. apply CO. right. exact J. } { exact (indexed_kept _ _ _ _ _ _ _ LI TG IX). }
  exists (map attr_doc attrs'), (map doc_of ks). split; [right; auto|].
  exists k2, s2, F2. split; [exact L2|]. split; [eapply evo_trans; eauto|]. right. split; [reflexivity|]. exists A2, L, attrs', ks. split; [apply OK2; exact O1|]. split; [exact O2|]. split.
  { apply (attrs_kept p k1 s1 m1 F1 k2 s2 m2 F2); [exact EV2|intros x J; exact (owned_members _ _ _ _ _ O1 J)|exact FA]. }
  split; [|split; [reflexivity|split; [apply sub_all|right; reflexivity]]].
  apply (trees_kept (fun e0 => ~ In e0 (members F1)) (fun e0 => ~ In e0 (members F)) p k2 s2 m2 T P F2); [apply evo_same| |exact FT]. intros q NQ. split; [intros ->; auto|]. intro J. apply NQ. apply (G1 q J).
Qed.
End Copy.

Theorem copy_reads fl disk d R T P k s m F p fr fuel y n ty v attrs kids r m' : life k s m T P F -> t_index m TAGS <> Ok 0 -> t_index m PARAMS <> Ok 0 -> In p (members F) -> owned F p false [] -> owned F p true [] ->
  bytes d -> zlen d <= INT_MAX -> agrees d (rd_tags R) T -> agrees d (rd_params R) P -> named d R y -> read_bin_node fr d R y = rret (BNode n ty v attrs kids) -> (forall u, In u (belements (BNode n ty v attrs kids)) -> can_hold T P u) ->
  CopyAll fuel fl disk d m (Some p) y = rret (r, m') ->
  exists k' s' F', life k' s' m' T P F' /\ grown k s m F p k' s' m' F' /\
    (r = None \/ r = Some p /\ exists attrs' kids', Forall2 (reads_as fl P) attrs' attrs /\ sub (taken fl T P) kids' kids /\ holds k' s' m' T P F' p attrs' kids').
Proof.
  intros LI I1 I2 IP OA OL BD ZD AT AP ND RN CO E. destruct (copy_text fl disk d R T P BD ZD AT AP fuel fr y n ty v attrs kids k s m F p r m' RN ND CO LI IP OA OL (conj I1 I2) E) as (attrs2 & kids2 & RD2 & k' & s' & F' & L' & (G & _) & H).
  exists k', s', F'. split; [exact L'|]. split; [exact G|]. destruct H as [[-> _]|[-> H]]; [left; reflexivity|right]. split; [reflexivity|]. destruct RD2 as [RD2|[RD2 RD3]]; [discriminate RD2|]. destruct (holds_of _ _ _ _ _ _ _ _ _ _ _ H) as (kids' & _ & [Q| ->] & HO); [discriminate Q|]. eauto 6.
Qed.
