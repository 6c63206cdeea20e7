(** Copying a document into a pool: whole subtrees. *)
From Verif Require Import Base BaseFacts Types ListFacts SizeProofs Sort Xb XbSpec XbFacts XbWrite WriteProofs XbBin BinSpec Bw BwFacts BwRing BwSpec BwHist BwAlloc BwProofs BwRead BwTop BwSym BwReg BwFileSpec BwFileProofs BwNamesSpec BwNamesFacts BwNamesInv BwNamesReg BwNamesOps BwNamesIndex BwNamesProofs BwLifeSpec BwLife BwOnly JsonSource BwSet BwNamesTop BwAttr BwAttrSpec BwAttrProofs BwAttrTop BwTag BwTagSpec BwTagProofs BwTagTop BwSourceSpec BwCopy BwCopySpec BwCopyProofs.

(** ** Trees in one part of the pool *)
Inductive tree_q (Q : Z -> Prop) (k : Z -> bool) (s : Z -> Z) m (T P : names) (F : forest) : Z -> bnode -> Prop :=
| tree_q_here x A L name ty v attrs kids : Q x -> In x (members F) -> k x = true -> says s m T x name ty v -> owned F x false A -> owned F x true L ->
    Forall2 (attr_says k s m P) A attrs -> Forall2 (tree_q Q k s m T P F) L kids -> tree_q Q k s m T P F x (BNode name ty v attrs kids).
Lemma tree_q_at Q k s m T P F : forall t x, tree_q Q k s m T P F x t -> tree_at k s m T P F x t.
Proof.
  fix IH 1. intros t x H. destruct t as [n ty v attrs kids]. inversion H as [x' A L n' ty' v' attrs' kids' QX IX KX SX OA OL FA FL]; subst. econstructor; eauto. clear - IH FL. revert kids L FL. fix IHl 1. intros kids L FL. destruct kids as [|t kids]; inversion FL; subst; [constructor|]. constructor; [apply IH; assumption|apply IHl; assumption].
Qed.
Lemma owned_members F p b L e : owned F p b L -> In e L -> In e (members F).
Proof. intros [O|[-> _]] J; [|destruct J]. apply in_flat_map. exists (Some (p, b), L). split; [exact O|exact J]. Qed.
Lemma says_kept s s' m m' L x n ty v : s' x = s x -> same_data s m m' x -> says s m L x n ty v -> says s' m' L x n ty v.
Proof. intros SX (D1 & D2 & D3) (i & ty' & E1 & E2 & E3 & E4 & E5). exists i, ty'. rewrite D1, D2, SX, D3. auto. Qed.
Lemma attr_kept k s m k' s' m' P a d : k' a = k a -> s' a = s a -> same_data s m m' a -> attr_says k s m P a d -> attr_says k' s' m' P a d.
Proof. destruct d as [[n ty] v]. intros K S D [H1 H2]. split; [congruence|]. eapply says_kept; eauto. Qed.
Lemma attrs_kept p k s m F k' s' m' F' P A attrs : evo p k s m F k' s' m' F' -> (forall e, In e A -> In e (members F)) -> Forall2 (attr_says k s m P) A attrs -> Forall2 (attr_says k' s' m' P) A attrs.
Proof.
  intros ((G1 & _) & _) IN FA. induction FA as [|a d A attrs H _ IH]; [constructor|]. constructor; [|apply IH; intros; apply IN; right; assumption]. destruct (G1 a (IN a (or_introl eq_refl))) as (_ & K & S & D). eapply attr_kept; eauto.
Qed.
Lemma tree_kept (Q Q' : Z -> Prop) p k s m T P F k' s' m' F' : evo p k s m F k' s' m' F' -> (forall q, Q q -> q <> p /\ Q' q) -> forall t x, tree_q Q k s m T P F x t -> tree_q Q' k' s' m' T P F' x t.
Proof.
  intros EV NQ. fix IH 1. intros t x H. destruct t as [n ty v attrs kids]. inversion H as [x' A L n' ty' v' attrs' kids' QX IX KX SX OA OL FA FL]; subst. pose proof EV as ((G1 & G2) & _). destruct (G1 x IX) as (J & K & S & D). destruct (NQ x QX) as [NP QX'].
  apply (tree_q_here _ _ _ _ _ _ _ x A L); auto; [congruence|eapply says_kept; eauto|apply (attrs_kept p k s m F k' s' m' F'); auto; intros e J1; exact (owned_members _ _ _ _ _ OA J1)|].
  clear - IH FL. revert kids L FL. fix IHl 1. intros kids L FL. destruct kids as [|t kids]; inversion FL; subst; [constructor|]. constructor; [apply IH; assumption|apply IHl; assumption].
Qed.
Lemma trees_kept (Q Q' : Z -> Prop) p k s m T P F k' s' m' F' L ts : evo p k s m F k' s' m' F' -> (forall q, Q q -> q <> p /\ Q' q) -> Forall2 (tree_q Q k s m T P F) L ts -> Forall2 (tree_q Q' k' s' m' T P F') L ts.
Proof. intros EV NQ H. induction H; constructor; auto. eapply tree_kept; eauto. Qed.

(** ** The loops *)
Definition read_kids (rec : Z -> run bnode) d y := fix children (n : nat) (i : Z) : run (list bnode) :=
  match n with
  | O => rret []
  | S n' => rbind (Some (getChildByIndex d (Some y) i)) (fun c => match c with None => Some Fail | Some c => rbind (rec c) (fun t => rbind (children n' (i + 1)) (fun l => rret (t :: l))) end)
  end.
Lemma read_bin_node_S k d R y : read_bin_node (S k) d R y =
      rbind (Some (obind (it_name d y) (fun id => getSymbol d (rd_tags R) id))) (fun name =>
      rbind (Some (it_paramcount d y)) (fun pc => rbind (Some (it_childcount d y)) (fun cc =>
      rbind (Some (read_bin_attrs (Z.to_nat pc) d R y 0)) (fun attrs =>
      rbind (Some (obind (getData d (Some y)) (read_data d))) (fun '(ty, bs) =>
      rbind (read_kids (read_bin_node k d R) d y (Z.to_nat cc) 0) (fun kids => rret (BNode name ty bs attrs kids))))))).
Proof. reflexivity. Qed.
Definition copy_kids (rec : list Z -> option Z -> Z -> run (option Z * list Z)) fl disk d x y := fix children (n : nat) (i : Z) m : run (list Z) :=
  match n with
  | O => rret m
  | S n' => rbind (Some (getChildByIndex d (Some y) i)) (fun c => match c with
      | None => Some Ub
      | Some c => rbind (Some (getData d (Some c))) (fun r => rbind (Some (it_name d c)) (fun nm => rbind (Some (tagData fl disk d m nm r)) (fun '(e, m) =>
          rbind (rec m e c) (fun '(e, m) =>
          rbind (match e with None => rret m | Some e => Some (obind (add m x e) (fun '(_, tr) => Ok (final m tr))) end) (fun m => children n' (i + 1) m)))))
      end)
  end.
Lemma CopyAll_S k fl disk d m x y : CopyAll (S k) fl disk d m (Some x) y =
        rbind (Some (el_child m x)) (fun c => if negb (c =? 0) then rret (None, m) else
        rbind (Some (el_attr m x)) (fun a => if negb (a =? 0) then rret (None, m) else
        rbind (Some (el_id m x)) (fun id => rbind (Some (it_name d y)) (fun nm => if negb (id =? nm) then rret (None, m) else
        rbind (Some (it_paramcount d y)) (fun pc => rbind (Some (copy_attrs (Z.to_nat pc) fl d m x y 0)) (fun '(ok, m) => if negb ok then rret (None, m) else
        rbind (Some (it_childcount d y)) (fun cc =>
        rbind (copy_kids (CopyAll k fl disk d) fl disk d x y (Z.to_nat cc) 0 m) (fun m => rret (Some x, m))))))))).
Proof. reflexivity. Qed.
Lemma rbind_inv {A B} (a : run A) (f : A -> run B) b : rbind a f = rret b -> exists v, a = rret v /\ f v = rret b.
Proof. unfold rbind, rret. destruct a as [[v| |]|]; try discriminate. intro E. exists v. auto. Qed.
Lemma rbind_some {A B} (a : outcome A) (f : A -> run B) b : rbind (Some a) f = rret b -> exists v, a = Ok v /\ f v = rret b.
Proof. intro E. apply rbind_inv in E as (v & E1 & E2). injection E1 as ->. eauto. Qed.

Section Copy.
Variables (fl : floats) (disk : bool) (d : list Z) (R : reader) (T P : names).
Hypothesis bytes_d : bytes d.
Hypothesis short_d : zlen d <= INT_MAX.
Hypothesis tags_agree : agrees d (rd_tags R) T.
Hypothesis params_agree : agrees d (rd_params R) P.

Definition indexed m : Prop := t_index m TAGS <> Ok 0 /\ t_index m PARAMS <> Ok 0.
Lemma indexed_kept k s m F m' : life k s m T P F -> heads m m' -> indexed m -> indexed m'.
Proof. intros LI [TG _] [I1 I2]. destruct (pool_short _ _ _ _ _ _ LI) as [ZL _]. split; unfold t_index, rd_s32 in *; rewrite (rd_within m m' TAGS 32) by (auto; unfold TAGS, PARAMS; lia); assumption. Qed.

Lemma attrs_safe y p : (forall i q id, getParamByIndex d (Some y) i = Ok (Some q) -> pd_name d q = Ok id -> 0 <= id < sy_count (rd_params R)) ->
  forall n i attrs k s m F A ok m', read_bin_attrs n d R y i = Ok attrs -> (forall n ty v, In (n, ty, v) attrs -> holdable ty v /\ text_name P n ty) -> life k s m T P F -> In p (members F) -> owned F p false A -> indexed m ->
  copy_attrs n fl d m p y i = Ok (ok, m') ->
  exists k' s' F', life k' s' m' T P F' /\ evo p k s m F k' s' m' F' /\ (forall L, owned F p true L -> owned F' p true L) /\
  (ok = false \/ ok = true /\ exists A2 attrs', owned F' p false (A ++ A2) /\ Forall2 (attr_says k' s' m' P) A2 attrs' /\ map attr_doc attrs' = attrs).
Proof.
  intros NM. induction n as [|n IH]; intros i attrs k s m F A ok m' RA CO LI IP OW IX E.
  - cbn in RA, E. injection RA as <-. injection E as <- <-. exists k, s, F. split; [exact LI|]. split; [apply evo_same|]. split; [auto|]. right. split; [reflexivity|]. exists [], []. rewrite app_nil_r. split; [exact OW|]. split; [constructor|reflexivity].
  - cbn [read_bin_attrs copy_attrs] in RA, E. apply obind_inv in RA as (q & GP & RA). rewrite GP in E. cbn [obind] in E. destruct q as [q|]; [|discriminate]. apply obind_inv in RA as (id & PN & RA). apply obind_inv in RA as (nm & SY & RA). apply obind_inv in RA as ([ty v] & DR & RA). apply obind_inv in RA as (rest & RR & RA). injection RA as <-.
    apply obind_inv in DR as (r & GD & RD). apply obind_inv in E as ([res m1] & AC & E). unfold attrCopy in AC. rewrite GD in AC. cbn [obind] in AC. rewrite PN in AC. cbn [obind] in AC. pose proof (NM _ _ _ GP PN) as IR. destruct (params_agree id nm IR SY) as (tyr & NU & NT). destruct (param_ref _ _ _ _ GD) as (pp & RO).
    destruct (CO nm ty v (or_introl eq_refl)) as [HO TX]. replace id with (Z.of_nat (Z.to_nat id)) in AC by lia. assert (TX' : ty = XBT_STRING -> tyr = XBT_STRING) by (intro Q; apply (TX Q); eapply nth_error_In; eauto).
    destruct (attr_step _ _ _ _ _ _ _ _ _ _ _ _ _ _ _ _ _ _ _ LI IP OW (proj2 IX) NT NU bytes_d short_d RO RD HO TX' AC) as (k1 & s1 & F1 & L1 & EV1 & OK1 & H1). destruct H1 as [->|(-> & x & v' & OX & AX & VB)].
    { injection E as <- <-. exists k1, s1, F1. split; [exact L1|]. split; [exact EV1|]. split; [exact OK1|]. left. reflexivity. }
    pose proof EV1 as ((G1 & _) & TG1 & _). destruct (G1 p IP) as (IP1 & _). destruct (IH (i + 1) rest k1 s1 m1 F1 (A ++ [x]) ok m' RR (fun n0 ty0 v0 J => CO n0 ty0 v0 (or_intror J)) L1 IP1 OX (indexed_kept _ _ _ _ _ LI TG1 IX) E) as (k2 & s2 & F2 & L2 & EV2 & OK2 & H2).
    exists k2, s2, F2. split; [exact L2|]. split; [eapply evo_trans; eauto|]. split; [auto|]. destruct H2 as [->|(-> & A2 & attrs' & O2 & FA & MA)]; [left; reflexivity|right]. split; [reflexivity|]. exists (x :: A2), ((nm, ty, v') :: attrs'). rewrite <- app_assoc in O2. split; [exact O2|]. split.
    + constructor; [|exact FA]. destruct EV2 as ((G2 & _) & _). assert (IX1 : In x (members F1)) by (eapply owned_members; [exact OX|apply in_or_app; right; left; reflexivity]). destruct (G2 x IX1) as (_ & K & S & D). eapply attr_kept; eauto.
    + cbn [map attr_doc]. rewrite VB, MA. reflexivity.
Qed.

(** What a copy comes to; [loss]: elements may be missing. *)
Definition filled (loss : Prop) (F : forest) k' s' m' F' p attrs kids : Prop :=
  exists A L attrs' kids', owned F' p false A /\ owned F' p true L /\ Forall2 (attr_says k' s' m' P) A attrs' /\ Forall2 (tree_q (fun e => ~ In e (members F)) k' s' m' T P F') L kids' /\
  map attr_doc attrs' = attrs /\ sub pruned (map doc_of kids') kids /\ (loss \/ map doc_of kids' = kids).
Definition copied (loss : Prop) k s m F p r m' attrs kids : Prop :=
  exists k' s' F', life k' s' m' T P F' /\ evo p k s m F k' s' m' F' /\ (r = None /\ loss \/ r = Some p /\ filled loss F k' s' m' F' p attrs kids).
(** One child: made, filled, added *)
Lemma kid_made loss i k s m F p L0 e m1 nm ty v r2 m2 attrs kids m3 k1 s1 v' : life k s m T P F -> In p (members F) -> owned F p true L0 ->
  quiet s m m1 F -> life k1 s1 m1 T P ((None, [e]) :: F) -> (forall e, In e (members F) -> k1 e = k e /\ s1 e = s e) -> ~ In e (members F) -> k1 e = true -> el_id m1 e = Ok (Z.of_nat i) -> says s1 m1 T e nm ty v' -> value_bytes ty v' = v ->
  copied loss k1 s1 m1 ((None, [e]) :: F) e r2 m2 attrs kids ->
  match r2 with None => rret m2 | Some e => Some (obind (add m2 p e) (fun '(_, tr) => Ok (final m2 tr))) end = rret m3 ->
  exists k3 s3 F3, life k3 s3 m3 T P F3 /\ evo p k s m F k3 s3 m3 F3 /\ (forall A, owned F p false A -> owned F3 p false A) /\
  (r2 = None /\ loss /\ owned F3 p true L0 \/ r2 = Some e /\ owned F3 p true (L0 ++ [e]) /\ exists t', tree_q (fun e => ~ In e (members F)) k3 s3 m3 T P F3 e t' /\ pruned (doc_of t') (BNode nm ty v attrs kids) /\ (loss \/ doc_of t' = BNode nm ty v attrs kids)).
Proof.
  intros LI IP OW QU L1 AG NX KX EI SA VB (k2 & s2 & F2 & L2 & EV2 & H2) E. pose proof (evo_free p e k s m T P F k1 s1 m1 LI QU AG) as EV1.
  assert (NP : p <> e) by (intros ->; auto). assert (O1 : forall q b L, owned F q b L -> owned ((None, [e]) :: F) q b L) by (intros; apply owned_free; assumption).
  pose proof EV1 as ((G1 & G1o) & TG1 & FR1). pose proof EV2 as ((G2 & G2o) & TG2 & FR2). assert (IP1 : In p (members ((None, [e]) :: F))) by (right; exact IP). destruct (G2 p IP1) as (IP2 & _).
  assert (OP2 : forall b L, owned F p b L -> owned F2 p b L) by (intros b L O; apply G2o; auto).
  assert (EV : evo p k s m F k2 s2 m2 F2).
  { split; [split|split; [eapply heads_trans; eauto|]].
    - intros x J. destruct (G1 x J) as (J1 & K1 & S1 & D1). destruct (G2 x J1) as (J2 & K2 & S2 & D2). split; [exact J2|]. split; [congruence|]. split; [congruence|]. eapply same_trans; eauto.
    - intros q b L J N O. apply G2o; [right; exact J|intros ->; auto|auto].
    - intros B J. apply FR2. right. exact J. }
  destruct H2 as [(-> & LO)|(-> & A & L & attrs' & kids' & OA & OL & FA & FL & MA & SU & EQ)].
  - injection E as <-. exists k2, s2, F2. split; [exact L2|]. split; [exact EV|]. split; [auto|]. left. auto.
  - unfold rret in E. injection E as E. apply obind_inv in E as ([ok tr] & EA & E). injection E as <-. destruct (G2 e (or_introl eq_refl)) as (IE2 & K2 & S2 & D2).
    destruct (add_step k2 s2 m2 T P F2 p e true L0 ok tr L2 (FR2 _ (or_introl eq_refl)) IP2 NP (OP2 _ _ OW) ltac:(congruence) EA) as (F3 & L3 & DD & OW3 & OT & FR3 & TG3 & _).
    exists k2, s2, F3. split; [exact L3|]. split; [|split; [intros A0 O; apply OT; [congruence|auto]|]].
    + destruct EV as ((E1 & E2) & E3 & E4). split; [split|split; [eapply heads_trans; eauto|]].
      * intros x J. destruct (E1 x J) as (J2 & Kx & Sx & Dx). destruct (DD x J2) as [J3 D3]. split; [exact J3|]. split; [exact Kx|]. split; [exact Sx|]. eapply same_trans; [exact Sx|exact Dx|exact D3].
      * intros q b Lq J N O. apply OT; [congruence|auto].
      * intros B J. apply FR3; [auto|]. intros ->. apply NX. apply in_flat_map. exists (None, [e]). split; [exact J|left; reflexivity].
    + right. split; [reflexivity|]. split; [exact OW3|]. exists (BNode nm ty v' attrs' kids'). split; [|split].
      * destruct (DD e IE2) as [IE3 DE]. apply (tree_q_here _ _ _ _ _ _ _ e A L); auto; [congruence| | | | |].
        -- apply (says_kept s1 s2 m1 (final m2 tr)); [exact S2|eapply same_trans; [exact S2|exact D2|exact DE]|exact SA].
        -- apply OT; [congruence|exact OA].
        -- apply OT; [congruence|exact OL].
        -- clear - FA DD OA. assert (IN : forall x, In x A -> In x (members F2)) by (intros; eapply owned_members; eauto). clear OA. induction FA as [|a dd A attrs' H _ IH]; [constructor|]. constructor; [|apply IH; intros; apply IN; right; assumption]. destruct (DD a (IN a (or_introl eq_refl))) as [_ D]. eapply attr_kept; eauto.
        -- assert (KEEP : forall t x, tree_q (fun y => ~ In y (members ((None, [e]) :: F))) k2 s2 m2 T P F2 x t -> tree_q (fun y => ~ In y (members F)) k2 s2 (final m2 tr) T P F3 x t).
           { fix IH 1. intros t x H. destruct t as [n0 ty0 v0 at0 ki0]. inversion H as [x' A0 L0' n' ty' v'' attrs0 kids0 QX IX KX0 SX OA0 OL0 FA0 FL0]; subst. destruct (DD x IX) as [J3 D3]. assert (xp : x <> p) by (intros ->; apply QX; exact IP1).
             apply (tree_q_here _ _ _ _ _ _ _ x A0 L0'); auto; [intro J; apply QX; right; exact J|eapply says_kept; eauto|apply OT; [congruence|exact OA0]|apply OT; [congruence|exact OL0]| |].
             - clear - FA0 DD OA0. assert (IN : forall x, In x A0 -> In x (members F2)) by (intros; eapply owned_members; eauto). clear OA0. induction FA0 as [|a dd A attrs' H _ IH]; [constructor|]. constructor; [|apply IH; intros; apply IN; right; assumption]. destruct (DD a (IN a (or_introl eq_refl))) as [_ D]. eapply attr_kept; eauto.
             - clear - IH FL0. revert ki0 L0' FL0. fix IHl 1. intros kids L FL. destruct kids as [|t kids]; inversion FL; subst; [constructor|]. constructor; [apply IH; assumption|apply IHl; assumption]. }
           clear - FL KEEP. induction FL; constructor; auto.
      * cbn [doc_of]. rewrite VB, MA. constructor. exact SU.
      * destruct EQ as [LO|EQ]; [left; exact LO|right]. cbn [doc_of]. rewrite VB, MA, EQ. reflexivity.
Qed.
Lemma kid_step loss i k s m F p L0 e m1 nm ty v r2 m2 attrs kids m3 : life k s m T P F -> In p (members F) -> owned F p true L0 -> tag_result k s m T P F i (Some e) m1 nm ty v ->
  (forall k1 s1 v', life k1 s1 m1 T P ((None, [e]) :: F) -> k1 e = true -> el_id m1 e = Ok (Z.of_nat i) -> says s1 m1 T e nm ty v' -> copied loss k1 s1 m1 ((None, [e]) :: F) e r2 m2 attrs kids) ->
  match r2 with None => rret m2 | Some e => Some (obind (add m2 p e) (fun '(_, tr) => Ok (final m2 tr))) end = rret m3 ->
  exists k3 s3 F3, life k3 s3 m3 T P F3 /\ evo p k s m F k3 s3 m3 F3 /\ (forall A, owned F p false A -> owned F3 p false A) /\
  (r2 = None /\ loss /\ owned F3 p true L0 \/ r2 = Some e /\ owned F3 p true (L0 ++ [e]) /\ exists t', tree_q (fun e => ~ In e (members F)) k3 s3 m3 T P F3 e t' /\ pruned (doc_of t') (BNode nm ty v attrs kids) /\ (loss \/ doc_of t' = BNode nm ty v attrs kids)).
Proof.
  intros LI IP OW (QU & k1 & s1 & v' & L1 & AG & NX & KX & EI & SA & VB) REC E. exact (kid_made loss i k s m F p L0 e m1 nm ty v r2 m2 attrs kids m3 k1 s1 v' LI IP OW QU L1 AG NX KX EI SA VB (REC k1 s1 v' L1 KX EI SA) E).
Qed.
Lemma none_owned k s m F e b : life k s m T P F -> ~ In e (members F) -> owned ((None, [e]) :: F) e b [].
Proof.
  intros LI NX. right. split; [reflexivity|]. intros L [J|J]; [discriminate|]. apply NX. pose proof (life_whole _ _ _ _ _ _ LI) as (B & a & I & EL & _). destruct EL as (hh & aa & PL & RP & SH). exact (proj1 (sh_head _ _ SH _ _ _ J)).
Qed.
Lemma rbind_Ok {A B} (v : A) (f : A -> run B) : rbind (Some (Ok v)) f = f v.
Proof. reflexivity. Qed.
Lemma node_data k y n ty v attrs kids : read_bin_node (S k) d R y = rret (BNode n ty v attrs kids) -> exists id pc cc r, it_name d y = Ok id /\ getSymbol d (rd_tags R) id = Ok n /\ it_paramcount d y = Ok pc /\ it_childcount d y = Ok cc /\
  read_bin_attrs (Z.to_nat pc) d R y 0 = Ok attrs /\ getData d (Some y) = Ok r /\ read_data d r = Ok (ty, v) /\ read_kids (read_bin_node k d R) d y (Z.to_nat cc) 0 = rret kids.
Proof.
  rewrite read_bin_node_S. intro E. apply rbind_some in E as (nm & E1 & E). apply obind_inv in E1 as (id & E1 & E2). apply rbind_some in E as (pc & E3 & E). apply rbind_some in E as (cc & E4 & E). apply rbind_some in E as (at0 & E5 & E). apply rbind_some in E as ([ty0 bs] & E6 & E). apply obind_inv in E6 as (r & E6 & E7). apply rbind_inv in E as (ks & E8 & E). injection E as <- <- <- <- <-. exists id, pc, cc, r. auto 10.
Qed.
Lemma kids_safe k' fr p y : (forall i c, getChildByIndex d (Some y) i = Ok (Some c) -> named d R c) ->
  (forall y n ty v attrs kids k s m F e r m', read_bin_node fr d R y = rret (BNode n ty v attrs kids) -> named d R y -> (forall u, In u (belements (BNode n ty v attrs kids)) -> copyable T P u) ->
     life k s m T P F -> In e (members F) -> owned F e false [] -> owned F e true [] -> indexed m -> CopyAll k' fl disk d m (Some e) y = rret (r, m') -> copied True k s m F e r m' attrs kids) ->
  forall n i ks k s m F L0 m', read_kids (read_bin_node fr d R) d y n i = rret ks -> (forall u, In u (flat_map belements ks) -> copyable T P u) -> life k s m T P F -> In p (members F) -> owned F p true L0 -> indexed m ->
  copy_kids (CopyAll k' fl disk d) fl disk d p y n i m = rret m' ->
  exists k' s' F', life k' s' m' T P F' /\ evo p k s m F k' s' m' F' /\ (forall A, owned F p false A -> owned F' p false A) /\
  exists L ks', owned F' p true (L0 ++ L) /\ Forall2 (tree_q (fun e => ~ In e (members F)) k' s' m' T P F') L ks' /\ sub pruned (map doc_of ks') ks.
Proof.
  intros NC REC. induction n as [|n IH]; intros i ks k s m F L0 m' RK CO LI IP OW IX E.
  - cbn in RK, E. injection RK as <-. injection E as <-. exists k, s, F. split; [exact LI|]. split; [apply evo_same|]. split; [auto|]. exists [], []. rewrite app_nil_r. split; [exact OW|]. split; constructor.
  - cbn [read_kids copy_kids] in RK, E. fold (read_kids (read_bin_node fr d R) d y) in RK. fold (copy_kids (CopyAll k' fl disk d) fl disk d p y) in E. apply rbind_some in RK as (c & GC & RK). rewrite GC, rbind_Ok in E. destruct c as [c|]; [|discriminate].
    apply rbind_inv in RK as (t & RT & RK). apply rbind_inv in RK as (rest & RR & RK). injection RK as <-. destruct t as [nm ty v attrs kids]. pose proof (NC _ _ GC) as NDC. destruct fr as [|fr]; [discriminate|]. destruct (node_data _ _ _ _ _ _ _ RT) as (id & pc & cc & r & IN & SY & _ & _ & _ & GD & RD & _).
    rewrite GD, rbind_Ok, IN, rbind_Ok in E. apply rbind_some in E as ([e m1] & TD & E). apply rbind_inv in E as ([r2 m2] & CA & E). apply rbind_inv in E as (m3 & AD & E).
    inversion NDC as [c' NM1 NM2 NM3 EQ]; subst c'. pose proof (NM1 _ IN) as IR. destruct (tags_agree id nm IR SY) as (tyr & NU & NT). destruct (item_ref _ _ _ GD) as (pp & RO).
    assert (CO1 : forall u, In u (belements (BNode nm ty v attrs kids)) -> copyable T P u) by (intros u J; apply CO; cbn [flat_map]; apply in_or_app; left; exact J).
    destruct (CO1 _ (or_introl eq_refl)) as (HO & TX & _). replace id with (Z.of_nat (Z.to_nat id)) in TD by lia. assert (TX' : ty = XBT_STRING -> tyr = XBT_STRING) by (intro Q; apply (TX Q); eapply nth_error_In; eauto).
    pose proof (tag_step _ _ _ _ _ _ _ _ _ _ _ _ _ _ _ _ _ _ LI (proj1 IX) NT NU bytes_d short_d RO RD HO TX' TD) as TR.
    assert (ST : exists k3 s3 F3, life k3 s3 m3 T P F3 /\ evo p k s m F k3 s3 m3 F3 /\ (forall A, owned F p false A -> owned F3 p false A) /\
      exists L1 ks1, owned F3 p true (L0 ++ L1) /\ Forall2 (tree_q (fun e => ~ In e (members F)) k3 s3 m3 T P F3) L1 ks1 /\ sub pruned (map doc_of ks1) [BNode nm ty v attrs kids]).
    { destruct e as [e|].
      - destruct (kid_step True (Z.to_nat id) k s m F p L0 e m1 nm ty v r2 m2 attrs kids m3 LI IP OW TR) as (k3 & s3 & F3 & L3 & EV & OA & H); [|exact AD|].
        + intros k1 s1 v' L1 KE EI SE. destruct TR as ((_ & TG) & k1' & s1' & v1 & _ & _ & NX & _). apply (REC c nm ty v attrs kids _ _ _ _ _ _ _ RT NDC CO1 L1 (or_introl eq_refl)); [eapply none_owned; eauto..|exact (indexed_kept _ _ _ _ _ LI TG IX)|exact CA].
        + exists k3, s3, F3. split; [exact L3|]. split; [exact EV|]. split; [exact OA|]. destruct H as [(_ & _ & O3)|(_ & O3 & t' & TQ & PR & _)].
          * exists [], []. rewrite app_nil_r. split; [exact O3|]. split; [constructor|]. apply sub_drop. constructor.
          * exists [e], [t']. split; [exact O3|]. split; [constructor; [exact TQ|constructor]|]. apply sub_keep; [exact PR|constructor].
      - destruct k'; [discriminate|]. injection CA as <- <-. injection AD as <-. destruct TR as [QU L1]. exists k, s, F. split; [exact L1|]. split; [eapply quiet_grown; eauto|]. split; [auto|]. exists [], []. rewrite app_nil_r. split; [exact OW|]. split; [constructor|]. apply sub_drop. constructor. }
    destruct ST as (k3 & s3 & F3 & L3 & EV & OA & L1 & ks1 & O3 & FT & SU). pose proof EV as ((G1 & _) & TG & _). destruct (G1 p IP) as (IP3 & _).
    destruct (IH (i + 1) rest k3 s3 m3 F3 (L0 ++ L1) m' RR) as (k4 & s4 & F4 & L4 & EV4 & OA4 & L2 & ks2 & O4 & FT4 & SU4); [intros u J; apply CO; cbn [flat_map]; apply in_or_app; right; exact J|exact L3|exact IP3|exact O3|exact (indexed_kept _ _ _ _ _ LI TG IX)|exact E|].
    exists k4, s4, F4. split; [exact L4|]. split; [eapply evo_trans; eauto|]. split; [auto|]. exists (L1 ++ L2), (ks1 ++ ks2). rewrite app_assoc. split; [exact O4|]. split.
    + apply Forall2_app.
      * apply (trees_kept (fun e0 => ~ In e0 (members F)) (fun e0 => ~ In e0 (members F)) p k3 s3 m3 T P F3); [exact EV4| |exact FT]. intros q NQ. split; [intros ->; auto|exact NQ].
      * apply (trees_kept (fun e0 => ~ In e0 (members F3)) (fun e0 => ~ In e0 (members F)) p k4 s4 m' T P F4); [apply evo_same| |exact FT4]. intros q NQ. split; [intros ->; auto|]. intro J. apply NQ. apply (G1 q J).
    + rewrite map_app. clear - SU SU4. inversion SU as [|a b l l' PR S1|b l l' S1]; subst; [|].
      * inversion S1; subst. cbn [app]. apply sub_keep; [exact PR|exact SU4].
      * inversion S1; subst. cbn [app]. apply sub_drop. exact SU4.
Qed.
Lemma copy_safe : forall fuel fr y n ty v attrs kids k s m F e r m', read_bin_node fr d R y = rret (BNode n ty v attrs kids) -> named d R y -> (forall u, In u (belements (BNode n ty v attrs kids)) -> copyable T P u) ->
  life k s m T P F -> In e (members F) -> owned F e false [] -> owned F e true [] -> indexed m -> CopyAll fuel fl disk d m (Some e) y = rret (r, m') -> copied True k s m F e r m' attrs kids.
Proof.
  induction fuel as [|fuel IH]; intros fr y n ty v attrs kids k s m F p r m' RN ND CO LI IP OA OL IX E; [discriminate|].
  destruct fr as [|fr]; [discriminate|]. destruct (node_data _ _ _ _ _ _ _ RN) as (id & pc & cc & rr & IN & SY & PC & CC & RA & GD & RD & RK). inversion ND as [y' NM1 NM2 NM3 EQ]; subst y'.
  assert (SAME : copied True k s m F p None m attrs kids) by (exists k, s, F; split; [exact LI|]; split; [apply evo_same|left; auto]).
  rewrite CopyAll_S in E. apply rbind_some in E as (ch & _ & E). destruct (negb (ch =? 0)) in E; [injection E as <- <-; exact SAME|]. apply rbind_some in E as (at0 & _ & E). destruct (negb (at0 =? 0)) in E; [injection E as <- <-; exact SAME|].
  apply rbind_some in E as (eid & _ & E). rewrite IN, rbind_Ok in E. destruct (negb (eid =? id)) in E; [injection E as <- <-; exact SAME|]. rewrite PC, rbind_Ok in E. apply rbind_some in E as ([ok m1] & CA & E).
  destruct (CO _ (or_introl eq_refl)) as (_ & _ & COA). destruct (attrs_safe y p NM2 (Z.to_nat pc) 0 attrs k s m F [] ok m1 RA COA LI IP OA IX CA) as (k1 & s1 & F1 & L1 & EV1 & OK1 & H1). pose proof EV1 as ((G1 & _) & TG & _). destruct (G1 p IP) as (IP1 & _).
  destruct H1 as [->|(-> & A2 & attrs' & O1 & FA & MA)]; cbn [negb] in E.
  { injection E as <- <-. exists k1, s1, F1. split; [exact L1|]. split; [exact EV1|]. left. auto. }
  rewrite CC, rbind_Ok in E. apply rbind_inv in E as (m2 & CK & E). injection E as <- <-.
  destruct (kids_safe fuel fr p y NM3 (IH fr) (Z.to_nat cc) 0 kids k1 s1 m1 F1 [] m2 RK) as (k2 & s2 & F2 & L2 & EV2 & OK2 & L & ks & O2 & FT & SU); auto.
  { intros u J. apply CO. right. exact J. } { exact (indexed_kept _ _ _ _ _ LI TG IX). }
  exists k2, s2, F2. split; [exact L2|]. split; [eapply evo_trans; eauto|]. right. split; [reflexivity|]. exists A2, L, attrs', ks. split; [apply OK2; exact O1|]. split; [exact O2|]. split.
  { apply (attrs_kept p k1 s1 m1 F1 k2 s2 m2 F2); [exact EV2|intros x J; exact (owned_members _ _ _ _ _ O1 J)|exact FA]. }
  split; [|split; [exact MA|split; [exact SU|left; exact I]]].
  apply (trees_kept (fun e0 => ~ In e0 (members F1)) (fun e0 => ~ In e0 (members F)) p k2 s2 m2 T P F2); [apply evo_same| |exact FT]. intros q NQ. split; [intros ->; auto|]. intro J. apply NQ. apply (G1 q J).
Qed.
End Copy.
