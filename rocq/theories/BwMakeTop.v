(** A text document converted into a pool: whole documents. *)
From Verif Require Import Base BaseFacts Types ListFacts SizeProofs Scan ScanProofs Sort Symtab SymtabSpec SymtabProofs Xb XbSpec XbFacts XbWrite WriteProofs XbBin BinSpec Bw BwFacts BwSpec BwHist BwAlloc BwProofs BwSym BwFile BwFileSpec BwFileProofs BwNamesSpec BwNamesInv BwNamesOps BwLifeSpec BwLife BwSet BwTag BwTagSpec BwTagProofs BwSourceSpec BwCopySpec BwCopyProofs BwCopyTop BwMake BwMakeSpec BwMakeProofs.

Lemma attrs_grown p k s m F k' s' m' F' P A attrs : grown k s m F p k' s' m' F' -> (forall e, In e A -> In e (members F)) -> Forall2 (attr_says k s m P) A attrs -> Forall2 (attr_says k' s' m' P) A attrs.
Proof.
  intros (G1 & _) IN FA. induction FA as [|a d A attrs H _ IH]; [constructor|]. constructor; [|apply IH; intros; apply IN; right; assumption]. destruct (G1 a (IN a (or_introl eq_refl))) as (_ & K & S & D). eapply attr_kept; eauto.
Qed.
Lemma tree_grown (Q Q' : Z -> Prop) p k s m T P F k' s' m' F' : grown k s m F p k' s' m' F' -> (forall q, Q q -> q <> p /\ Q' q) -> forall t x, tree_q Q k s m T P F x t -> tree_q Q' k' s' m' T P F' x t.
Proof.
  intros EV NQ. fix IH 1. intros t x H. destruct t as [n ty v attrs kids]. inversion H as [x' A L n' ty' v' attrs' kids' QX IX KX SX OA OL FA FL]; subst. pose proof EV as (G1 & G2). destruct (G1 x IX) as (J & K & S & D). destruct (NQ x QX) as [NP QX'].
  apply (tree_q_here _ _ _ _ _ _ _ x A L); auto; [congruence|eapply says_kept; eauto|apply (attrs_grown p k s m F k' s' m' F'); auto; intros e J1; exact (owned_members _ _ _ _ _ OA J1)|].
  clear - IH FL. revert kids L FL. fix IHl 1. intros kids L FL. destruct kids as [|t kids]; inversion FL; subst; [constructor|]. constructor; [apply IH; assumption|apply IHl; assumption].
Qed.
(** A new element is added. *)
Lemma hang k s m T0 P0 F p c L0 e k2 s2 m2 F2 ok tr : life k2 s2 m2 T0 P0 F2 -> In p (members F) -> owned F p c L0 -> ~ In e (members F) -> evo e k s m F k2 s2 m2 F2 -> In (None, [e]) F2 -> k2 e = c -> canon m2 -> add m2 p e = Ok (ok, tr) ->
  exists F3, life k2 s2 (final m2 tr) T0 P0 F3 /\ canon (final m2 tr) /\ evo p k s m F k2 s2 (final m2 tr) F3 /\ owned F3 p c (L0 ++ [e]) /\ (forall L, owned F p (negb c) L -> owned F3 p (negb c) L) /\
    grown k2 s2 m2 F2 p k2 s2 (final m2 tr) F3.
Proof.
  intros LI IP OW NE EV FE KE CA EA. pose proof EV as ((G1 & G2) & HE & FR). destruct (G1 p IP) as (IP2 & _). assert (PE : p <> e) by (intros ->; auto).
  destruct (add_step k2 s2 m2 T0 P0 F2 p e c L0 ok tr LI FE IP2 PE (G2 _ _ _ IP PE OW) KE EA) as (F3 & L3 & DD & OW3 & OT & FR3 & TG3 & ZL & RK).
  exists F3. split; [exact L3|]. split; [eapply canon_same; [exact ZL|apply RK; lia|exact CA]|]. assert (GR : grown k2 s2 m2 F2 p k2 s2 (final m2 tr) F3).
  { split; [intros x J; destruct (DD x J); auto|]. intros q b L J N O. apply OT; [congruence|exact O]. }
  split; [|split; [exact OW3|split; [intros L O; apply OT; [destruct c; cbn; congruence|apply G2; auto]|exact GR]]].
  split; [split|split; [eapply heads_trans; eauto|]].
  - intros x J. destruct (G1 x J) as (J2 & Kx & Sx & Dx). destruct (DD x J2) as [J3 D3]. split; [exact J3|]. split; [exact Kx|]. split; [exact Sx|]. eapply same_trans; [exact Sx|exact Dx|exact D3].
  - intros q b Lq J N O. apply OT; [congruence|]. apply G2; auto. intros ->. auto.
  - intros B J. apply FR3; [auto|]. intros ->. apply NE. apply in_flat_map. exists (None, [e]). split; [exact J|left; reflexivity].
Qed.

Section Make.
Variables (fl : floats) (disk : bool) (T P T0 P0 : names) (okT okP : list Z -> Prop).
Definition findable (L : names) (ok : list Z -> Prop) : Prop :=
  forall n, ok n -> exists id ty, find_ n L = Ok id /\ 0 <= id < 32768 /\ nth_error L (Z.to_nat id) = Some (n, ty) /\ 0 <= ty < 256.
Hypothesis find_tag : findable T okT.
Hypothesis find_param : findable P okP.
Fixpoint named_ok (t : node) : Prop := let '(Node name _ attrs kids) := t in okT name /\ (forall n v, In (n, v) attrs -> okP n) /\ fold_right and True (map named_ok kids).

Definition text_attr (a' : list Z * Z * list Z) (a : list Z * list Z) : Prop := let '(n', ty, w) := a' in let '(n, v) := a in n' = n /\ holds_text fl ty w v.
Lemma item_named L ok k s m F n id ty flags value x m' : findable L ok -> ok n -> find_ n L = Ok id -> type_at L id = Ok ty -> life k s m T0 P0 F -> canon m -> 0 <= flags < 256 -> make_item fl disk m id ty flags value = Ok (x, m') ->
  canon m' /\ quiet s m m' F /\ exists k' s' w, life k' s' m' T0 P0 ((None, [x]) :: F) /\ (forall e, In e (members F) -> k' e = k e /\ s' e = s e) /\ ~ In x (members F) /\ k' x = is_element flags /\
    says s' m' L x n ty w /\ holds_text fl ty w (text_of value).
Proof.
  intros FD OK FI TY LI CA FL E. destruct (FD n OK) as (id' & ty' & FI' & ID & NT & TB). rewrite FI in FI'. injection FI' as <-. unfold type_at in TY. replace (id <? 0) with false in TY by lia. rewrite NT in TY. injection TY as ->.
  destruct (item_ok fl disk k s m T0 P0 F id ty flags value x m' LI CA TB FL ltac:(lia) E) as (C2 & Q & k' & s' & w & L2 & AG & NI & KX & EI & ET & RW & HT & NU). split; [exact C2|]. split; [exact Q|]. exists k', s', w. repeat (split; [assumption|]). split; [|exact HT].
  exists (Z.to_nat id), ty. rewrite Z2Nat.id by lia. auto.
Qed.
Lemma find_pos L ok n id : findable L ok -> ok n -> find_ n L = Ok id -> (id <? 0) = false.
Proof. intros FD OK FI. destruct (FD n OK) as (id' & ty & FI' & ID & _). rewrite FI in FI'. injection FI' as <-. lia. Qed.

Lemma make_attrs_ok x : forall attrs k s m F A m', (forall n v, In (n, v) attrs -> okP n) -> life k s m T0 P0 F -> canon m -> In x (members F) -> owned F x false A -> make_attrs fl disk (mkcreator T P) m x attrs = Ok m' ->
  exists k' s' F' A2 attrs', life k' s' m' T0 P0 F' /\ canon m' /\ evo x k s m F k' s' m' F' /\ (forall L, owned F x true L -> owned F' x true L) /\ owned F' x false (A ++ A2) /\ Forall2 (attr_says k' s' m' P) A2 attrs' /\ Forall2 text_attr attrs' attrs.
Proof.
  induction attrs as [|[n v] attrs IH]; intros k s m F A m' OK LI CA IX OW E; cbn [make_attrs] in E.
  - injection E as <-. exists k, s, F, [], []. rewrite app_nil_r. split; [exact LI|]. split; [exact CA|]. split; [apply evo_same|]. auto.
  - cbn [cr_params] in E. apply obind_inv in E as (id & FI & E). pose proof (OK n v (or_introl eq_refl)) as ON. rewrite (find_pos _ _ _ _ find_param ON FI) in E. apply obind_inv in E as (ty & TY & E). apply obind_inv in E as ([a m1] & MI & E). apply obind_inv in E as ([ok tr] & EA & E).
    destruct (item_named P okP k s m F n id ty ATTR (Some v) a m1 find_param ON FI TY LI CA flag_attr MI) as (C1 & Q1 & k1 & s1 & w & L1 & AG & NI & KX & SA & HT).
    pose proof (evo_free a a k s m T0 P0 F k1 s1 m1 LI Q1 AG) as EV1. destruct (hang k s m T0 P0 F x false A a k1 s1 m1 ((None, [a]) :: F) ok tr L1 IX OW NI EV1 (or_introl eq_refl) KX C1 EA) as (F3 & L3 & C3 & EV3 & OW3 & OT3 & GR3).
    pose proof EV3 as ((G3 & _) & _). destruct (G3 x IX) as (IX3 & _). destruct (IH k1 s1 (final m1 tr) F3 (A ++ [a]) m' (fun n0 v0 J => OK n0 v0 (or_intror J)) L3 C3 IX3 OW3 E) as (k' & s' & F' & A2 & attrs' & L' & C' & EV' & OT' & OW' & FA & FT).
    exists k', s', F', (a :: A2), ((n, ty, w) :: attrs'). split; [exact L'|]. split; [exact C'|]. split; [eapply evo_trans; eauto|]. split; [intros L O; apply OT', OT3, O|]. rewrite <- app_assoc in OW'. split; [exact OW'|]. split.
    + constructor; [|exact FA]. destruct GR3 as (G4 & _). destruct (G4 a (or_introl eq_refl)) as (IA & _ & _ & D4). destruct EV' as ((G5 & _) & _). destruct (G5 a IA) as (_ & K5 & S5 & D5). eapply attr_kept; [exact K5|exact S5|exact D5|]. eapply attr_kept; [reflexivity|reflexivity|exact D4|]. split; [exact KX|exact SA].
    + constructor; [|exact FT]. split; [reflexivity|exact HT].
Qed.

Definition node_made k s m F x m' t : Prop :=
  exists k' s' F' t', life k' s' m' T0 P0 F' /\ canon m' /\ evo x k s m F k' s' m' F' /\ ~ In x (members F) /\ In (None, [x]) F' /\ k' x = true /\ tree_q (fun e => ~ In e (members F)) k' s' m' T P F' x t' /\ mirrors fl t' t.
Lemma make_kids_ok x W : forall kids, (forall t, In t kids -> forall k s m F r m', life k s m T0 P0 F -> canon m -> W m t = Ok (r, m') -> exists c, r = Some c /\ node_made k s m F c m' t) ->
  forall k s m F L0 m', life k s m T0 P0 F -> canon m -> In x (members F) -> owned F x true L0 -> make_kids W x m kids = Ok m' ->
  exists k' s' F' L kids', life k' s' m' T0 P0 F' /\ canon m' /\ evo x k s m F k' s' m' F' /\ (forall A, owned F x false A -> owned F' x false A) /\ owned F' x true (L0 ++ L) /\ Forall2 (tree_q (fun e => ~ In e (members F)) k' s' m' T P F') L kids' /\ Forall2 (mirrors fl) kids' kids.
Proof.
  induction kids as [|t kids IH]; intros REC k s m F L0 m' LI CA IX OW E; cbn [make_kids] in E.
  - injection E as <-. exists k, s, F, [], []. rewrite app_nil_r. split; [exact LI|]. split; [exact CA|]. split; [apply evo_same|]. auto.
  - fold (make_kids W x) in E. apply obind_inv in E as ([c m1] & EW & E). destruct (REC t (or_introl eq_refl) k s m F c m1 LI CA EW) as (e & -> & k1 & s1 & F1 & t' & L1 & C1 & EV1 & NE & FE & KE & TQ & MI). apply obind_inv in E as ([ok tr] & EA & E).
    destruct (hang k s m T0 P0 F x true L0 e k1 s1 m1 F1 ok tr L1 IX OW NE EV1 FE KE C1 EA) as (F3 & L3 & C3 & EV3 & OW3 & OT3 & GR3).
    pose proof EV3 as ((G3 & _) & _). destruct (G3 x IX) as (IX3 & _). destruct (IH (fun t0 J => REC t0 (or_intror J)) k1 s1 (final m1 tr) F3 (L0 ++ [e]) m' L3 C3 IX3 OW3 E) as (k' & s' & F' & L & kids' & L' & C' & EV' & OT' & OW' & FA & FT).
    exists k', s', F', (e :: L), (t' :: kids'). split; [exact L'|]. split; [exact C'|]. split; [eapply evo_trans; eauto|]. split; [intros A O; apply OT', OT3, O|]. rewrite <- app_assoc in OW'. split; [exact OW'|]. split; [|constructor; auto].
    assert (NX : forall q, ~ In q (members F) -> q <> x /\ ~ In q (members F)) by (intros q NQ; split; [intros ->; auto|exact NQ]). constructor.
    + eapply tree_kept; [exact EV'|exact NX|]. eapply tree_grown; [exact GR3|exact NX|exact TQ].
    + eapply (trees_kept (fun e0 => ~ In e0 (members F3))); [apply (evo_same x)| |exact FA]. intros q NQ. split; [intros ->; auto|]. intro J. apply NQ. apply (G3 q J).
Qed.
Lemma make_node_eq cr m name value attrs kids : make_node fl disk cr m (Node name value attrs kids) =
  obind (find_ name (cr_tags cr)) (fun id => if id <? 0 then Ok (None, m) else
  obind (type_at (cr_tags cr) id) (fun ty => obind (make_item fl disk m id ty ELEMENT value) (fun '(x, m) =>
  obind (make_attrs fl disk cr m x attrs) (fun m =>
  obind (make_kids (fun m t => make_node fl disk cr m t) x m kids) (fun m => Ok (Some x, m)))))).
Proof. reflexivity. Qed.
Lemma make_node_ok : forall t, named_ok t -> forall k s m F r m', life k s m T0 P0 F -> canon m -> make_node fl disk (mkcreator T P) m t = Ok (r, m') -> exists x, r = Some x /\ node_made k s m F x m' t.
Proof.
  fix IH 1. intros [name value attrs kids] (ON & OA & OK) k s m F r m' LI CA E. rewrite make_node_eq in E. cbn [cr_tags] in E. apply obind_inv in E as (id & FI & E). rewrite (find_pos _ _ _ _ find_tag ON FI) in E. apply obind_inv in E as (ty & TY & E). apply obind_inv in E as ([x m1] & MI & E). apply obind_inv in E as (m2 & MA & E). apply obind_inv in E as (m3 & MK & E). injection E as <- <-. exists x. split; [reflexivity|].
  destruct (item_named T okT k s m F name id ty ELEMENT value x m1 find_tag ON FI TY LI CA flag_element MI) as (C1 & Q1 & k1 & s1 & w & L1 & AG & NI & KX & SA & HT).
  pose proof (evo_free x x k s m T0 P0 F k1 s1 m1 LI Q1 AG) as EV1. assert (NO : forall b, owned ((None, [x]) :: F) x b []) by (intro b; eapply none_owned; eauto).
  destruct (make_attrs_ok x attrs k1 s1 m1 ((None, [x]) :: F) [] m2 OA L1 C1 (or_introl eq_refl) (NO false) MA) as (k2 & s2 & F2 & A & attrs' & L2 & C2 & EV2 & OT2 & OW2 & FA & FT).
  pose proof EV2 as ((G2 & _) & _ & FR2). destruct (G2 x (or_introl eq_refl)) as (IX2 & K2 & S2 & D2).
  destruct (make_kids_ok x (fun m t => make_node fl disk (mkcreator T P) m t) kids) with (k := k2) (s := s2) (m := m2) (F := F2) (L0 := @nil Z) (m' := m3) as (k3 & s3 & F3 & L & kids' & L3 & C3 & EV3 & OT3 & OW3 & FK & FM); [|exact L2|exact C2|exact IX2|apply OT2, NO|exact MK|].
  { clear - IH OK. induction kids as [|t kids IHk]; [intros t []|]. destruct OK as [O1 O2]. intros u [<-|J]; [exact (IH t O1)|exact (IHk O2 u J)]. }
  pose proof EV3 as ((G3 & _) & _ & FR3). destruct (G3 x IX2) as (IX3 & K3 & S3 & D3). exists k3, s3, F3, (BNode name ty w attrs' kids'). split; [exact L3|]. split; [exact C3|].
  split; [eapply evo_trans; [exact EV1|eapply evo_trans; eauto]|]. split; [exact NI|]. split; [apply FR3, FR2; left; reflexivity|]. split; [rewrite K3, K2; exact KX|]. split.
  - apply (tree_q_here _ _ _ _ _ _ _ x A L); auto.
    + rewrite K3, K2. exact KX.
    + eapply says_kept; [exact S3|exact D3|]. eapply says_kept; [exact S2|exact D2|exact SA].
    + eapply attrs_kept; [exact EV3| |exact FA]. intros e J. eapply owned_members; [exact OW2|exact J].
    + eapply (trees_kept (fun e0 => ~ In e0 (members F2))); [apply (evo_same x)| |exact FK]. intros q NQ. split; [intros ->; auto|]. intro J. apply NQ. apply (G2 q). right. exact J.
  - constructor; [exact HT| |exact FM]. clear - FT. induction FT as [|[[n' ty'] w'] [n v] a b H _ IH]; constructor; auto.
Qed.
End Make.
