(** Setting children. *)
From Verif Require Import Base BaseFacts Types ListFacts Sort Xb XbSpec XbFacts XbWrite WriteProofs Bw BwFacts BwRing BwSpec BwHist BwAlloc BwProofs BwRead BwTop BwSym BwReg BwFileSpec BwFileProofs BwNamesSpec BwNamesFacts BwNamesInv BwNamesReg BwNamesOps BwNamesIndex BwNamesProofs BwLifeSpec BwLife BwOnly JsonSource.

(** ** Looking for a child *)
Lemma find_el_S f m x field id a : find_el (S f) m x field id a = rbind (Some (el_id m a)) (fun i => if i =? id then rret (Some a) else
      rbind (Some (el_next m a)) (fun n => rbind (Some (rd_s32 m field)) (fun first => if n =? first then rret None else
      rbind (Some (bwe m x n)) (fun a => find_el f m x field id a)))).
Proof. reflexivity. Qed.
Definition has_id m e := exists i, el_id m e = Ok i.
Lemma find_ok m p L id : shows m p L -> (forall e, In e L -> has_id m e) -> forall l2 l1 e fuel, L = l1 ++ e :: l2 -> (List.length l2 < fuel)%nat ->
  (forall l3 t l4, e :: l2 = l3 ++ t :: l4 -> el_id m t = Ok id -> (forall e, In e l3 -> el_id m e <> Ok id) -> find_el fuel m p (p + 16) id e = rret (Some t)) /\
  ((forall t, In t (e :: l2) -> el_id m t <> Ok id) -> find_el fuel m p (p + 16) id e = rret None).
Proof.
  intros SH HI. pose proof SH as (SO & SC & ND & NX). induction l2 as [|y l2 IH]; intros l1 e fuel E FU; (destruct fuel as [|fuel]; [cbn in FU; lia|]).
  - assert (J : In e L) by (rewrite E; apply in_or_app; right; left; reflexivity). destruct (HI e J) as [i EI]. destruct (NX l1 e [] E) as [_ EN]. cbn [hd] in EN. rewrite find_el_S, EI, rbind_ok. split.
    + intros l3 t l4 ES ET NO. destruct l3 as [|z l3]; [|destruct l3; discriminate]. cbn [app] in ES. injection ES as -> _. rewrite EI in ET. injection ET as ->. rewrite Z.eqb_refl. reflexivity.
    + intro NO. destruct (Z.eqb_spec i id) as [->|N]; [exfalso; apply (NO e); [left; reflexivity|exact EI]|]. rewrite EN, rbind_ok. unfold el_child in SC. rewrite SC, rbind_ok, Z.eqb_refl. reflexivity.
  - assert (J : In e L) by (rewrite E; apply in_or_app; right; left; reflexivity). destruct (HI e J) as [i EI]. destruct (NX l1 e (y :: l2) E) as [_ EN]. cbn [hd] in EN.
    assert (E' : L = (l1 ++ [e]) ++ y :: l2) by (rewrite <- app_assoc; exact E). destruct (IH (l1 ++ [e]) y fuel E' ltac:(cbn in FU; lia)) as [IH1 IH2].
    assert (NF : y <> hd 0 L). { rewrite E. rewrite E in ND. destruct l1 as [|z l1]; cbn [app hd]; cbn [app] in ND; inversion ND as [|? ? N1 N2]; subst; intros ->; apply N1; [left; reflexivity|]. apply in_or_app. right. right. left. reflexivity. }
    assert (ST : i <> id -> find_el (S fuel) m p (p + 16) id e = find_el fuel m p (p + 16) id y).
    { intro N. rewrite find_el_S, EI, rbind_ok. destruct (Z.eqb_spec i id); [congruence|]. unfold el_child in SC. rewrite EN, rbind_ok, SC, rbind_ok. destruct (Z.eqb_spec y (hd 0 L)); [congruence|]. rewrite (shows_bwe _ _ _ _ SH), rbind_ok. reflexivity. }
    split.
    + intros l3 t l4 ES ET NO. destruct l3 as [|z l3]; cbn [app] in ES; injection ES as -> ES.
      * rewrite EI in ET. injection ET as ->. rewrite find_el_S, EI, rbind_ok, Z.eqb_refl. reflexivity.
      * assert (i <> id) by (intros ->; apply (NO z); [left; reflexivity|exact EI]). rewrite ST by assumption. apply (IH1 l3 t l4); auto. intros e' I. apply NO. right. exact I.
    + intro NO. assert (i <> id) by (intros ->; apply (NO e); [left; reflexivity|exact EI]). rewrite ST by assumption. apply IH2. intros t I. apply NO. right. exact I.
Qed.
Lemma tagGet_found m p l1 t l2 id fuel : shows m p (l1 ++ t :: l2) -> (forall e, In e (l1 ++ t :: l2) -> has_id m e) -> el_id m t = Ok id -> (forall e, In e l1 -> el_id m e <> Ok id) -> (List.length (l1 ++ t :: l2) <= fuel)%nat ->
  tagGet fuel m p id = rret (Some t).
Proof.
  intros SH HI ET NO FU. pose proof SH as (SO & SC & ND & NX). unfold tagGet, get_el. unfold el_child in SC. rewrite SC, rbind_ok. destruct (l1 ++ t :: l2) as [|e l] eqn:EL; [destruct l1; discriminate|]. destruct (NX [] e l eq_refl) as [E0 _]. cbn [hd]. replace (e =? 0) with false by lia.
  rewrite (shows_bwe _ _ _ _ SH), rbind_ok. apply (find_ok m p (e :: l) id SH HI l [] e fuel eq_refl ltac:(cbn in FU; lia)) with (l3 := l1) (l4 := l2); auto.
Qed.
Lemma tagGet_none m p L id fuel : shows m p L -> (forall e, In e L -> has_id m e) -> (forall e, In e L -> el_id m e <> Ok id) -> (List.length L <= fuel)%nat -> tagGet fuel m p id = rret None.
Proof.
  intros SH HI NO FU. pose proof SH as (SO & SC & ND & NX). unfold tagGet, get_el. unfold el_child in SC. rewrite SC, rbind_ok. destruct L as [|e l]; [reflexivity|]. destruct (NX [] e l eq_refl) as [E0 _]. cbn [hd]. replace (e =? 0) with false by lia.
  rewrite (shows_bwe _ _ _ _ SH), rbind_ok. apply (find_ok m p (e :: l) id SH HI l [] e fuel eq_refl ltac:(cbn in FU; lia)); auto.
Qed.
Lemma first_one m id L : (forall e, In e L -> has_id m e) -> (forall e, In e L -> el_id m e <> Ok id) \/ exists l1 t l2, L = l1 ++ t :: l2 /\ el_id m t = Ok id /\ forall e, In e l1 -> el_id m e <> Ok id.
Proof.
  induction L as [|x L IH]; intro HI; [left; intros e []|]. destruct (HI x (or_introl eq_refl)) as [i EI]. destruct (Z.eq_dec i id) as [->|N].
  - right. exists [], x, L. split; [reflexivity|]. split; [exact EI|]. intros e [].
  - destruct IH as [IH|(l1 & t & l2 & -> & ET & NO)]; [intros e I; apply HI; right; exact I| |].
    + left. intros e [<-|I]; [congruence|auto].
    + right. exists (x :: l1), t, l2. split; [reflexivity|]. split; [exact ET|]. intros e [<-|I]; [congruence|auto].
Qed.
Lemma s16_some m p : 0 <= p -> p + 2 <= zlen m -> exists i, rd_s16 m p = Ok i.
Proof. intros A B. unfold rd_s16. destruct (rd_some m p 2) as [b ->]; [lia..|]. cbn [obind]. eauto. Qed.
Lemma inv_has_id k s m F e : BwProofs.inv k s m F -> In e (members F) -> has_id m e.
Proof. intros (h & a & PL & R & S) I. destruct (rep_in _ _ _ R e I). apply s16_some; lia. Qed.
Lemma owned_in F p b L e : owned F p b L -> In e L -> In e (members F).
Proof. intros [O|[-> _]] I; [eapply members_in; eauto|contradiction]. Qed.

(** ** The type of a tag *)
Lemma tag_type m T P B a i nm ty : BwNamesInv.inv m TAGS PARAMS T P B a -> t_index m TAGS <> Ok 0 -> nth_error T i = Some (nm, ty) -> getTagType m (Z.of_nat i) = Ok ty /\ 0 <= ty < 256.
Proof.
  intros (n & x & n2 & x2 & PO & TB & _ & SP) IX NI. pose proof TB as (MX & N & X & FL & L1 & G & ND & N4 & H & XX). assert (IL : (i < List.length T)%nat) by (apply nth_error_Some; congruence).
  assert (TY : 0 <= ty < 256) by (apply (proj1 (Forall_forall _ _) G (nm, ty)); eapply nth_error_In; eauto). split; [|exact TY]. rewrite X in IX. assert (X0 : x <> 0) by congruence. destruct (XX X0) as [NE II]. specialize (II i _ NI).
  destruct (table_bound _ _ _ _ _ _ _ PO TB SP NE) as [N1 N2]. unfold getTagType. rewrite X. cbn [obind]. destruct (Z.eqb_spec x 0); [congruence|]. rewrite MX. cbn [obind]. replace ((0 <=? Z.of_nat i) && (Z.of_nat i <=? zlen T - 1)) with true by (unfold zlen; lia). rewrite II. cbn [obind].
  assert (O0 : 0 <= off T i) by (unfold off; apply zlen_nonneg). unfold HEADER in *. destruct (Z.eqb_spec (n + off T i) 0); [lia|]. pose proof (stored_at m n T i (nm, ty) (H NE) NI) as HE. cbn [fst snd] in HE. destruct (proj1 (Forall_forall _ _) G _ (nth_error_In _ _ NI)) as [PS _]. apply has_entry in HE as (_ & _ & T2 & _); [exact T2|unfold zlen in *; lia|exact TY|apply PS].
Qed.

(** ** A new element with its value *)
Lemma made k s m T P F disk id ty n z bs x m1 : life k s m T P F -> fresh_with disk m id ty n ELEMENT bs = Ok (Some x, m1) -> 0 <= ty < 256 -> XBT_Size2 ty n = Ok z -> zlen bs <= (z + 3) / 4 * 4 -> -32768 <= id < 32768 ->
  life (set k x true) (set s x (24 + (z + 3) / 4 * 4)) m1 T P ((None, [x]) :: F) /\ ~ In x (members F) /\ (forall e, In e (members F) -> rd m1 e (s e) = rd m e (s e)) /\
  el_id m1 x = Ok id /\ el_type m1 x = Ok ty /\ rd m1 (x + 24) (zlen bs) = Ok bs /\ rd m1 TAGS 16 = rd m TAGS 16.
Proof.
  intros LI E TY SZ BS ID. unfold fresh_with in E. apply obind_inv in E as ([y m0] & FR & E). destruct y as [y|]; [|discriminate]. apply obind_inv in E as (m2 & W & E). injection E as -> ->.
  assert (FE : 0 <= ELEMENT < 256) by (unfold ELEMENT; lia). pose proof (life_new k s m T P F disk id ty n z ELEMENT x m0 LI FE TY FR SZ) as L0. change (is_element ELEMENT) with true in L0. pose proof (life_whole _ _ _ _ _ _ LI) as WH. destruct (whole_new k s m T P F disk id ty n z ELEMENT x m0 WH FE TY FR SZ) as (_ & NI & KK).
  pose proof (zlen_nonneg bs). assert (LW : life (set k x true) (set s x (24 + (z + 3) / 4 * 4)) m1 T P ((None, [x]) :: F)) by (apply (life_write _ _ m0 _ _ _ x (x + 24) bs); auto; [left; reflexivity|lia|rewrite set_same; lia]).
  split; [exact LW|]. split; [exact NI|]. destruct WH as (B & a & I & EL & IB & SS). destruct (names_pool _ _ _ _ _ _ _ I) as [PO _]. pose proof PO as (_ & _ & _ & _ & BB & _). apply (fresh_ok _ _ a) in FR; [|exact PO]. destruct FR as (s2 & a' & S2 & S0 & AX & X4 & _ & XA & PO' & EX & _ & HD). rewrite SZ in S2. injection S2 as <-.
  destruct (wr_kept _ _ _ _ W) as (_ & _ & [_ KE] & GW). unfold HEADER, TAGS in *. assert (IX : int32 x). { destruct (pool_len _ _ PO') as [_ IA]. unfold int32 in *. lia. }
  destruct (header_fields _ _ _ _ _ HD IX FE) as (_ & _ & HT & HI & _). specialize (HT TY). specialize (HI ID). split; [|split; [|split; [|split; [exact GW|]]]].
  - intros e J. rewrite <- (KK e J). destruct (inv_in _ _ _ _ _ _ EL PO J) as (? & ? & ?). apply KE; lia.
  - unfold el_id, rd_s16 in *. rewrite KE by lia. exact HI.
  - unfold el_type, rd_u8 in *. rewrite KE by lia. exact HT.
  - rewrite KE by lia. apply EX; lia.
Qed.
Lemma whole_data k s m m' T P F : whole k s m T P F -> only_links (members F) m m' -> (forall e, In e (members F) -> same_data s m m' e) /\ rd m' TAGS 16 = rd m TAGS 16.
Proof.
  intros (B & a & I & EL & _) [ZL OL]. destruct (names_pool _ _ _ _ _ _ _ I) as [PO _]. split.
  - intros e J. assert (IN := fun e' J' => inv_in _ _ _ _ _ e' EL PO J'). destruct (IN e J) as (? & ? & ?). assert (G : forall q n, 0 <= n -> e <= q -> q + n <= e + s e -> q + n <= e + 6 \/ e + 24 <= q \/ e + 7 <= q /\ q + n <= e + 8 -> rd m' q n = rd m q n).
    { intros q n N Q1 Q2 Q3. apply OL; [exact N|]. intros e' J'. destruct (Z.eq_dec e' e) as [->|NE]; [exact Q3|]. destruct (IN e' J') as (? & ? & ?). destruct (inv_apart _ _ _ _ _ _ EL J' J NE); lia. }
    unfold same_data, el_id, el_type, rd_s16, rd_u8. rewrite !G by lia. auto.
  - apply OL; [lia|]. intros e J. destruct (inv_in _ _ _ _ _ e EL PO J) as (? & ? & ?). unfold HEADER, TAGS in *. lia.
Qed.
Lemma same_sub s m m' e q n : same_data s m m' e -> 0 <= e -> e + s e <= zlen m -> 0 <= n -> e + 24 <= q -> q + n <= e + s e -> rd m' q n = rd m q n.
Proof. intros (_ & _ & R) E B N Q1 Q2. apply (rd_within m m' (e + 24) (s e - 24)); auto; lia. Qed.
Lemma rd_same_data s m m' e : 0 <= e -> 24 <= s e -> e + s e <= zlen m -> rd m' e (s e) = rd m e (s e) -> same_data s m m' e.
Proof. intros E S B R. unfold same_data, el_id, el_type, rd_s16, rd_u8. rewrite !(rd_within m m' e (s e) _ _ R) by lia. auto. Qed.

(** ** Chains *)
Lemma in_other (F : forest) o X R q b (Lq : list Z) : Permutation F ((o, X) :: R) -> o <> Some (q, b) -> (In (Some (q, b), Lq) F <-> In (Some (q, b), Lq) R).
Proof.
  intros PM N. split; intro I.
  - apply (Permutation_in _ PM) in I. destruct I as [E|I]; [congruence|exact I].
  - apply (Permutation_in _ (Permutation_sym PM)). right. exact I.
Qed.
Lemma added k F p L x : owned F p true L -> k x = true -> exists F', adds k p x ((None, [x]) :: F) F' /\ owned F' p true (L ++ [x]) /\ forall q b Lq, (q, b) <> (p, true) -> owned F q b Lq -> owned F' q b Lq.
Proof.
  intros [O|[-> U]] KX.
  - apply in_split in O as (F1 & F2 & ->). assert (PM : Permutation (F1 ++ (Some (p, true), L) :: F2) ((Some (p, true), L) :: F1 ++ F2)) by (symmetry; apply Permutation_middle).
    exists ((Some (p, true), L ++ [x]) :: F1 ++ F2). split; [|split].
    + pose proof (adds_last k p x ((None, [x]) :: F1 ++ (Some (p, true), L) :: F2) [] [] L (F1 ++ F2)) as A. rewrite KX in A. cbn [app] in A. apply A. apply perm_skip, PM.
    + left. left. reflexivity.
    + intros q b Lq N [O|[-> U]]; [left; right; apply (in_other _ _ _ _ _ _ _ PM) in O; [exact O|congruence]|]. right. split; [reflexivity|]. intros L' [E|J]; [congruence|]. apply (U L'). apply (in_other _ _ _ _ _ _ _ PM); [congruence|exact J].
  - exists ((Some (p, true), [x]) :: F). split; [|split].
    + pose proof (adds_first k p x ((None, [x]) :: F) [] [] F) as A. rewrite KX in A. apply A; [reflexivity|exact U].
    + left. left. reflexivity.
    + intros q b Lq N [O|[-> V]]; [left; right; exact O|]. right. split; [reflexivity|]. intros L' [E|J]; [congruence|]. apply (V L' J).
Qed.
Lemma replaced F p l1 t l2 x : owned F p true (l1 ++ t :: l2) -> exists F', replaces p t x true ((None, [x]) :: F) F' /\ owned F' p true (l1 ++ x :: l2) /\ forall q b Lq, (q, b) <> (p, true) -> owned F q b Lq -> owned F' q b Lq.
Proof.
  intros [O|[E _]]; [|destruct l1; discriminate]. apply in_split in O as (F1 & F2 & ->). assert (PM : Permutation (F1 ++ (Some (p, true), l1 ++ t :: l2) :: F2) ((Some (p, true), l1 ++ t :: l2) :: F1 ++ F2)) by (symmetry; apply Permutation_middle).
  exists ((Some (p, true), l1 ++ x :: l2) :: (None, [t]) :: F1 ++ F2). split; [|split].
  - apply replaces_at. rewrite PM. apply perm_swap.
  - left. left. reflexivity.
  - intros q b Lq N [O|[-> U]]; [left; right; right; apply (in_other _ _ _ _ _ _ _ PM) in O; [exact O|congruence]|]. right. split; [reflexivity|]. intros L' [E|[E|J]]; try congruence. apply (U L'). apply (in_other _ _ _ _ _ _ _ PM); [congruence|exact J].
Qed.

(** ** The three ways to set *)
Lemma set_adds k s m T P F p L id disk ty n z bs x m1 r m' : life k s m T P F -> In p (members F) -> owned F p true L -> (forall e, In e L -> el_id m e <> Ok id) ->
  fresh_with disk m id ty n ELEMENT bs = Ok (Some x, m1) -> 0 <= ty < 256 -> XBT_Size2 ty n = Ok z -> zlen bs <= (z + 3) / 4 * 4 -> -32768 <= id < 32768 -> add_new p (Some x, m1) = Ok (r, m') ->
  r = Some x /\ set_done k s m T P F p L id x x (zlen bs) m' /\ el_type m' x = Ok ty /\ rd m' (x + 24) (zlen bs) = Ok bs /\ el_id m' x = Ok id /\ rd m' TAGS 16 = rd m TAGS 16.
Proof.
  intros LI IP OW NO FR TY SZ BS ID E. destruct (made _ _ _ _ _ _ _ _ _ _ _ _ _ _ LI FR TY SZ BS ID) as (L1 & NX & KK & XI & XT & XV & TG). set (k1 := set k x true) in *. set (s1 := set s x (24 + (z + 3) / 4 * 4)) in *.
  pose proof (life_whole _ _ _ _ _ _ L1) as W1. destruct (added k1 F p L x OW ltac:(apply set_same)) as (F' & AD & OW' & OT). assert (IP1 : In p (members ((None, [x]) :: F))) by (right; exact IP).
  pose proof W1 as (B1 & a1 & I1 & E1 & _). destruct (inv_add _ _ _ _ _ _ _ E1 IP1 AD) as (pre & m2 & EA & _ & _ & OL). unfold add_new in E. rewrite EA in E. cbn [obind] in E. injection E as <- <-. rewrite final_snoc.
  pose proof (life_add k1 s1 m1 T P _ p x F' true _ L1 IP1 AD EA) as L2. rewrite final_snoc in L2. destruct (whole_data _ _ _ _ _ _ _ W1 OL) as [DD TG2]. pose proof (DD x (or_introl eq_refl)) as DX.
  pose proof (life_whole _ _ _ _ _ _ LI) as (B & a & I & EL & _). destruct (names_pool _ _ _ _ _ _ _ I) as [PO _]. destruct (names_pool _ _ _ _ _ _ _ I1) as [PO1 _]. pose proof PO as (_ & _ & _ & _ & BB & _). pose proof PO1 as (_ & _ & _ & _ & BB1 & _).
  assert (AG : forall e, In e (members F) -> k1 e = k e /\ s1 e = s e) by (intros e J; assert (e <> x) by (intros ->; auto); unfold k1, s1; rewrite !set_other by auto; auto).
  pose proof (inv_in _ _ _ _ _ x E1 PO1 (or_introl eq_refl)) as (X1 & X2 & X3). assert (SX : s1 x = 24 + (z + 3) / 4 * 4) by apply set_same. pose proof (zlen_nonneg bs). unfold HEADER in *.
  split; [reflexivity|]. split; [|split; [|split; [|split]]].
  - exists k1, s1, F', (L ++ [x]). split; [exact L2|]. split; [exact AG|]. split; [exact OW'|]. split; [left; auto|]. split; [|split; [|split; [left; reflexivity|split; [apply set_same|rewrite SX; lia]]]].
    + intros e J _. destruct (DD e (or_intror J)) as (D1 & D2 & D3). destruct (inv_in _ _ _ _ _ e EL PO J) as (Q1 & Q2 & Q3). unfold HEADER in *. destruct (rd_same_data s m m1 e) as (C1 & C2 & C3); auto; try lia. destruct (AG e J) as [_ SE]. rewrite SE in D3. unfold same_data. rewrite D1, D2, D3. auto.
    + intros q b Lq _ N O. apply OT; auto.
  - destruct DX as (_ & -> & _). exact XT.
  - rewrite (same_sub s1 m1 m2 x) by (auto; lia). exact XV.
  - destruct DX as (-> & _). exact XI.
  - rewrite TG2. exact TG.
Qed.
Lemma set_replaces k s m T P F p l1 t l2 id disk ty n z bs x m1 r m' : life k s m T P F -> In p (members F) -> owned F p true (l1 ++ t :: l2) -> l1 ++ l2 <> [] -> el_id m t = Ok id -> (forall e, In e l1 -> el_id m e <> Ok id) ->
  fresh_with disk m id ty n ELEMENT bs = Ok (Some x, m1) -> 0 <= ty < 256 -> XBT_Size2 ty n = Ok z -> zlen bs <= (z + 3) / 4 * 4 -> -32768 <= id < 32768 -> replace_by p t (Some x, m1) = Ok (r, m') ->
  r = Some t /\ set_done k s m T P F p (l1 ++ t :: l2) id t x (zlen bs) m' /\ el_type m' x = Ok ty /\ rd m' (x + 24) (zlen bs) = Ok bs /\ el_id m' x = Ok id /\ rd m' TAGS 16 = rd m TAGS 16 /\ x <> t.
Proof.
  intros LI IP OW NE ET NO FR TY SZ BS ID E. destruct (made _ _ _ _ _ _ _ _ _ _ _ _ _ _ LI FR TY SZ BS ID) as (L1 & NX & KK & XI & XT & XV & TG). set (k1 := set k x true) in *. set (s1 := set s x (24 + (z + 3) / 4 * 4)) in *.
  pose proof (life_whole _ _ _ _ _ _ L1) as W1. destruct (replaced F p l1 t l2 x OW) as (F' & AD & OW' & OT).
  pose proof W1 as (B1 & a1 & I1 & E1 & _). assert (NOT : ~ In (Some (p, true), [t]) ((None, [x]) :: F)).
  { intros [Q|Q]; [discriminate|]. pose proof (life_whole _ _ _ _ _ _ LI) as (B & a & _ & EL & _). pose proof (owner_one F p true [t] (l1 ++ t :: l2) (inv_owners _ _ _ _ EL) (or_introl Q) OW) as Q2. destruct l1 as [|y l1]; cbn [app] in Q2; [injection Q2 as <-; apply NE; reflexivity|]. destruct l1; discriminate. }
  destruct (inv_replace _ _ _ _ _ _ _ _ _ E1 AD NOT) as (tr & EA & _ & OL). unfold replace_by in E. rewrite EA in E. cbn [obind] in E. injection E as <- <-. set (m2 := final m1 tr) in *.
  pose proof (life_replace k1 s1 m1 T P _ p t x true F' true _ L1 AD NOT EA) as L2. fold m2 in L2. destruct (whole_data _ _ _ _ _ _ _ W1 OL) as [DD TG2]. pose proof (DD x (or_introl eq_refl)) as DX.
  pose proof (life_whole _ _ _ _ _ _ LI) as (B & a & I & EL & _). destruct (names_pool _ _ _ _ _ _ _ I) as [PO _]. destruct (names_pool _ _ _ _ _ _ _ I1) as [PO1 _]. pose proof PO as (_ & _ & _ & _ & BB & _). pose proof PO1 as (_ & _ & _ & _ & BB1 & _).
  assert (AG : forall e, In e (members F) -> k1 e = k e /\ s1 e = s e) by (intros e J; assert (e <> x) by (intros ->; auto); unfold k1, s1; rewrite !set_other by auto; auto).
  pose proof (inv_in _ _ _ _ _ x E1 PO1 (or_introl eq_refl)) as (X1 & X2 & X3). assert (SX : s1 x = 24 + (z + 3) / 4 * 4) by apply set_same. pose proof (zlen_nonneg bs). unfold HEADER in *.
  split; [reflexivity|]. split; [|split; [|split; [|split; [|split]]]].
  - exists k1, s1, F', (l1 ++ x :: l2). split; [exact L2|]. split; [exact AG|]. split; [exact OW'|]. split; [right; exists l1, l2; auto|]. split; [|split; [|split; [right; exact NX|split; [apply set_same|rewrite SX; lia]]]].
    + intros e J _. destruct (DD e (or_intror J)) as (D1 & D2 & D3). destruct (inv_in _ _ _ _ _ e EL PO J) as (Q1 & Q2 & Q3). unfold HEADER in *. destruct (rd_same_data s m m1 e) as (C1 & C2 & C3); auto; try lia. destruct (AG e J) as [_ SE]. rewrite SE in D3. unfold same_data. rewrite D1, D2, D3. auto.
    + intros q b Lq _ N O. apply OT; auto.
  - destruct DX as (_ & -> & _). exact XT.
  - rewrite (same_sub s1 m1 m2 x) by (auto; lia). exact XV.
  - destruct DX as (-> & _). exact XI.
  - rewrite TG2. exact TG.
  - intros ->. apply NX. eapply owned_in; [exact OW|]. apply in_or_app. right. left. reflexivity.
Qed.
Lemma set_in_place k s m T P F p l1 t l2 id bs m' : life k s m T P F -> owned F p true (l1 ++ t :: l2) -> k t = true -> el_id m t = Ok id -> (forall e, In e l1 -> el_id m e <> Ok id) -> 24 + zlen bs <= s t -> wr m (t + 24) bs = Ok m' ->
  set_done k s m T P F p (l1 ++ t :: l2) id t t (zlen bs) m' /\ el_type m' t = el_type m t /\ rd m' (t + 24) (zlen bs) = Ok bs /\ el_id m' t = Ok id /\ rd m' TAGS 16 = rd m TAGS 16.
Proof.
  intros LI OW KT ET NO SB W. assert (IT : In t (members F)) by (eapply owned_in; [exact OW|apply in_or_app; right; left; reflexivity]). pose proof (life_write k s m T P F t (t + 24) bs m' LI IT ltac:(lia) ltac:(lia) W) as L2.
  pose proof (life_whole _ _ _ _ _ _ LI) as (B & a & I & EL & _). destruct (names_pool _ _ _ _ _ _ _ I) as [PO _]. destruct (inv_in _ _ _ _ _ t EL PO IT) as (Q1 & Q2 & Q3). destruct (wr_kept _ _ _ _ W) as (_ & _ & [_ KE] & GW). unfold HEADER, TAGS in *. pose proof (zlen_nonneg bs).
  split; [|split; [|split; [exact GW|split]]].
  - exists k, s, F, (l1 ++ t :: l2). split; [exact L2|]. split; [auto|]. split; [exact OW|]. split; [right; exists l1, l2; auto|]. split; [|split; [auto|split; [auto|split; [exact KT|lia]]]].
    intros e J N. destruct (inv_in _ _ _ _ _ e EL PO J) as (? & ? & ?). unfold HEADER in *. assert (AP := inv_apart _ _ _ _ e t EL J IT N). unfold same_data, el_id, el_type, rd_s16, rd_u8. rewrite !KE by lia. auto.
  - unfold el_type, rd_u8. rewrite KE by lia. reflexivity.
  - unfold el_id, rd_s16 in *. rewrite KE by lia. exact ET.
  - apply KE; lia.
Qed.

(** ** Reading back *)
Lemma set_found k s m T P F p L id t n w m' : life k s m T P F -> owned F p true L -> set_done k s m T P F p L id t n w m' -> el_id m' n = Ok id -> rd m' TAGS 16 = rd m TAGS 16 ->
  (forall fuel, (List.length L < fuel)%nat -> tagGet fuel m' p id = rret (Some n)) /\ getSymbolType m' n = getTagType m' id /\ t_index m' TAGS = t_index m TAGS.
Proof.
  intros LI0 OW0 (k' & s' & F' & L' & LI & AG & OW & CS & DD & OT & NN & KN & _) EN TG. pose proof (life_whole _ _ _ _ _ _ LI) as (B & a & I & EL & _).
  pose proof (life_whole _ _ _ _ _ _ LI0) as (B0 & a0 & I0 & EL0 & _). destruct (names_pool _ _ _ _ _ _ _ I0) as [PO0 _]. pose proof PO0 as (_ & _ & _ & _ & BB & _).
  assert (NL : In n L') by (destruct CS as [(_ & -> & _)|(l1 & l2 & _ & -> & _)]; apply in_or_app; right; left; reflexivity).
  assert (IP' : In p (members F')). { destruct EL as (h & a' & _ & _ & S). destruct OW as [O|[-> _]]; [|destruct NL]. apply (sh_head _ _ S _ _ _ O). }
  assert (SH : shows m' p L') by (eapply inv_shows; eauto). assert (HI : forall e, In e L' -> has_id m' e) by (intros e J; eapply inv_has_id; [exact EL|eapply owned_in; eauto]).
  pose proof SH as (_ & _ & ND & _). split; [|split].
  - intros fuel FU. destruct CS as [(NO & -> & ->)|(l1 & l2 & -> & -> & ET & NO)].
    + apply tagGet_found with (l1 := L) (l2 := []); auto; [|rewrite app_length; cbn; lia]. intros e J E. assert (N : e <> n) by (intros ->; apply NoDup_remove_2 in ND; apply ND; rewrite app_nil_r; exact J).
      destruct (DD e (owned_in _ _ _ _ _ OW0 J) N) as (D1 & _). rewrite D1 in E. exact (NO e J E).
    + apply tagGet_found with (l1 := l1) (l2 := l2); auto; [|rewrite !app_length in *; cbn in *; lia]. intros e J E. assert (N : e <> t) by (intros ->; exact (NO t J ET)).
      destruct (DD e (owned_in _ _ _ _ _ OW0 (in_or_app _ _ _ (or_introl J))) N) as (D1 & _). rewrite D1 in E. exact (NO e J E).
  - assert (IN := owned_in _ _ _ _ _ OW NL). destruct EL as (h & a' & PL & R & S). unfold getSymbolType. rewrite (rep_off _ _ _ R n IN). cbn [obind]. rewrite Z.eqb_refl. cbn [negb]. destruct (pl_kind _ _ _ _ _ PL n IN) as (f & -> & E). cbn [obind]. rewrite E, KN, EN. reflexivity.
  - unfold t_index, rd_s32. rewrite (rd_within m m' TAGS 16 (TAGS + 8) 4 TG) by (unfold TAGS, HEADER in *; lia). reflexivity.
Qed.
Lemma set_ready k s m T P F p L i nm ty : life k s m T P F -> In p (members F) -> owned F p true L -> t_index m TAGS <> Ok 0 -> nth_error T i = Some (nm, ty) ->
  getTagType m (Z.of_nat i) = Ok ty /\ 0 <= ty < 256 /\ 0 <= Z.of_nat i < 128 /\
  (forall fuel, (List.length L <= fuel)%nat -> ((forall e, In e L -> el_id m e <> Ok (Z.of_nat i)) /\ tagGet fuel m p (Z.of_nat i) = rret None \/
   exists l1 t l2, L = l1 ++ t :: l2 /\ el_id m t = Ok (Z.of_nat i) /\ (forall e, In e l1 -> el_id m e <> Ok (Z.of_nat i)) /\ tagGet fuel m p (Z.of_nat i) = rret (Some t))).
Proof.
  intros LI IP OW IX NT. pose proof (life_whole _ _ _ _ _ _ LI) as (B & a & I & EL & _). destruct (tag_type _ _ _ _ _ _ _ _ I IX NT) as [GT TY].
  assert (IL : (i < List.length T)%nat) by (apply nth_error_Some; congruence). pose proof I as (n & x & n2 & x2 & PO & (_ & _ & _ & _ & L1 & _) & _).
  assert (SH : shows m p L) by (eapply inv_shows; eauto). assert (HI : forall e, In e L -> has_id m e) by (intros e J; eapply inv_has_id; [exact EL|eapply owned_in; eauto]).
  split; [exact GT|]. split; [exact TY|]. split; [unfold zlen in L1; lia|]. intros fuel FU. destruct (first_one m (Z.of_nat i) L HI) as [NO|(l1 & t & l2 & -> & ET & NO)].
  - left. split; [exact NO|]. apply tagGet_none with (L := L); auto.
  - right. exists l1, t, l2. split; [reflexivity|]. split; [exact ET|]. split; [exact NO|]. apply tagGet_found with (l1 := l1) (l2 := l2); auto.
Qed.
Lemma size_4 ty : XBT_IS_4 ty = true -> XBT_Size2 ty 0 = Ok 4.
Proof. unfold XBT_IS_4, isin. cbn [existsb]. intro H. repeat (apply orb_prop in H as [H|H]; [apply Z.eqb_eq in H; subst ty; reflexivity|]). discriminate H. Qed.
Lemma size_8 ty : XBT_IS_8 ty = true -> XBT_Size2 ty 8 = Ok 8.
Proof. unfold XBT_IS_8, isin. cbn [existsb]. intro H. repeat (apply orb_prop in H as [H|H]; [apply Z.eqb_eq in H; subst ty; reflexivity|]). discriminate H. Qed.
Lemma life_round k s m T P F : life k s m T P F -> forall e, In e (members F) -> s e mod 4 = 0.
Proof.
  induction 1; intros e0 J; auto.
  - destruct J.
  - destruct J.
  - destruct (Z.eq_dec e0 x) as [->|N]; [rewrite set_same; apply Z.mod_divide; [lia|]; exists (6 + (z + 3) / 4); lia|]. rewrite set_other by exact N. apply IHlife. destruct J as [<-|J]; [congruence|exact J].
  - apply IHlife. apply (Permutation_in e0 (Permutation_sym (adds_members _ _ _ _ _ H1))). exact J.
  - apply IHlife. apply (Permutation_in e0 (Permutation_sym (joins_members _ _ _ _ H0))). exact J.
  - apply IHlife. apply (Permutation_in e0 (Permutation_sym (removes_members _ _ _ _ _ H0))). exact J.
  - apply IHlife. apply (Permutation_in e0 (Permutation_sym (replaces_members _ _ _ _ _ _ H0))). exact J.
  - destruct (Z.eq_dec e0 x) as [->|N0]; [rewrite set_same; apply Z.mod_divide; [lia|]; exists (6 + (z + 3) / 4); lia|]. rewrite set_other by exact N0. apply IHlife. destruct J as [<-|J]; [congruence|exact J].  - apply IHlife. apply (Permutation_in e0 (Permutation_sym (members_perm _ _ H0))). exact J.
  - apply IHlife. apply (Permutation_in e0 (Permutation_sym (members_perm _ _ H0))). exact J.
Qed.
Lemma get_type k s m T P F p L id t n w m' i nm ty : life k s m T P F -> owned F p true L -> set_done k s m T P F p L id t n w m' -> el_id m' n = Ok id -> rd m' TAGS 16 = rd m TAGS 16 ->
  t_index m TAGS <> Ok 0 -> nth_error T i = Some (nm, ty) -> id = Z.of_nat i -> getSymbolType m' n = Ok ty.
Proof.
  intros LI OW SD EN TG IX NT ->. destruct (set_found _ _ _ _ _ _ _ _ _ _ _ _ _ LI OW SD EN TG) as (_ & -> & TI). destruct SD as (k' & s' & F' & L' & LI' & _). pose proof (life_whole _ _ _ _ _ _ LI') as (B & a & I & _).
  destruct (tag_type m' T P B a i nm ty I ltac:(congruence) NT) as [GT _]. exact GT.
Qed.
Lemma not_only (l1 : list Z) t l2 : (forall x, l1 ++ t :: l2 = [x] -> False) -> l1 ++ l2 <> [].
Proof. intros H E. apply app_eq_nil in E as [-> ->]. exact (H t eq_refl). Qed.
Lemma some_outcome A (x y : outcome A) : Some x = Some y -> x = y.
Proof. congruence. Qed.

Lemma set_int32 k s m T P F p L i nm ty v fuel disk t m' : life k s m T P F -> In p (members F) -> owned F p true L -> (forall e, In e L -> k e = true) ->
  nth_error T i = Some (nm, ty) -> XBT_IS_4 ty = true -> t_index m TAGS <> Ok 0 -> int32 v -> (List.length L <= fuel)%nat ->
  (forall x, L = [x] -> el_id m x = Ok (Z.of_nat i) -> el_type m x = Ok XBT_INT32) ->
  tagSetInt32 fuel disk m p (Z.of_nat i) v = rret (Some t, m') ->
  exists n, set_done k s m T P F p L (Z.of_nat i) t n 4 m' /\ t_index m' TAGS = t_index m TAGS /\ forall fuel', (List.length L < fuel')%nat -> tagGet fuel' m' p (Z.of_nat i) = rret (Some n) /\ tagGetInt32 fuel' m' p (Z.of_nat i) = rret (Some v).
Proof.
  intros LI IP OW KK NT I4 IX IV FU ONLY E. destruct (set_ready _ _ _ _ _ _ _ _ _ _ _ LI IP OW IX NT) as (GT & TY & IB & RD). specialize (RD fuel FU).
  assert (FIN : forall n, set_done k s m T P F p L (Z.of_nat i) t n (zlen (le 4 v)) m' -> rd m' (n + 24) (zlen (le 4 v)) = Ok (le 4 v) -> el_id m' n = Ok (Z.of_nat i) -> rd m' TAGS 16 = rd m TAGS 16 ->
    exists n, set_done k s m T P F p L (Z.of_nat i) t n 4 m' /\ t_index m' TAGS = t_index m TAGS /\ forall fuel', (List.length L < fuel')%nat -> tagGet fuel' m' p (Z.of_nat i) = rret (Some n) /\ tagGetInt32 fuel' m' p (Z.of_nat i) = rret (Some v)).
  { intros n SD VV EN TG. change (zlen (le 4 v)) with 4 in *. exists n. split; [exact SD|]. destruct (set_found _ _ _ _ _ _ _ _ _ _ _ _ _ LI OW SD EN TG) as (FO & _ & TI). split; [exact TI|]. intros fuel' FU'. specialize (FO fuel' FU'). split; [exact FO|].
    unfold tagGetInt32. rewrite FO, rbind_rret. unfold bw_getInt32. rewrite (get_type _ _ _ _ _ _ _ _ _ _ _ _ _ _ _ _ LI OW SD EN TG IX NT eq_refl). cbn [obind]. rewrite I4. unfold rd_s32. rewrite VV. cbn [obind]. rewrite s32_le by exact IV. reflexivity. }
  unfold tagSetInt32 in E. destruct RD as [(NO & TA)|(l1 & t0 & l2 & EL & ET & NO & TA)]; rewrite TA, rbind_rret in E; apply some_outcome in E.
  - apply obind_inv in E as ([x m1] & PT & E). unfold pool_tagInt32 in PT. rewrite GT in PT. cbn [obind] in PT. rewrite I4 in PT. cbn [negb] in PT. destruct x as [x|]; [|discriminate].
    destruct (set_adds k s m T P F p L (Z.of_nat i) disk ty 0 4 (le 4 v) x m1 (Some t) m' LI IP OW NO PT TY (size_4 _ I4)) as (EX & SD & _ & VV & EN & TG); [change (zlen (le 4 v)) with 4; lia|lia|exact E|]. injection EX as ->. apply (FIN x); auto.
  - apply obind_inv in E as (et & TE & E). subst L. destruct (Z.eqb_spec et XBT_INT32) as [->|NE].
    + apply obind_inv in E as (m1 & W & E). injection E as -> ->. assert (IT : In t (members F)) by (eapply owned_in; [exact OW|apply in_or_app; right; left; reflexivity]).
      pose proof (life_whole _ _ _ _ _ _ LI) as (_ & _ & _ & _ & _ & SZ). destruct (SZ t IT) as (ty' & n' & z & T1 & _ & T2 & T3 & T4). rewrite TE in T1. injection T1 as <-. assert (z = 4). { revert T2. unfold XBT_Size2. cbn. destruct ((n' =? 0) || (n' =? 4)); intro Q; injection Q as <-; lia. }
      destruct (set_in_place k s m T P F p l1 t l2 (Z.of_nat i) (le 4 v) m' LI OW (KK t (in_elt t l1 l2)) ET NO ltac:(change (zlen (le 4 v)) with 4; lia) W) as (SD & _ & VV & EN & TG). apply (FIN t); auto.
    + apply obind_inv in E as ([x m1] & PT & E). unfold pool_tagInt32 in PT. rewrite GT in PT. cbn [obind] in PT. rewrite I4 in PT. cbn [negb] in PT. destruct x as [x|]; [|discriminate].
      destruct (set_replaces k s m T P F p l1 t0 l2 (Z.of_nat i) disk ty 0 4 (le 4 v) x m1 (Some t) m' LI IP OW) as (EX & SD & _ & VV & EN & TG & _); auto; [|apply size_4; exact I4|change (zlen (le 4 v)) with 4; lia|lia|].
      * apply (not_only _ t0). intros y EY. assert (y = t0) by (destruct l1 as [|? [|]]; cbn in EY; congruence). subst y. pose proof (ONLY t0 EY ET) as Q. rewrite TE in Q. congruence.
      * injection EX as ->. apply (FIN x); auto.
Qed.
Lemma set_int64 k s m T P F p L i nm ty v fuel disk t m' : life k s m T P F -> In p (members F) -> owned F p true L -> (forall e, In e L -> k e = true) ->
  nth_error T i = Some (nm, ty) -> ty = XBT_INT64 \/ ty = XBT_UNIX_TIME64_MSEC -> t_index m TAGS <> Ok 0 -> int64 v -> (List.length L <= fuel)%nat ->
  (forall x, L = [x] -> el_id m x = Ok (Z.of_nat i) -> el_type m x = Ok XBT_INT64) ->
  tagSetInt64 fuel disk m p (Z.of_nat i) v = rret (Some t, m') ->
  exists n, set_done k s m T P F p L (Z.of_nat i) t n 8 m' /\ t_index m' TAGS = t_index m TAGS /\ forall fuel', (List.length L < fuel')%nat -> tagGet fuel' m' p (Z.of_nat i) = rret (Some n) /\ bw_getInt64 m' n = Ok (Some v).
Proof.
  intros LI IP OW KK NT I4 IX IV FU ONLY E. destruct (set_ready _ _ _ _ _ _ _ _ _ _ _ LI IP OW IX NT) as (GT & TY & IB & RD). specialize (RD fuel FU). assert (I8 : XBT_IS_8 ty = true) by (destruct I4 as [-> | ->]; reflexivity).
  assert (FIN : forall n et, set_done k s m T P F p L (Z.of_nat i) t n (zlen (le 8 v)) m' -> el_type m' n = Ok et -> et = XBT_INT64 \/ et = XBT_UNIX_TIME64_MSEC -> rd m' (n + 24) (zlen (le 8 v)) = Ok (le 8 v) -> el_id m' n = Ok (Z.of_nat i) -> rd m' TAGS 16 = rd m TAGS 16 ->
    exists n, set_done k s m T P F p L (Z.of_nat i) t n 8 m' /\ t_index m' TAGS = t_index m TAGS /\ forall fuel', (List.length L < fuel')%nat -> tagGet fuel' m' p (Z.of_nat i) = rret (Some n) /\ bw_getInt64 m' n = Ok (Some v)).
  { intros n et SD ET EC VV EN TG. change (zlen (le 8 v)) with 8 in *. exists n. split; [exact SD|]. destruct (set_found _ _ _ _ _ _ _ _ _ _ _ _ _ LI OW SD EN TG) as (FO & _ & TI). split; [exact TI|]. intros fuel' FU'. specialize (FO fuel' FU'). split; [exact FO|].
    unfold bw_getInt64. rewrite (get_type _ _ _ _ _ _ _ _ _ _ _ _ _ _ _ _ LI OW SD EN TG IX NT eq_refl). cbn [obind]. rewrite ET. cbn [obind]. replace ((ty =? XBT_INT64) || (et =? XBT_INT64) || (et =? XBT_UNIX_TIME64_MSEC)) with true by (destruct EC as [-> | ->]; rewrite Z.eqb_refl, ?orb_true_r; reflexivity). rewrite VV. cbn [obind]. rewrite s64_le by exact IV. reflexivity. }
  unfold tagSetInt64 in E. destruct RD as [(NO & TA)|(l1 & t0 & l2 & EL & ET & NO & TA)]; rewrite TA, rbind_rret in E; apply some_outcome in E.
  - apply obind_inv in E as ([x m1] & PT & E). unfold pool_tagInt64 in PT. rewrite GT in PT. cbn [obind] in PT. rewrite I8 in PT. cbn [negb] in PT. destruct x as [x|]; [|discriminate].
    destruct (set_adds k s m T P F p L (Z.of_nat i) disk ty 8 8 (le 8 v) x m1 (Some t) m' LI IP OW NO PT TY (size_8 _ I8)) as (EX & SD & ET & VV & EN & TG); [change (zlen (le 8 v)) with 8; lia|lia|exact E|]. injection EX as ->. apply (FIN x ty); auto.
  - apply obind_inv in E as (et & TE & E). subst L. destruct (Z.eqb_spec et XBT_INT64) as [->|NE].
    + apply obind_inv in E as (m1 & W & E). injection E as -> ->. assert (IT : In t (members F)) by (eapply owned_in; [exact OW|apply in_or_app; right; left; reflexivity]).
      pose proof (life_whole _ _ _ _ _ _ LI) as (_ & _ & _ & _ & _ & SZ). destruct (SZ t IT) as (ty' & n' & z & T1 & _ & T2 & T3 & T4). rewrite TE in T1. injection T1 as <-. assert (z = 8). { revert T2. unfold XBT_Size2. cbn. destruct ((n' =? 0) || (n' =? 8)); intro Q; injection Q as <-; lia. }
      destruct (set_in_place k s m T P F p l1 t l2 (Z.of_nat i) (le 8 v) m' LI OW (KK t (in_elt t l1 l2)) ET NO ltac:(change (zlen (le 8 v)) with 8; lia) W) as (SD & TT & VV & EN & TG). rewrite TE in TT. apply (FIN t XBT_INT64); auto.
    + apply obind_inv in E as ([x m1] & PT & E). unfold pool_tagInt64 in PT. rewrite GT in PT. cbn [obind] in PT. rewrite I8 in PT. cbn [negb] in PT. destruct x as [x|]; [|discriminate].
      destruct (set_replaces k s m T P F p l1 t0 l2 (Z.of_nat i) disk ty 8 8 (le 8 v) x m1 (Some t) m' LI IP OW) as (EX & SD & TT & VV & EN & TG & _); auto; [|apply size_8; exact I8|change (zlen (le 8 v)) with 8; lia|lia|].
      * apply (not_only _ t0). intros y EY. assert (y = t0) by (destruct l1 as [|? [|]]; cbn in EY; congruence). subst y. pose proof (ONLY t0 EY ET) as Q. rewrite TE in Q. congruence.
      * injection EX as ->. apply (FIN x ty); auto.
Qed.
Lemma set_string k s m T P F p L i nm v fuel disk t m' : life k s m T P F -> In p (members F) -> owned F p true L -> (forall e, In e L -> k e = true) ->
  nth_error T i = Some (nm, XBT_STRING) -> t_index m TAGS <> Ok 0 -> cstring v -> (List.length L <= fuel)%nat ->
  (forall x, In x L -> el_id m x = Ok (Z.of_nat i) -> el_type m x = Ok XBT_STRING -> exists old, rd_str m (x + 24) = Ok old /\ zlen old + 1 <= s x - 24) ->
  (forall x, L = [x] -> el_id m x = Ok (Z.of_nat i) -> el_type m x = Ok XBT_STRING /\ forall old, rd_str m (x + 24) = Ok old -> (zlen v + 4) / 4 <= (zlen old + 4) / 4) ->
  tagSetString fuel disk m p (Z.of_nat i) v = rret (Some t, m') ->
  exists n, set_done k s m T P F p L (Z.of_nat i) t n (zlen v + 1) m' /\ t_index m' TAGS = t_index m TAGS /\ forall fuel', (List.length L < fuel')%nat -> tagGet fuel' m' p (Z.of_nat i) = rret (Some n) /\ tagGetStr fuel' m' p (Z.of_nat i) = rret (Some v).
Proof.
  intros LI IP OW KK NT IX IV FU OLD ONLY E. destruct (set_ready _ _ _ _ _ _ _ _ _ _ _ LI IP OW IX NT) as (GT & TY & IB & RD). specialize (RD fuel FU). assert (ZV : zlen (v ++ [0]) = zlen v + 1) by (rewrite zlen_app; reflexivity). pose proof (zlen_nonneg v).
  assert (FIN : forall n, set_done k s m T P F p L (Z.of_nat i) t n (zlen (v ++ [0])) m' -> el_type m' n = Ok XBT_STRING -> rd m' (n + 24) (zlen (v ++ [0])) = Ok (v ++ [0]) -> el_id m' n = Ok (Z.of_nat i) -> rd m' TAGS 16 = rd m TAGS 16 ->
    exists n, set_done k s m T P F p L (Z.of_nat i) t n (zlen v + 1) m' /\ t_index m' TAGS = t_index m TAGS /\ forall fuel', (List.length L < fuel')%nat -> tagGet fuel' m' p (Z.of_nat i) = rret (Some n) /\ tagGetStr fuel' m' p (Z.of_nat i) = rret (Some v)).
  { intros n SD ET VV EN TG. rewrite ZV in SD. exists n. split; [exact SD|]. destruct (set_found _ _ _ _ _ _ _ _ _ _ _ _ _ LI OW SD EN TG) as (FO & _ & TI). split; [exact TI|]. intros fuel' FU'. specialize (FO fuel' FU'). split; [exact FO|].
    unfold tagGetStr. rewrite FO, rbind_rret. unfold bw_getStr. rewrite ET. cbn [obind]. change (XBT_STRING =? XBT_STRING) with true. cbn iota. apply rd_inv in VV as (_ & _ & VV & _); [|apply zlen_nonneg]. rewrite (has_str m' (n + 24) v IV VV). reflexivity. }
  unfold tagSetString in E. destruct RD as [(NO & TA)|(l1 & t0 & l2 & EL & ET & NO & TA)]; rewrite TA, rbind_rret in E; apply some_outcome in E.
  - apply obind_inv in E as ([x m1] & PT & E). unfold pool_tagString in PT. rewrite GT in PT. cbn [obind] in PT. change (negb (XBT_STRING =? XBT_STRING)) with false in PT. cbn iota in PT. destruct x as [x|]; [|discriminate].
    destruct (set_adds k s m T P F p L (Z.of_nat i) disk XBT_STRING (zlen v + 1) (zlen v + 1 + 1) (v ++ [0]) x m1 (Some t) m' LI IP OW NO PT TY eq_refl) as (EX & SD & TT & VV & EN & TG); [lia|lia|exact E|]. injection EX as ->. apply (FIN x); auto.
  - assert (I0 : In t0 L) by (subst L; apply in_or_app; right; left; reflexivity). assert (IT : In t0 (members F)) by (eapply owned_in; [exact OW|exact I0]). pose proof (life_round _ _ _ _ _ _ LI t0 IT) as RO. apply obind_inv in E as (et & TE & E). apply obind_inv in E as (fits & FI & E). subst L. destruct fits.
    + apply obind_inv in E as (m1 & W & E). injection E as -> ->. assert (Q : et = XBT_STRING) by (destruct (Z.eqb_spec et XBT_STRING); [assumption|discriminate]). rewrite Q in *. change (XBT_STRING =? XBT_STRING) with true in FI. cbn iota in FI. apply obind_inv in FI as (old & RS & FI). assert (FL : (zlen v + 1 + 3) / 4 <= (zlen old + 1 + 3) / 4) by (apply Z.leb_le; congruence). destruct (OLD t I0 ET TE) as (old' & RS' & B). rewrite RS in RS'. injection RS' as <-.
      destruct (set_in_place k s m T P F p l1 t l2 (Z.of_nat i) (v ++ [0]) m' LI OW (KK t I0) ET NO ltac:(lia) W) as (SD & TT & VV & EN & TG). rewrite TE in TT. apply (FIN t); auto.
    + apply obind_inv in E as ([x m1] & PT & E). unfold pool_tagString in PT. rewrite GT in PT. cbn [obind] in PT. change (negb (XBT_STRING =? XBT_STRING)) with false in PT. cbn iota in PT. destruct x as [x|]; [|discriminate].
      destruct (set_replaces k s m T P F p l1 t0 l2 (Z.of_nat i) disk XBT_STRING (zlen v + 1) (zlen v + 1 + 1) (v ++ [0]) x m1 (Some t) m' LI IP OW) as (EX & SD & TT & VV & EN & TG & _); auto; [|lia|lia|].
      * apply (not_only _ t0). intros y EY. assert (y = t0) by (destruct l1 as [|? [|]]; cbn in EY; congruence). subst y. destruct (ONLY t0 EY ET) as [Q1 Q2]. rewrite TE in Q1. injection Q1 as ->. rewrite Z.eqb_refl in FI. apply obind_inv in FI as (old & RS & FI). specialize (Q2 old RS). assert (~ ((zlen v + 1 + 3) / 4 <= (zlen old + 1 + 3) / 4)) by (apply Z.leb_nle; congruence). lia.
      * injection EX as ->. apply (FIN x); auto.
Qed.

(** ** What goes wrong *)
Lemma int32_replaces k s m T P F p l1 t l2 i nm ty v fuel disk r m' : life k s m T P F -> In p (members F) -> owned F p true (l1 ++ t :: l2) ->
  nth_error T i = Some (nm, ty) -> XBT_IS_4 ty = true -> t_index m TAGS <> Ok 0 -> (List.length (l1 ++ t :: l2) <= fuel)%nat ->
  el_id m t = Ok (Z.of_nat i) -> (forall e, In e l1 -> el_id m e <> Ok (Z.of_nat i)) -> el_type m t <> Ok XBT_INT32 -> tagSetInt32 fuel disk m p (Z.of_nat i) v = rret (r, m') ->
  exists x m1, fresh_with disk m (Z.of_nat i) ty 0 ELEMENT (le 4 v) = Ok (Some x, m1) /\ replace_by p t (Some x, m1) = Ok (r, m').
Proof.
  intros LI IP OW NT I4 IX FU ET NO NI E. destruct (set_ready _ _ _ _ _ _ _ _ _ _ _ LI IP OW IX NT) as (GT & TY & IB & _). pose proof (life_whole _ _ _ _ _ _ LI) as (B & a & I & EL & _).
  assert (SH : shows m p (l1 ++ t :: l2)) by (eapply inv_shows; eauto). assert (HI : forall e, In e (l1 ++ t :: l2) -> has_id m e) by (intros e J; eapply inv_has_id; [exact EL|eapply owned_in; eauto]).
  unfold tagSetInt32 in E. rewrite (tagGet_found m p l1 t l2 (Z.of_nat i) fuel SH HI ET NO FU), rbind_rret in E. apply some_outcome in E. apply obind_inv in E as (et & TE & E). destruct (Z.eqb_spec et XBT_INT32) as [->|_]; [congruence|].
  apply obind_inv in E as ([x m1] & PT & E). unfold pool_tagInt32 in PT. rewrite GT in PT. cbn [obind] in PT. rewrite I4 in PT. cbn [negb] in PT. destruct x as [x|]; [|discriminate]. exists x, m1. auto.
Qed.
Lemma int32_lost k s m T P F p l1 t l2 i nm ty v fuel disk r m' : life k s m T P F -> In p (members F) -> owned F p true (l1 ++ t :: l2) -> l1 ++ l2 <> [] ->
  nth_error T i = Some (nm, ty) -> XBT_IS_4 ty = true -> t_index m TAGS <> Ok 0 -> (List.length (l1 ++ t :: l2) <= fuel)%nat ->
  el_id m t = Ok (Z.of_nat i) -> (forall e, In e l1 -> el_id m e <> Ok (Z.of_nat i)) -> el_type m t <> Ok XBT_INT32 -> tagSetInt32 fuel disk m p (Z.of_nat i) v = rret (r, m') ->
  r = Some t /\ exists x, x <> t /\ forall n, (List.length (l1 ++ t :: l2) < n)%nat -> forward n m' p 0 = rret (l1 ++ x :: l2) /\ ~ In t (l1 ++ x :: l2).
Proof.
  intros LI IP OW NE NT I4 IX FU ET NO NI E. destruct (set_ready _ _ _ _ _ _ _ _ _ _ _ LI IP OW IX NT) as (GT & TY & IB & _). destruct (int32_replaces _ _ _ _ _ _ _ _ _ _ _ _ _ _ _ _ _ _ LI IP OW NT I4 IX FU ET NO NI E) as (x & m1 & FR & RB).
  destruct (set_replaces k s m T P F p l1 t l2 (Z.of_nat i) disk ty 0 4 (le 4 v) x m1 r m' LI IP OW) as (EX & SD & _ & _ & _ & _ & XT); auto; [apply size_4; exact I4|change (zlen (le 4 v)) with 4; lia|lia|]. split; [exact EX|]. exists x. split; [exact XT|].
  destruct (made _ _ _ _ _ _ _ _ _ _ _ _ _ _ LI FR TY (size_4 _ I4) ltac:(change (zlen (le 4 v)) with 4; lia) ltac:(lia)) as (L1 & NX & _). destruct (replaced F p l1 t l2 x OW) as (F' & AD & OW' & OT). pose proof (life_whole _ _ _ _ _ _ L1) as (B1 & a1 & I1 & E1 & _).
  assert (NOT : ~ In (Some (p, true), [t]) ((None, [x]) :: F)).
  { intros [Q|Q]; [discriminate|]. pose proof (life_whole _ _ _ _ _ _ LI) as (B & a & _ & EL & _). pose proof (owner_one F p true [t] (l1 ++ t :: l2) (inv_owners _ _ _ _ EL) (or_introl Q) OW) as Q2. destruct l1 as [|y l1]; cbn [app] in Q2; [injection Q2 as <-; apply NE; reflexivity|]. destruct l1; discriminate. }
  destruct (inv_replace _ _ _ _ _ _ _ _ _ E1 AD NOT) as (tr & EA & IF & _). unfold replace_by in RB. rewrite EA in RB. cbn [obind] in RB. injection RB as <- <-. assert (IP' : In p (members F')). { destruct OW' as [O|[Q _]]; [|destruct l1; discriminate]. destruct IF as (h & a & _ & _ & S). apply (sh_head _ _ S _ _ _ O). }
  assert (SH : shows (final m1 tr) p (l1 ++ x :: l2)) by (eapply inv_shows; eauto). intros n FN. split; [apply forward_ok; [exact SH|rewrite !app_length in *; cbn in *; lia]|]. intro J. apply in_app_or in J. assert (ND : NoDup (l1 ++ t :: l2)). { pose proof (life_whole _ _ _ _ _ _ LI) as (B & a & _ & EL & _). destruct (inv_shows _ _ _ _ _ _ EL IP OW) as (_ & _ & ND & _). exact ND. }
  apply NoDup_remove_2 in ND. apply ND. apply in_or_app. destruct J as [J|[J|J]]; [auto|congruence|auto].
Qed.
Lemma int32_endless k s m T P F p t i nm ty v fuel disk r m' : life k s m T P F -> In p (members F) -> owned F p true [t] ->
  nth_error T i = Some (nm, ty) -> XBT_IS_4 ty = true -> t_index m TAGS <> Ok 0 -> (1 <= fuel)%nat ->
  el_id m t = Ok (Z.of_nat i) -> el_type m t <> Ok XBT_INT32 -> tagSetInt32 fuel disk m p (Z.of_nat i) v = rret (r, m') -> forall n, forward n m' p 0 = None.
Proof.
  intros LI IP OW NT I4 IX FU ET NI E. destruct (set_ready _ _ _ _ _ _ _ _ _ _ _ LI IP OW IX NT) as (GT & TY & IB & _). destruct (int32_replaces k s m T P F p [] t [] i nm ty v fuel disk r m' LI IP OW NT I4 IX FU ET ltac:(intros e []) NI E) as (x & m1 & FR & RB).
  destruct (made _ _ _ _ _ _ _ _ _ _ _ _ _ _ LI FR TY (size_4 _ I4) ltac:(change (zlen (le 4 v)) with 4; lia) ltac:(lia)) as (L1 & NX & _). pose proof (life_whole _ _ _ _ _ _ L1) as (B1 & a1 & I1 & E1 & _). destruct OW as [OW|[OW _]]; [|discriminate].
  destruct (only_endless _ _ _ _ p t x E1 (or_intror OW) (or_introl eq_refl)) as (tr & EA & EN). unfold replace_by in RB. rewrite EA in RB. cbn [obind] in RB. injection RB as <- <-. exact EN.
Qed.
Lemma time_breaks k s m T P F p l1 t l2 id v fuel disk r m' : life k s m T P F -> In p (members F) -> owned F p true (l1 ++ t :: l2) -> (List.length (l1 ++ t :: l2) <= fuel)%nat ->
  el_id m t = Ok id -> (forall e, In e l1 -> el_id m e <> Ok id) -> 0 <= v < 4294967296 -> In (t + 28) (members F) -> tagSetTime fuel disk m p id v = rret (r, m') -> el_offset m (t + 28) = Ok (t + 28) /\ el_offset m' (t + 28) = Ok 0.
Proof.
  intros LI IP OW FU ET NO V IN E. pose proof (life_whole _ _ _ _ _ _ LI) as (B & a & I & EL & _). destruct (names_pool _ _ _ _ _ _ _ I) as [PO _].
  assert (SH : shows m p (l1 ++ t :: l2)) by (eapply inv_shows; eauto). assert (HI : forall e, In e (l1 ++ t :: l2) -> has_id m e) by (intros e J; eapply inv_has_id; [exact EL|eapply owned_in; eauto]).
  unfold tagSetTime in E. rewrite (tagGet_found m p l1 t l2 id fuel SH HI ET NO FU), rbind_rret in E. apply some_outcome in E. apply obind_inv in E as (m1 & W & E). injection E as <- <-. destruct (wr_kept _ _ _ _ W) as (W1 & W2 & _ & GW). change (zlen (le 8 v)) with 8 in *.
  split; [destruct EL as (h & a' & _ & R & _); exact (rep_off _ _ _ R _ IN)|]. unfold el_offset, rd_s32. assert (E8 : le 8 v = le 4 v ++ [0; 0; 0; 0]). { cbn [le]. cbn [app]. do 4 f_equal. rewrite !Z.div_div by lia. rewrite !(Z.div_small v) by lia. reflexivity. }
  rewrite E8 in GW. apply rd_inv in GW; [|lia]. destruct GW as (_ & _ & GW & _). apply has_app in GW as [_ GW]. change (zlen (le 4 v)) with 4 in GW. replace (t + 24 + 4) with (t + 28) in GW by lia. apply has_rd in GW. change (zlen [0; 0; 0; 0]) with 4 in GW. rewrite GW. reflexivity.
Qed.
Lemma child_life k s m T P F F' p id disk ty n z bs x m1 r m' : life k s m T P F -> fresh_with disk m id ty n ELEMENT bs = Ok (Some x, m1) -> 0 <= ty < 256 -> XBT_Size2 ty n = Ok z -> zlen bs <= (z + 3) / 4 * 4 -> -32768 <= id < 32768 ->
  In p (members F) -> adds (set k x true) p x ((None, [x]) :: F) F' -> add_new p (Some x, m1) = Ok (r, m') -> life (set k x true) (set s x (24 + (z + 3) / 4 * 4)) m' T P F'.
Proof.
  intros LI FR TY SZ BS ID IP AD E. destruct (made _ _ _ _ _ _ _ _ _ _ _ _ _ _ LI FR TY SZ BS ID) as (L1 & _). unfold add_new in E. apply obind_inv in E as ([ok tr] & EA & E). injection E as <- <-. exact (life_add _ _ _ _ _ _ p x F' ok tr L1 (or_intror IP) AD EA).
Qed.
