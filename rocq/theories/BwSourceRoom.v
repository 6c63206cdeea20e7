(** The room for converting a pool; what becomes of it. *)
From Verif Require Import Base BaseFacts Types ListFacts Sort Symtab Xb XbSpec XbFacts XbWrite WriteProofs XbBin BinFill BinSpec Bw BwFacts BwRing BwSpec BwHist BwAlloc BwProofs BwRead BwTop BwSym BwReg BwFileSpec BwFileProofs BwNamesSpec BwNamesFacts BwNamesInv BwNamesReg BwNamesOps BwNamesIndex BwNamesProofs BwLifeSpec BwLife BwSet BwAttrProofs BwSource BwSourceSpec BwSourceProofs.

Lemma nodup_join {A} (l1 l2 : list A) : NoDup l1 -> NoDup l2 -> (forall x, In x l1 -> In x l2 -> False) -> NoDup (l1 ++ l2).
Proof. induction 1 as [|x l NI ND IH]; intros N2 D; [exact N2|]. cbn [app]. constructor; [|apply IH; [exact N2|intros y I1 I2; apply (D y); [right|]; assumption]]. intro I. apply in_app_iff in I as [I|I]; [exact (NI I)|]. apply (D x); [left; reflexivity|exact I]. Qed.
(** ** Parts that lie apart *)
Lemma total_app l1 l2 : total (l1 ++ l2) = total l1 + total l2.
Proof. unfold total. induction l1 as [|x l1 IH]; cbn [app fold_right]; lia. Qed.
Lemma total_filter f (R : list (Z * Z)) : total (map snd R) = total (map snd (filter f R)) + total (map snd (filter (fun b => negb (f b)) R)).
Proof. unfold total. induction R as [|b R IH]; [reflexivity|]. cbn [filter map fold_right]. destruct (f b); cbn [negb map fold_right]; lia. Qed.
Lemma pairs_filter f (R : list (Z * Z)) : ForallOrdPairs apart R -> ForallOrdPairs apart (filter f R).
Proof.
  induction 1 as [|b R FA O IH]; [constructor|]. cbn [filter]. destruct (f b); [|exact IH]. constructor; [|exact IH]. apply Forall_forall. intros c J. apply filter_In in J as [J _]. exact (proj1 (Forall_forall _ _) FA c J).
Qed.
Lemma pairs_app (R1 R2 : list (Z * Z)) : ForallOrdPairs apart R1 -> ForallOrdPairs apart R2 -> (forall b c, In b R1 -> In c R2 -> apart b c) -> ForallOrdPairs apart (R1 ++ R2).
Proof.
  induction 1 as [|b R FA O IH]; intros O2 X; [exact O2|]. cbn [app]. constructor; [|apply IH; [exact O2|intros; apply X; [right|]; assumption]]. apply Forall_app. split; [exact FA|]. apply Forall_forall. intros c J. apply X; [left; reflexivity|exact J].
Qed.
Lemma filter_short {A} (f : A -> bool) l : (List.length (filter f l) <= List.length l)%nat.
Proof. induction l as [|x l IH]; [apply Nat.le_refl|]. cbn [filter]. destruct (f x); cbn [List.length]; lia. Qed.
Lemma packed n : forall R lo hi, (List.length R <= n)%nat -> ForallOrdPairs apart R -> (forall y k, In (y, k) R -> lo <= y /\ 0 < k /\ y + k <= hi) -> lo <= hi -> total (map snd R) <= hi - lo.
Proof.
  induction n as [|n IH]; intros R lo hi LE O IN LH; (destruct R as [|[y j] R]; [cbn; lia|]); [cbn in LE; lia|]. inversion O as [|? ? FA O2]; subst. destruct (IN y j (or_introl eq_refl)) as (Y1 & Y2 & Y3).
  cbn [map]. change (total (snd (y, j) :: map snd R)) with (j + total (map snd R)). rewrite (total_filter (fun b => fst b + snd b <=? y) R).
  assert (L1 : total (map snd (filter (fun b => fst b + snd b <=? y) R)) <= y - lo).
  { apply IH; [|apply pairs_filter, O2| |lia].
    - cbn in LE. pose proof (filter_short (fun b => fst b + snd b <=? y) R). lia.
    - intros z i J. apply filter_In in J as [J Q]. cbn [fst snd] in Q. destruct (IN z i (or_intror J)). lia. }
  assert (L2 : total (map snd (filter (fun b => negb (fst b + snd b <=? y)) R)) <= hi - (y + j)).
  { apply IH; [|apply pairs_filter, O2| |lia].
    - cbn in LE. pose proof (filter_short (fun b => negb (fst b + snd b <=? y)) R). lia.
    - intros z i J. apply filter_In in J as [J Q]. cbn [fst snd] in Q. destruct (IN z i (or_intror J)) as (? & ? & ?). pose proof (proj1 (Forall_forall _ _) FA _ J) as AP. unfold apart in AP. cbn [fst snd] in AP. apply negb_true_iff, Z.leb_gt in Q. lia. }
  lia.
Qed.
Lemma names_fit L i : names_room L <= 4 * zlen (stored i L).
Proof.
  revert i. induction L as [|[n ty] L IH]; intro i; [vm_compute; congruence|]. cbn [stored]. rewrite zlen_app, entry_len. specialize (IH (i + 1)). unfold names_room in *. cbn [map]. change (total (?a :: ?b)) with (a + total b). cbn [fst]. pose proof (esize_ge n). pose proof (zlen_nonneg n). lia.
Qed.

(** ** One place for every element *)
Section Room.
Variables (k : Z -> bool) (s : Z -> Z) (m : list Z) (T P : names) (F : forest).
Hypothesis LI : life k s m T P F.
Hypothesis BY : bytes m.
Local Notation tree := (tree_at k s m T P F).

Lemma same_chain (G : forest) o L o' L' e : NoDup (members G) -> In (o, L) G -> In (o', L') G -> In e L -> In e L' -> o = o' /\ L = L'.
Proof.
  induction G as [|[q M] G IH]; [intros _ []|]. rewrite members_cons. intros ND I1 I2 E1 E2. destruct (nodup_app _ _ ND) as (_ & ND2 & DJ). destruct I1 as [I1|I1], I2 as [I2|I2].
  - injection I1 as -> ->. injection I2 as -> ->. auto.
  - injection I1 as -> ->. exfalso. apply (DJ e E1). eapply members_in; eauto.
  - injection I2 as -> ->. exfalso. apply (DJ e E2). eapply members_in; eauto.
  - apply IH; auto.
Qed.
Lemma one_list (G : forest) p c L L' : NoDup (owners G) -> owned G p c L -> owned G p c L' -> L = L'.
Proof.
  intros ND [O|[-> U]] [O'|[-> U']]; [|exfalso; eapply U'; eauto|exfalso; eapply U; eauto|reflexivity].
  apply in_split in O as (F1 & F2 & ->). rewrite owners_app in ND. cbn in ND. apply NoDup_remove_2 in ND. apply in_app_iff in O' as [O'|[O'|O']]; [|congruence|]; exfalso; apply ND; apply in_or_app; [left|right]; eapply owners_in; eauto.
Qed.
Definition owns c p e : Prop := exists L, owned F p c L /\ In e L.
Lemma owns_unique c c' p q e : NoDup (members F) -> owns c p e -> owns c' q e -> p = q.
Proof.
  intros ND (L & [O|[-> _]] & I) (L' & [O'|[-> _]] & I'); try contradiction. destruct (same_chain F _ _ _ _ e ND O O' I I') as [E _]. congruence.
Qed.
Inductive below : Z -> Z -> Prop := below_here x : below x x | below_step x p e : below x p -> owns true p e -> below x e.
Lemma shape_of_life : NoDup (members F) /\ NoDup (owners F).
Proof. destruct (life_whole _ _ _ _ _ _ LI) as (B & a & _ & (h & b & _ & _ & S) & _). split; apply S. Qed.
Lemma kid_height t kids : In t kids -> (bheight t <= fold_right Nat.max 0 (map bheight kids))%nat.
Proof. induction kids as [|d l IH]; [intros []|]. cbn [map fold_right]. intros [->|J]; [|specialize (IH J)]; lia. Qed.
Lemma forall2_left {A B} (R : A -> B -> Prop) l l' x : Forall2 R l l' -> In x l -> exists y, In y l' /\ R x y.
Proof. induction 1 as [|a b l l' H _ IH]; [intros []|]. intros [<-|J]; [exists b; split; [left; reflexivity|exact H]|]. destruct (IH J) as (y & J' & H'). exists y. split; [right; exact J'|exact H']. Qed.
Lemma kid_tree x t c : tree x t -> owns true x c -> exists u, tree c u /\ (bheight u < bheight t)%nat.
Proof.
  intros TR (L' & O' & I). destruct TR as [x A L name ty v attrs kids _ _ _ _ O _ F2]. assert (L' = L) as -> by (eapply one_list; [apply shape_of_life|exact O'|exact O]).
  destruct (forall2_left _ _ _ c F2 I) as (u & J & TU). exists u. split; [exact TU|]. apply kid_height in J. cbn [bheight]. lia.
Qed.
Lemma below_tree x e : below x e -> forall t, tree x t -> exists u, tree e u /\ (bheight u <= bheight t)%nat.
Proof.
  induction 1 as [x|x p e B IH O]; intros t TR; [exists t; auto|]. destruct (IH t TR) as (u & TU & H). destruct (kid_tree p u e TU O) as (w & TW & H2). exists w. split; [exact TW|lia].
Qed.
Lemma no_cycle h : forall x t c, (bheight t <= h)%nat -> tree x t -> owns true x c -> below c x -> False.
Proof.
  induction h as [|h IH]; intros x t c H TR O B; [destruct t; cbn in H; lia|]. destruct (kid_tree x t c TR O) as (u & TU & H1). destruct (below_tree c x B u TU) as (w & TW & H2). apply (IH x w c); auto. lia.
Qed.
Lemma below_or a e : below a e -> forall b, below b e -> below a b \/ below b a.
Proof.
  destruct shape_of_life as [ND _]. induction 1 as [a|a p e B IH O]; intros b BB; [auto|]. inversion BB as [|? q ? B2 O2]; subst.
  - left. eapply below_step; eauto.
  - assert (q = p) as -> by (eapply owns_unique; eauto). auto.
Qed.
Lemma below_up c d x : below c d -> c <> d -> owns true x d -> below c x.
Proof. destruct shape_of_life as [ND _]. intros B N O. inversion B as [|? p ? B2 O2]; subst; [congruence|]. assert (p = x) as -> by (eapply owns_unique; eauto). exact B2. Qed.
Lemma siblings x t c d e : tree x t -> owns true x c -> owns true x d -> below c e -> below d e -> c = d.
Proof.
  intros TR OC OD BC BD. destruct (Z.eq_dec c d) as [E|N]; [exact E|]. exfalso. destruct (below_or c e BC d BD) as [B|B].
  - apply (no_cycle (bheight t) x t c (Nat.le_refl _) TR OC). apply (below_up c d x B N OD).
  - apply (no_cycle (bheight t) x t d (Nat.le_refl _) TR OD). apply (below_up d c x B ltac:(congruence) OC).
Qed.

Definition space (l : list Z) : Z := total (map s l).
Lemma space_app l1 l2 : space (l1 ++ l2) = space l1 + space l2.
Proof. unfold space. rewrite map_app. apply total_app. Qed.
Lemma attrs_fit A attrs : Forall2 (attr_says k s m P) A attrs -> (forall a, In a A -> In a (members F)) -> (forall n ty v, In (n, ty, v) attrs -> complete ty v) -> total (map attr_room attrs) <= 4 * space A.
Proof.
  induction 1 as [|a [[n ty] v] A attrs [KA SA] _ IH]; intros IN CO; [vm_compute; congruence|]. specialize (IH ltac:(intros; apply IN; right; assumption) ltac:(intros; eapply CO; right; eassumption)).
  destruct (leaf k s m T P F LI BY a n P ty v (IN a (or_introl eq_refl)) SA (CO n ty v (or_introl eq_refl))) as (r & _ & (_ & _ & _ & VS & _) & LV). unfold space in *. cbn [map]. change (total (?a :: ?b)) with (a + total b). unfold attr_room at 1. lia.
Qed.
(** The elements and the attributes of the tree, each once *)
Definition parts x t (E A : list Z) : Prop :=
  NoDup E /\ NoDup A /\ (forall e, In e E -> below x e /\ k e = true /\ In e (members F)) /\ (forall a, In a A -> k a = false /\ In a (members F) /\ exists e, below x e /\ owns false e a) /\
  bin_room t <= 4 * (space E + space A) /\ (bheight t <= List.length E)%nat.
Lemma below_trans a b c : below a b -> below b c -> below a c.
Proof. intros AB BC. induction BC as [x|x p e B IH O]; [exact AB|]. eapply below_step; [apply IH, AB|exact O]. Qed.
Lemma parts_kids x t L kids : tree x t -> NoDup L -> (forall c, In c L -> owns true x c) -> Forall2 (fun c d => exists E A, parts c d E A) L kids ->
  exists E A, NoDup E /\ NoDup A /\ (forall e, In e E -> (exists c, In c L /\ below c e) /\ k e = true /\ In e (members F)) /\ (forall a, In a A -> k a = false /\ In a (members F) /\ exists c e, In c L /\ below c e /\ owns false e a) /\
  total (map bin_room kids) <= 4 * (space E + space A) /\ (fold_right Nat.max 0 (map bheight kids) <= List.length E)%nat.
Proof.
  destruct shape_of_life as [NDM _]. intros TR ND OW F2. induction F2 as [|c d L kids (E1 & A1 & N1 & M1 & HE1 & HA1 & R1 & H1) F2 IH].
  - exists [], []. split; [apply NoDup_nil|split; [apply NoDup_nil|split; [intros ? []|split; [intros ? []|split; [vm_compute; congruence|apply Nat.le_refl]]]]].
  - inversion ND as [|? ? NI ND2]; subst. destruct (IH ND2 ltac:(intros; apply OW; right; assumption)) as (E2 & A2 & N2 & M2 & HE2 & HA2 & R2 & H2).
    assert (SEP : forall e c2, below c e -> In c2 L -> below c2 e -> False). { intros e c2 B1 I2 B2. assert (c = c2) by (eapply (siblings x t); eauto; apply OW; [left; reflexivity|right; exact I2]). subst c2. exact (NI I2). }
    exists (E1 ++ E2), (A1 ++ A2). split; [|split; [|split; [|split; [|split]]]].
    + apply nodup_join; auto. intros e I1 I2. destruct (HE1 e I1) as (B1 & _). destruct (HE2 e I2) as ((c2 & J & B2) & _). eauto.
    + apply nodup_join; auto. intros a I1 I2. destruct (HA1 a I1) as (_ & _ & e1 & B1 & O1). destruct (HA2 a I2) as (_ & _ & c2 & e2 & J & B2 & O2). assert (e2 = e1) as -> by (eapply owns_unique; eauto). eauto.
    + intros e I. apply in_app_iff in I as [I|I]; [destruct (HE1 e I) as (B & Q); split; [exists c; split; [left; reflexivity|exact B]|exact Q]|]. destruct (HE2 e I) as ((c2 & J & B) & Q). split; [exists c2; split; [right; exact J|exact B]|exact Q].
    + intros a I. apply in_app_iff in I as [I|I]; [destruct (HA1 a I) as (K1 & Q1 & e & B & O); repeat split; auto; exists c, e; repeat split; auto; left; reflexivity|]. destruct (HA2 a I) as (K1 & Q1 & c2 & e & J & B & O). repeat split; auto. exists c2, e. repeat split; auto. right. exact J.
    + rewrite !space_app. cbn [map]. change (total (?a :: ?b)) with (a + total b). lia.
    + rewrite app_length. cbn [map fold_right]. lia.
Qed.
Lemma parts_of : forall x t, tree x t -> (forall u, In u (belements t) -> convertible u) -> exists E A, parts x t E A.
Proof.
  destruct shape_of_life as [NDM NDO]. intros x t TR0. pose proof TR0 as TR. revert TR. revert x t TR0. apply (tree_rec k s m T P F (fun x t => tree x t -> (forall u, In u (belements t) -> convertible u) -> exists E A, parts x t E A)).
  intros x A L name ty v attrs kids IX KX SX OA OL AT TK IH TR CO. destruct (CO _ (or_introl eq_refl)) as (CX & _ & _ & CA).
  assert (NL : forall c M, owned F x c M -> NoDup M). { intros c M [O|[-> _]]; [|constructor]. apply in_split in O as (F1 & F2 & EF). rewrite EF, members_app, members_cons in NDM. destruct (nodup_app _ _ NDM) as (_ & ND2 & _). destruct (nodup_app _ _ ND2) as (ND3 & _ & _). exact ND3. }
  assert (IN : forall a, In a A -> In a (members F)) by (intros a I; exact (owned_in _ _ _ _ _ OA I)).
  destruct (parts_kids x _ L kids TR (NL _ _ OL)) as (E2 & A2 & N2 & M2 & HE2 & HA2 & R2 & H2).
  - intros c I. exists L. auto.
  - assert (CK : forall c u, In c kids -> In u (belements c) -> convertible u) by (intros c u J1 J2; apply CO; right; apply in_flat_map; exists c; auto). clear - IH TK CK. induction IH as [|c d L kids HH FF IHF]; [constructor|]. inversion TK as [|? ? ? ? T1 T2]; subst. constructor; [apply HH; [exact T1|intros u J; apply (CK d); [left; reflexivity|exact J]]|apply IHF; [exact T2|intros c0 u J; apply CK; right; exact J]].
  - assert (NOX : forall c, In c L -> below c x -> False) by (intros c I B; apply (no_cycle _ x _ c (Nat.le_refl _) TR); [exists L; auto|exact B]).
    exists (x :: E2), (A ++ A2). split; [|split; [|split; [|split; [|split]]]].
    + constructor; [|exact N2]. intro I. destruct (HE2 x I) as ((c & J & B) & _). eauto.
    + apply nodup_join; [apply (NL _ _ OA)|exact M2|]. intros a I1 I2. destruct (HA2 a I2) as (_ & _ & c & e & J & B & O). assert (e = x) as -> by (eapply owns_unique; [exact NDM|exact O|exists A; eauto]). eauto.
    + intros e [<-|I]; [split; [constructor|auto]|]. destruct (HE2 e I) as ((c & J & B) & Q). split; [|exact Q]. eapply below_trans; [eapply below_step; [constructor|exists L; eauto]|exact B].
    + intros a I. apply in_app_iff in I as [I|I].
      * split; [|split; [auto|exists x; split; [constructor|exists A; auto]]]. destruct (forall2_left _ _ _ a AT I) as ([[n0 ty0] v0] & _ & KA & _). exact KA.
      * destruct (HA2 a I) as (K1 & Q1 & c & e & J & B & O). repeat split; auto. exists e. split; [|exact O]. eapply below_trans; [eapply below_step; [constructor|exists L; eauto]|exact B].
    + pose proof (attrs_fit A attrs AT IN ltac:(intros n0 ty0 v0 J; apply (CA n0 ty0 v0 J))) as RA. destruct (leaf k s m T P F LI BY x name T ty v IX SX CX) as (r & _ & (_ & _ & _ & VS & _) & LV). rewrite space_app. cbn [bin_room]. unfold space in *. cbn [map]. change (total (?a :: map s E2)) with (a + total (map s E2)). lia.
    + cbn [bheight List.length]. lia.
Qed.

(** ** All of it together *)
Lemma elements_apart l : NoDup l -> (forall e, In e l -> In e (members F)) -> ForallOrdPairs apart (map (fun e => (e, s e)) l).
Proof.
  destruct (life_whole _ _ _ _ _ _ LI) as (B & a & _ & E & _). induction 1 as [|x l NI ND IH]; intro IN; [constructor|]. cbn [map]. constructor; [|apply IH; intros; apply IN; right; assumption].
  apply Forall_forall. intros c J. apply in_map_iff in J as (e & <- & J). unfold apart. cbn [fst snd]. apply (inv_apart _ _ _ _ _ _ E); [apply IN; left; reflexivity|apply IN; right; exact J|intros ->; exact (NI J)].
Qed.
Lemma names_part n x L y j : In (y, j) (names_at n L) -> In (y, j) (regions n x L).
Proof. intro J. apply in_or_app. left. exact J. Qed.
Lemma names_total n L : total (map snd (names_at n L)) = zlen (stored 0 L).
Proof. destruct L; [reflexivity|]. cbn [names_at map snd]. unfold total. cbn [fold_right]. lia. Qed.
Lemma all_fit l : NoDup l -> (forall e, In e l -> In e (members F)) -> zlen (stored 0 T) + zlen (stored 0 P) + space l <= zlen m - HEADER.
Proof.
  intros ND IN. destruct (life_whole _ _ _ _ _ _ LI) as (B & a & (n & x & n' & x' & PO & TT & TP & SP) & E & IB & _). pose proof PO as (_ & _ & _ & _ & HA & _).
  destruct (spread_app _ _ _ SP) as (S1 & S2 & X1). destruct (spread_app _ _ _ S2) as (S3 & S4 & X2).
  assert (ONE : forall q M, ForallOrdPairs apart (names_at q M)) by (intros q [|e M]; [constructor|repeat constructor]).
  assert (Q : total (map snd (names_at n T ++ names_at n' P ++ map (fun e => (e, s e)) l)) <= a - HEADER).
  { apply (packed (List.length (names_at n T ++ names_at n' P ++ map (fun e => (e, s e)) l))); [apply Nat.le_refl| | |lia].
    - apply pairs_app; [apply ONE|apply pairs_app; [apply ONE|apply elements_apart; assumption|]|].
      + intros [y1 j1] c J1 J2. apply in_map_iff in J2 as (e & <- & J2). apply X2; [apply names_part, J1|apply IB, IN, J2].
      + intros [y1 j1] c J1 J2. apply X1; [apply names_part, J1|]. destruct c as [y2 j2]. apply in_app_iff in J2 as [J2|J2]; apply in_or_app; [left; apply names_part, J2|right]. apply in_map_iff in J2 as (e & Q & J2). rewrite <- Q. apply IB, IN, J2.
    - intros y j J. apply (spread_in _ _ _ _ SP). apply in_app_iff in J as [J|J]; apply in_or_app; [left; apply names_part, J|right]. apply in_app_iff in J as [J|J]; apply in_or_app; [left; apply names_part, J|right]. apply in_map_iff in J as (e & Q & J). rewrite <- Q. apply IB, IN, J. }
  rewrite !map_app, !total_app, !names_total, map_map in Q. unfold space. change (map (fun x0 : Z => snd (x0, s x0)) l) with (map s l) in Q. lia.
Qed.
Lemma space_ge l : (forall e, In e l -> In e (members F)) -> 24 * zlen l <= space l.
Proof.
  destruct (life_whole _ _ _ _ _ _ LI) as (B & a & I & E & _). destruct (names_pool _ _ _ _ _ _ _ I) as [PO _]. induction l as [|x l IH]; intro IN; [vm_compute; congruence|]. specialize (IH ltac:(intros; apply IN; right; assumption)). destruct (inv_in _ _ _ _ _ _ E PO (IN x (or_introl eq_refl))) as (_ & ? & _). unfold space in *. cbn [map]. change (total (?a :: ?b)) with (a + total b). unfold zlen in *. cbn [List.length]. lia.
Qed.
Lemma members_few : 24 * zlen (members F) <= zlen m.
Proof. destruct shape_of_life as [ND _]. pose proof (all_fit (members F) ND ltac:(auto)). pose proof (space_ge (members F) ltac:(auto)). pose proof (zlen_nonneg (stored 0 T)). pose proof (zlen_nonneg (stored 0 P)). unfold HEADER in *. lia. Qed.

Lemma tree_room x t f : tree x t -> (forall u, In u (belements t) -> convertible u) -> zlen f <= 1200 -> convert_room f T P t <= buffer_size m /\ (bheight t <= List.length (members F))%nat.
Proof.
  intros TR CO LF. destruct (parts_of x t TR CO) as (E & A & NE & NA & HE & HA & RM & HH). split.
  - assert (ND : NoDup (E ++ A)) by (apply nodup_join; auto; intros e I1 I2; destruct (HE e I1) as (_ & K1 & _); destruct (HA e I2) as (K2 & _); congruence).
    pose proof (all_fit (E ++ A) ND) as AF. rewrite space_app in AF. specialize (AF ltac:(intros e I; apply in_app_iff in I as [I|I]; [apply HE|apply HA]; exact I)). unfold convert_room, buffer_size. pose proof (names_fit T 0). pose proof (names_fit P 0). unfold HEADER in AF. lia.
  - assert (List.length E <= List.length (members F))%nat by (apply NoDup_incl_length; [exact NE|intros e I; apply HE, I]). lia.
Qed.

(** ** What the converter sees *)
Lemma ext_elements : forall t t', ext t t' -> forall u', In u' (belements t') -> exists u, In u (belements t) /\ ext u u'.
Proof.
  fix IH 3. intros t t' [n ty v src attrs attrs' kids kids' FI FA FK] u' [<-|J]; [exists (BNode n ty v attrs kids); split; [left; reflexivity|constructor; assumption]|].
  assert (Q : exists u, In u (flat_map belements kids) /\ ext u u').
  { induction FK as [|c c' kids kids' X FK IHF]; [destruct J|]. cbn [flat_map] in J |- *. apply in_app_iff in J as [J|J].
    - destruct (IH c c' X u' J) as (u & I & XX). exists u. split; [apply in_or_app; left; exact I|exact XX].
    - destruct (IHF J) as (u & I & XX). exists u. split; [apply in_or_app; right; exact I|exact XX]. }
  destruct Q as (u & I & XX). exists u. split; [right; exact I|exact XX].
Qed.
Lemma ext_attrs attrs attrs' : Forall2 ext_attr attrs attrs' -> map attr_doc attrs' = map attr_doc attrs /\ map attr_room attrs' = map attr_room attrs.
Proof. induction 1 as [|[[n ty] v] [[n' ty'] v'] l l' [E FI] _ [I1 I2]]; [split; reflexivity|]. cbn [fst snd] in *. injection E as -> ->. destruct FI as (_ & V1 & V2 & _). cbn [map attr_doc attr_room]. rewrite V1, V2, I1, I2. split; reflexivity. Qed.
Lemma ext_same : forall t t', ext t t' -> doc_of t' = doc_of t /\ bin_room t' = bin_room t /\ bheight t' = bheight t.
Proof.
  fix IH 3. intros t t' [n ty v src attrs attrs' kids kids' FI FA FK]. destruct (ext_attrs _ _ FA) as [E1 E2]. destruct FI as (_ & V1 & V2 & _).
  assert (Q : map doc_of kids' = map doc_of kids /\ map bin_room kids' = map bin_room kids /\ map bheight kids' = map bheight kids).
  { induction FK as [|c c' kids kids' X FK IHF]; [repeat split; reflexivity|]. destruct (IH c c' X) as (A1 & A2 & A3). destruct IHF as (B1 & B2 & B3). cbn [map]. rewrite A1, A2, A3, B1, B2, B3. repeat split; reflexivity. }
  destruct Q as (Q1 & Q2 & Q3). cbn [doc_of bin_room bheight]. rewrite E1, E2, V1, V2, Q1, Q2, Q3. repeat split; reflexivity.
Qed.
Lemma forall2_zlen {A B} (R : A -> B -> Prop) l l' : Forall2 R l l' -> zlen l' = zlen l.
Proof. unfold zlen. induction 1; cbn [List.length]; lia. Qed.
Lemma tree_elements : forall x t, tree x t -> forall u, In u (belements t) -> exists y, tree y u.
Proof.
  fix IH 3. intros x t TR. pose proof TR as TR0. destruct TR as [x A L name ty v attrs kids H1 H2 H3 H4 H5 H6 FK]. intros u [<-|J]; [exists x; exact TR0|]. clear TR0 H5.
  induction FK as [|c d L kids X FK IHF]; [destruct J|]. cbn [flat_map] in J. apply in_app_iff in J as [J|J]; [exact (IH c d X u J)|exact (IHF J)].
Qed.
Lemma forall2_right {A B} (R : A -> B -> Prop) l l' y : Forall2 R l l' -> In y l' -> exists x, In x l /\ R x y.
Proof. induction 1 as [|a b l l' H _ IH]; [intros []|]. intros [<-|J]; [exists a; split; [left; reflexivity|exact H]|]. destruct (IH J) as (x & J' & H'). exists x. split; [right; exact J'|exact H']. Qed.
Lemma says_known L x n ty v : says s m L x n ty v -> known_name n L.
Proof. intros (i & ty' & _ & NI & U & _). exists ty'. split; [eapply nth_error_In; eauto|exact U]. Qed.
Lemma source_fine x t t' : tree x t -> (forall u, In u (belements t) -> convertible u) -> ext t t' -> bin_source_ok T P t'.
Proof.
  intros TR CO X. destruct (life_whole _ _ _ _ _ _ LI) as (B & a & (n & ix & n' & ix' & PO & TT & TP & _) & _). destruct (pool_of k s m T P F LI) as (_ & _ & _ & BIG).
  assert (TS : forall t n x L, table m t n x L -> table_source L). { clear. intros t n x L (_ & _ & _ & _ & FEW & G & _). split; [|lia]. intros nm ty I. pose proof (proj1 (Forall_forall _ _) G _ I) as ([C _] & R). auto. }
  split; [eapply TS; exact TT|split; [eapply TS; exact TP|]]. split; intros u' J; destruct (ext_elements _ _ X u' J) as (u & I & XU); destruct (tree_elements _ _ TR u I) as (y & TU); specialize (CO u I); destruct XU as [nm ty v src attrs attrs' kids kids' FI FA FK]; inversion TU as [? A L ? ? ? ? ? IY KY SY OA OL AT TK]; subst; destruct CO as (CX & N6 & NA & CA).
  - cbn [bin_element_ok]. destruct FI as (FI & _). split; [destruct FI; auto|]. rewrite (forall2_zlen _ _ _ FA), (forall2_zlen _ _ _ FK). split; [|split; [exact NA|]].
    + intros [[an aty] av] K. destruct (forall2_right _ _ _ _ FA K) as ([[bn bty] bv] & KB & E & FB). cbn [fst snd] in *. injection E as -> ->. destruct (CA bn bty bv KB) as [_ HS]. destruct FB as (FB & _ & _ & _ & CE). cbn [bin_attr_ok]. destruct FB as [FB|FB]; [left; exact FB|right]. split; [exact FB|]. destruct FB as (_ & TY & _). auto.
    + rewrite (forall2_zlen _ _ _ TK). pose proof members_few. destruct shape_of_life as [ND _]. pose proof (owned_short _ _ _ _ _ _ LI _ _ _ OL ND). unfold zlen in *. lia.
  - cbn [bname battrs]. split; [eapply says_known; exact SY|]. intros [[an aty] av] K. cbn [fst]. destruct (forall2_right _ _ _ _ FA K) as ([[bn bty] bv] & KB & E & FB). cbn [fst] in E. injection E as -> ->. destruct (forall2_right _ _ _ _ AT KB) as (e & _ & _ & SE). eapply says_known; exact SE.
Qed.
Lemma pool_to_xb x t buf filename modified fuel : (T <> [] -> t_index m TAGS <> Ok 0) -> (P <> [] -> t_index m PARAMS <> Ok 0) -> p_root m = Ok x -> tree x t -> (forall u, In u (belements t) -> convertible u) ->
  zlen buf = buffer_size m -> zlen buf <= INT_MAX -> cstring filename -> zlen filename <= 1200 -> (List.length (members F) <= fuel)%nat ->
  exists img, PoolMake_xb fuel buf m filename modified = rret img /\ forall k, (bheight t <= k)%nat -> exists R x, Initialize (S k) img = rret R /\ rd_root R = Some x /\ read_bin_node k img R x = rret (doc_of t).
Proof.
  intros IT IP RT TR CO LB LI2 CF LF FU. destruct (life_whole _ _ _ _ _ _ LI) as (B & a & I & E & _). destruct (tree_room x t filename TR CO LF) as [RM HM].
  assert (NT : T <> []) by (destruct TR as [x ? ? ? ? ? ? ? _ _ (i & ? & _ & NI & _)]; intros ->; destruct i; discriminate).
  destruct (node_ok k s m T P F LI BY (IT NT) IP fuel FU x t TR CO fuel ltac:(lia)) as (t' & PN & X). destruct (ext_same _ _ X) as (X1 & X2 & X3).
  assert (X0 : x <> 0). { destruct TR as [x ? ? ? ? ? ? ? IX _ _]. destruct (names_pool _ _ _ _ _ _ _ I) as [PO _]. destruct (inv_in _ _ _ _ _ _ E PO IX) as (? & _). unfold HEADER in *. lia. }
  destruct (convert_ok buf filename modified T P t' (source_fine x t t' TR CO X) CF LI2) as (img & EI & RD).
  { unfold convert_room in *. rewrite X2. lia. }
  exists img. split; [|rewrite <- X1, <- X3; exact RD]. unfold PoolMake_xb. rewrite RT, rbind_ok. replace (x =? 0) with false by lia. rewrite (tags_read _ _ _ _ _ I IT), rbind_ok, (params_read _ _ _ _ _ I IP), rbind_ok, PN, rbind_rret. exact EI.
Qed.
End Room.
