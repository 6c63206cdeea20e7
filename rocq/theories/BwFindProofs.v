(** Looking for a child by the value of an attribute. *)
From Verif Require Import Base BaseFacts Types ListFacts SizeProofs CompareProofs Sort Xb XbSpec XbFacts XbWrite WriteProofs XbBin BinSpec Bw BwFacts BwRing BwSpec BwHist BwAlloc BwProofs BwRead BwTop BwSym BwReg BwFileSpec BwFileProofs BwNamesSpec BwNamesFacts BwNamesInv BwNamesReg BwNamesOps BwNamesIndex BwNamesProofs BwLifeSpec BwLife BwOnly JsonSource BwSet BwNamesTop BwAttr BwAttrSpec BwAttrProofs BwAttrTop BwTag BwTagSpec BwTagProofs BwTagTop BwSource BwSourceSpec BwSourceProofs BwCopy BwCopySpec BwCopyProofs BwCopyTop BwKeys BwKeysSpec BwKeysProofs BwPathProofs BwFind BwFindSpec.

Lemma found_cases ty : In ty found_types -> ty = XBT_STRING \/
  (ty =? XBT_STRING) = false /\ (ty =? XBT_BLOB_STRING) = false /\ isin ty [XBT_NULL; XBT_VARIANT; XBT_BLOB; XBT_UNKNOWN; XBT_LAST] = false /\ ty <> XBT_FLOAT /\ ty <> XBT_DOUBLE /\
  exists n, 0 <= n /\ XBT_Size2 ty 0 = Ok n /\ (forall w, value_size ty w = n) /\ (In ty compared_types \/ In ty compared4 /\ n = 4 \/ In ty compared8 /\ n = 8).
Proof.
  unfold found_types. cbn [In]. intro H. repeat destruct H as [<-|H]; try contradiction; try (left; reflexivity); right.
  all: (split; [reflexivity|]); (split; [reflexivity|]); (split; [reflexivity|]); (split; [discriminate|]); (split; [discriminate|]); match goal with |- context [value_size ?t] => exists (value_size t []) end; (split; [vm_compute; discriminate|]); (split; [reflexivity|]); (split; [intro; reflexivity|]).
  all: vm_compute; tauto.
Qed.
Lemma text_form ty (v : list Z) : ty = XBT_STRING -> v = value_bytes ty v -> zlen v = value_size ty v -> v = cstr v ++ [0].
Proof.
  intros -> _ Z1. change (value_size XBT_STRING v) with (zlen (cstr v) + 1) in Z1. destruct (cstr_split v ltac:(lia)) as (r & E). pose proof (f_equal zlen E) as Q. rewrite zlen_app, zlen_cons in Q. pose proof (zlen_nonneg r). assert (r = []) as -> by (destruct r; [reflexivity|rewrite zlen_cons in *; pose proof (zlen_nonneg r); lia]). exact E.
Qed.
Lemma compared s m a id ty v' v data size : bytes m -> bytes data -> In ty found_types -> attr_at s m a (id, ty, v') -> 24 <= s a -> handed ty v data size -> exists n c, XBT_Size2 ty 0 = Ok n /\ compare_at m (a + 24) ty n ty data size = Ok c /\ (c = 0 <-> v' = v).
Proof.
  intros BM BD FT (w & EI & ET & RW & (KT & VS & _) & ->) S24 ((rest & ->) & VF & VZ & SZ). apply rd_inv in RW as (A0 & A1 & HW & ZW); [|lia].
  assert (PRE : forall n, 0 <= n <= zlen w -> rd m (a + 24) n = Ok (ztake n w)). { intros n N. rewrite <- (ztake_zskip n w) in HW. apply has_app in HW as [HW _]. apply has_rd in HW. rewrite zlen_take in HW by lia. replace (Z.min n (zlen w)) with n in HW by lia. exact HW. }
  destruct (found_cases ty FT) as [->|(N1 & N2 & N3 & NF & ND & n & N0 & S2 & VC & CM)].
  - exists 1. change (value_size XBT_STRING w) with (zlen (cstr w) + 1) in VS. pose proof (cstr_split w ltac:(lia)) as (r & SP). pose proof (text_form _ v eq_refl VF VZ) as VT.
    rewrite SP in HW. replace (cstr w ++ 0 :: r) with ((cstr w ++ [0]) ++ r) in HW by (rewrite <- app_assoc; reflexivity). apply has_app in HW as [HW _].
    unfold compare_at. rewrite Z.eqb_refl. change (isin XBT_STRING [XBT_STRING; XBT_BLOB_STRING]) with true. cbn [andb]. rewrite (has_text m (a + 24) (cstr w) (cstr_nz w) HW). cbn [obind].
    rewrite (has_text (v ++ rest) 0 (cstr v) (cstr_nz v)). 2:{ exists [], rest. split; [rewrite <- VT; reflexivity|reflexivity]. }
    cbn [obind]. eexists. split; [reflexivity|]. split; [reflexivity|]. rewrite CompareProofs.memcmp_eq. unfold value_bytes. change (value_size XBT_STRING w) with (zlen (cstr w) + 1). replace (ztake (zlen (cstr w) + 1) w) with (cstr w ++ [0]).
    2:{ assert (SP' : w = (cstr w ++ [0]) ++ r) by (rewrite <- app_assoc; exact SP). symmetry. rewrite SP' at 2. apply ztake_app_len. rewrite zlen_app. reflexivity. }
    rewrite VT at 2. split; [intros ->; reflexivity|apply app_inv_tail].
  - exists n. rewrite VC in VS, VZ. unfold value_bytes. rewrite VC. destruct SZ as [->|SZ]; [discriminate|]. unfold compare_at, isin at 1. cbn [existsb]. rewrite N1, N2. cbn [orb]. rewrite andb_false_r. rewrite Z.eqb_refl. replace (n =? size) with true by lia. cbn [negb andb]. rewrite N3. replace (n <? 0) with false by lia.
    rewrite PRE by lia. cbn [obind]. rewrite <- VZ, has_rd by (exists [], rest; split; reflexivity). cbn [obind]. eexists. split; [rewrite VZ; exact S2|]. split; [reflexivity|].
    assert (BW : bytes (ztake n w)). { destruct HW as (p1 & p2 & -> & _). unfold bytes in *. apply Forall_app in BM as [_ BM]. apply Forall_app in BM as [BM _]. rewrite <- (ztake_zskip n w) in BM. apply Forall_app in BM as [BM _]. exact BM. }
    assert (BV : bytes v) by (unfold bytes in *; apply Forall_app in BD as [BD _]; exact BD). rewrite VZ. split.
    + intro Q. pose proof (compare_zero ty _ _ BW BV NF ND Q) as H. rewrite N1, N2 in H. exact H.
    + intros <-. apply compare_self. rewrite VZ. destruct CM as [?|[[? ?]|[? ?]]]; auto.
Qed.

Section Search.
Variables (k : Z -> bool) (s : Z -> Z) (m : list Z) (T P : names) (F : forest).
Hypothesis LI : life k s m T P F.
Hypothesis BM : bytes m.
Variables (tag id ty : Z) (v data : list Z) (size : Z).
Hypothesis BD : bytes data.
Hypothesis FT : In ty found_types.
Hypothesis HD : handed ty v data size.

Lemma one_at a ty' v' ty'' v'' i i' : attr_at s m a (i, ty', v') -> attr_at s m a (i', ty'', v'') -> (i, ty', v') = (i', ty'', v'').
Proof. intros (w & E1 & E2 & E3 & _ & ->) (w' & E1' & E2' & E3' & _ & ->). rewrite E1 in E1'. rewrite E2 in E2'. rewrite E3 in E3'. injection E1' as <-. injection E2' as <-. injection E3' as <-. reflexivity. Qed.
Lemma big a : In a (members F) -> 24 <= s a.
Proof. intro J. pose proof (life_whole _ _ _ _ _ _ LI) as (B & b & I0 & EL & _). destruct (names_pool _ _ _ _ _ _ _ I0) as [PO _]. apply (inv_in _ _ _ _ _ _ EL PO J). Qed.
Lemma follow x e : In x (members F) -> In e (members F) -> bwe m x e = Ok e.
Proof. intros IX IE. apply (follow_ok k s m T P F LI x e IX IE). Qed.
Lemma list_of x b L : In x (members F) -> owned F x b L -> lists m x (x + field_of b) L.
Proof. intros IX OW. pose proof (life_whole _ _ _ _ _ _ LI) as (B & a & I0 & EL & _). exact (inv_list _ _ _ _ _ _ _ EL IX OW). Qed.
Lemma own_one p b L L' : owned F p b L -> owned F p b L' -> L = L'.
Proof. intros O1 O2. pose proof (life_whole _ _ _ _ _ _ LI) as (B & a & I0 & (h & a2 & PL & R & S) & _). apply (owner_one F p b L L'); [apply S|exact O1|exact O2]. Qed.
Lemma id_of e : In e (members F) -> has_id m e.
Proof. intro J. pose proof (life_whole _ _ _ _ _ _ LI) as (B & a & I0 & EL & _). exact (inv_has_id _ _ _ _ _ EL J). Qed.

Lemma attr_equal_ok x c A : In x (members F) -> In c (members F) -> owned F c false A -> (forall a, In a A -> el_id m a = Ok id -> exists v', attr_at s m a (id, ty, v')) ->
  forall l2 l1 a fuel, A = l1 ++ a :: l2 -> (List.length l2 < fuel)%nat -> exists b, attr_equal fuel m x c id ty data size a = rret b /\ (b = true <-> exists a', In a' (a :: l2) /\ attr_at s m a' (id, ty, v)).
Proof.
  intros IX IC OW VA. pose proof (list_of c false A IC OW) as (SO & SC & ND & NX). cbn [field_of] in SC. induction l2 as [|y l2 IH]; intros l1 a fuel E FU; (destruct fuel as [|fuel]; [cbn in FU; lia|]); cbn [attr_equal];
    destruct (NX l1 a _ E) as [_ EN]; cbn [hd] in EN; (assert (IA : In a A) by (rewrite E; apply in_or_app; right; left; reflexivity)); pose proof (owned_members _ _ _ _ _ OW IA) as IM; destruct (id_of a IM) as [i EI]; rewrite EI, rbind_ok.
  all: assert (CE : exists b, (if i =? id then rbind (Some (el_type m a)) (fun ty0 => rbind (Some (XBT_Size2 ty0 0)) (fun n => rbind (Some (compare_at m (a + 24) ty0 n ty data size)) (fun c => rret (c =? 0)))) else rret false) = rret b /\ (b = true <-> attr_at s m a (id, ty, v))).
  1, 3: destruct (Z.eqb_spec i id) as [->|NI];
    [destruct (VA a IA EI) as (v' & HA); destruct (compared s m a id ty v' v data size BM BD FT HA (big a IM) HD) as (n & c0 & S2 & CA & C0); pose proof HA as (w & _ & ET & _); rewrite ET, rbind_ok, S2, rbind_ok, CA, rbind_ok; eexists; (split; [reflexivity|]); rewrite Z.eqb_eq, C0; (split; [intros <-; exact HA|]); intro H; pose proof (one_at _ _ _ _ _ _ _ HA H) as Q; congruence
    |exists false; (split; [reflexivity|]); (split; [discriminate|]); intros (w & EI' & _); congruence].
  all: destruct CE as (b & -> & BE); rewrite rbind_rret; destruct b.
  - exists true. split; [reflexivity|]. split; [|reflexivity]. intros _. exists a. split; [left; reflexivity|apply BE; reflexivity].
  - rewrite EN, rbind_ok. unfold el_attr. rewrite SC, rbind_ok, Z.eqb_refl. exists false. split; [reflexivity|]. split; [discriminate|]. intros (a' & [<-|[]] & H). apply BE, H.
  - exists true. split; [reflexivity|]. split; [|reflexivity]. intros _. exists a. split; [left; reflexivity|apply BE; reflexivity].
  - assert (E' : A = (l1 ++ [a]) ++ y :: l2) by (rewrite E, <- app_assoc; reflexivity). assert (IY : In y A) by (rewrite E'; apply in_or_app; right; left; reflexivity).
    assert (NF : y <> hd 0 A). { rewrite E in ND |- *. destruct l1 as [|z l1]; cbn [app hd]; cbn [app] in ND; inversion ND as [|? ? N1 N2]; subst; intros ->; apply N1; [left; reflexivity|]. apply in_or_app. right. right. left. reflexivity. }
    rewrite EN, rbind_ok. unfold el_attr. rewrite SC, rbind_ok. destruct (Z.eqb_spec y (hd 0 A)); [congruence|]. rewrite (follow x y IX (owned_members _ _ _ _ _ OW IY)), rbind_ok.
    destruct (IH (l1 ++ [a]) y fuel E' ltac:(cbn in FU; lia)) as (b & -> & HB). exists b. split; [reflexivity|]. rewrite HB. split.
    + intros (a' & J & H). exists a'. split; [right; exact J|exact H].
    + intros (a' & [<-|J] & H); [apply BE in H; discriminate|]. exists a'. auto.
Qed.
Lemma child_equal_ok x L inner : In x (members F) -> owned F x true L -> valued s m F L tag id ty -> (List.length (members F) <= inner)%nat ->
  forall l2 l1 c fuel, L = l1 ++ c :: l2 -> (List.length l2 < fuel)%nat -> exists r, child_equal fuel inner m x tag id ty data size c = rret r /\ first_with (having s m F tag id ty v) (c :: l2) r.
Proof.
  intros IX OW VA FI. pose proof (list_of x true L IX OW) as (SO & SC & ND & NX). cbn [field_of] in SC. induction l2 as [|y l2 IH]; intros l1 c fuel E FU; (destruct fuel as [|fuel]; [cbn in FU; lia|]); cbn [child_equal];
    destruct (NX l1 c _ E) as [_ EN]; cbn [hd] in EN; (assert (IA : In c L) by (rewrite E; apply in_or_app; right; left; reflexivity)); pose proof (owned_members _ _ _ _ _ OW IA) as IM; destruct (id_of c IM) as [i EI]; rewrite EI, rbind_ok.
  all: assert (CE : exists b, (if i =? tag then rbind (Some (el_attr m c)) (fun first => if first =? 0 then rret false else rbind (Some (bwe m x first)) (fun a => attr_equal inner m x c id ty data size a)) else rret false) = rret b /\ (b = true <-> having s m F tag id ty v c)).
  1, 3: destruct (Z.eqb_spec i tag) as [->|NI]; [|exists false; (split; [reflexivity|]); (split; [discriminate|]); intros (EI' & _); congruence].
  1, 2: destruct (owned_ex F c false) as (A & OA); pose proof (list_of c false A IM OA) as (SO' & SC' & ND' & NX'); cbn [field_of] in SC'; unfold el_attr at 1; rewrite SC', rbind_ok;
    (assert (ONE : having s m F tag id ty v c <-> exists a, In a A /\ attr_at s m a (id, ty, v)) by (split; [intros (_ & A' & a & OA' & J & H); rewrite (own_one _ _ _ _ OA OA'); eauto|intros (a & J & H); split; [exact EI|]; exists A, a; auto]));
    destruct A as [|a A];
    [exists false; (split; [reflexivity|]); (split; [discriminate|]); rewrite ONE; intros (a & [] & _)
    |cbn [hd]; destruct (NX' [] a A eq_refl) as [G0 _]; replace (a =? 0) with false by lia; rewrite (follow x a IX (owned_members _ _ _ _ _ OA (or_introl eq_refl))), rbind_ok;
     destruct (attr_equal_ok x c (a :: A) IX IM OA (fun a' => VA c _ a' IA EI OA) A [] a inner eq_refl) as (b & -> & HB); [|exists b; split; [reflexivity|rewrite HB, ONE; reflexivity]];
     assert (LL : (List.length (a :: A) <= List.length (members F))%nat) by (apply NoDup_incl_length; [exact ND'|intros e J; exact (owned_members _ _ _ _ _ OA J)]); cbn in LL; lia].
  all: destruct CE as (b & -> & BE); rewrite rbind_rret; destruct b.
  1, 3: exists (Some c); (split; [reflexivity|]); exists []; eexists; (split; [reflexivity|]); (split; [apply BE; reflexivity|intros e []]).
  - rewrite EN, rbind_ok. unfold el_child. rewrite SC, rbind_ok, Z.eqb_refl. exists None. split; [reflexivity|]. intros e [<-|[]] H. apply BE in H. discriminate.
  - assert (E' : L = (l1 ++ [c]) ++ y :: l2) by (rewrite E, <- app_assoc; reflexivity). assert (IY : In y L) by (rewrite E'; apply in_or_app; right; left; reflexivity).
    assert (NF : y <> hd 0 L). { rewrite E in ND |- *. destruct l1 as [|z l1]; cbn [app hd]; cbn [app] in ND; inversion ND as [|? ? N1 N2]; subst; intros ->; apply N1; [left; reflexivity|]. apply in_or_app. right. right. left. reflexivity. }
    rewrite EN, rbind_ok. unfold el_child. rewrite SC, rbind_ok. destruct (Z.eqb_spec y (hd 0 L)); [congruence|]. rewrite (follow x y IX (owned_members _ _ _ _ _ OW IY)), rbind_ok.
    destruct (IH (l1 ++ [c]) y fuel E' ltac:(cbn in FU; lia)) as (r & -> & HR). exists r. split; [reflexivity|]. destruct r as [r|].
    + destruct HR as (k1 & k2 & EK & HK & NO). exists (c :: k1), k2. split; [cbn [app]; rewrite EK; reflexivity|]. split; [exact HK|]. intros e [<-|J] H; [apply BE in H; discriminate|exact (NO e J H)].
    + intros e [<-|J] H; [apply BE in H; discriminate|exact (HR e J H)].
Qed.
Lemma search_ok x L fuel : In x (members F) -> owned F x true L -> valued s m F L tag id ty -> (List.length (members F) <= fuel)%nat ->
  exists r, findChildByParam fuel m x tag id ty data size = rret r /\ first_with (having s m F tag id ty v) L r.
Proof.
  intros IX OW VA FU. pose proof (list_of x true L IX OW) as (SO & SC & ND & NX). cbn [field_of] in SC. unfold findChildByParam, el_child. rewrite SC, rbind_ok. destruct L as [|c L]; cbn [hd].
  - exists None. split; [reflexivity|]. intros e [].
  - destruct (NX [] c L eq_refl) as [G0 _]. replace (c =? 0) with false by lia. rewrite (follow x c IX (owned_members _ _ _ _ _ OW (or_introl eq_refl))), rbind_ok.
    apply (child_equal_ok x (c :: L) fuel IX OW VA FU L [] c fuel eq_refl). assert (LL : (List.length (c :: L) <= List.length (members F))%nat) by (apply NoDup_incl_length; [exact ND|intros e J; exact (owned_members _ _ _ _ _ OW J)]). cbn in LL. lia.
Qed.
End Search.
