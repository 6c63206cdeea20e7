(** Printing pools as XML. *)
From Verif Require Import Base BaseFacts Types ListFacts RingProofs Sort Symtab DocSpec ReadSpec XmlOut XmlSpec Xb XbSpec XbFacts XbWrite WriteProofs XbBin BinFill BinSpec Bw BwFacts BwRing BwSpec BwHist BwAlloc BwProofs BwRead BwTop BwSym BwReg BwFileSpec BwFileProofs BwNamesSpec BwNamesFacts BwNamesInv BwNamesReg BwNamesOps BwNamesIndex BwNamesProofs BwLifeSpec BwLife BwSet BwAttrProofs BwSource BwSourceSpec BwSourceProofs SrcStream SrcSpec SrcValue SrcLayout.

Lemma out_ok x ty : x mod 4 = 0 -> (XBT_Align ty = 8 -> x mod 8 = 0) -> align_to (XBT_Align ty) (x + 24) = x + 24.
Proof.
  intros X4 X8. unfold align_to. destruct (Z.eqb_spec (XBT_Align ty) 4) as [E|N]; [unfold align_up; lia|]. destruct (Z.eqb_spec (XBT_Align ty) 8) as [E|N8]; [specialize (X8 E); unfold align_up; lia|reflexivity].
Qed.

Section Stream.
Variables (k : Z -> bool) (s : Z -> Z) (m : list Z) (T P : names) (F : forest).
Hypothesis LI : life k s m T P F.
Hypothesis IT : t_index m TAGS <> Ok 0.
Hypothesis IP : P <> [] -> t_index m PARAMS <> Ok 0.
Variables (fl : floats) (buf : list Z).
Hypothesis FL : floats_ok fl.
Hypothesis B1 : 256 < zlen buf.
Hypothesis B2 : zlen buf mod 4 <> 2.
Local Notation tree := (tree_at k s m T P F).

Lemma space x nm L ty v : In x (members F) -> says s m L x nm ty v -> has m (x + 24) v /\ align_to (XBT_Align ty) (x + 24) = x + 24.
Proof.
  intros I (i & ty' & _ & _ & _ & TY & RD). pose proof (life_whole _ _ _ _ _ _ LI) as (B & a & IN & EL & _ & SZ). destruct (SZ x I) as (ty0 & n & z & TY0 & _ & S2 & Z0 & ZS & X4 & X8). rewrite TY in TY0. injection TY0 as <-.
  apply rd_inv in RD as (_ & _ & HS & LV); [|lia]. split; [exact HS|]. apply out_ok; assumption.
Qed.
Definition shows ty v (w : option (list Z)) : Prop := ty = XBT_NULL /\ w = None \/ exists t, stands_for fl ty v t /\ w = Some t.
Lemma out_streams x nm L ty v w : In x (members F) -> says s m L x nm ty v -> shows ty v w -> exists f0, forall f, (f0 <= f)%nat -> value_out fl f buf m x ty = rret (esc (match w with Some t => t | None => [] end)).
Proof.
  intros I SA [[-> ->]|(t & ST & ->)]; destruct (space x nm L _ v I SA) as [HS AL]; unfold value_out; rewrite AL; [apply null_streams; exact B1|]. apply has_skip in HS as (r & ->). apply value_streams; assumption.
Qed.
Lemma stands_null fl' v t : ~ stands_for fl' XBT_NULL v t.
Proof. intros H. inversion H; subst. cbn in *. intuition discriminate. Qed.
Lemma bin_value x nm L ty v w : In x (members F) -> says s m L x nm ty v -> shows ty v w -> getNodeBinValue m x = Ok (ty, match w with Some _ => true | None => false end).
Proof.
  intros I SA SH. destruct (space x nm L _ v I SA) as [HS _]. destruct SA as (i & ty' & _ & _ & _ & TY & _). unfold getNodeBinValue. rewrite TY. cbn [obind]. destruct SH as [[-> ->]|(t & ST & ->)]; [reflexivity|].
  assert (NN : ty <> XBT_NULL) by (intros ->; exact (stands_null _ _ _ ST)). destruct ((ty =? XBT_BLOB) || (ty =? XBT_HEX)) eqn:E1.
  - assert (BL : exists b r, v = le 4 (zlen b) ++ b ++ r). { destruct ST; try discriminate E1; [|eauto]. exfalso. unfold scaled in H. cbn [In] in H. repeat (destruct H as [H|H]; [injection H as <- <-; discriminate E1|]). destruct H. }
    destruct BL as (b & r & ->). assert (HH : has m (x + 24) (le 4 (zlen b))). { destruct HS as (p & q & -> & E). exists p, ((b ++ r) ++ q). split; [rewrite <- !app_assoc; reflexivity|exact E]. }
    apply has_rd in HH. change (zlen (le 4 (zlen b))) with 4 in HH. unfold rd_s32. rewrite HH. reflexivity.
  - destruct (Z.eqb_spec ty XBT_STRING) as [->|NS]; [|destruct (Z.eqb_spec ty XBT_NULL); [contradiction|reflexivity]]. inversion ST; subst; [|cbn in *; intuition discriminate].
    assert (HH : has m (x + 24) (t ++ [0])). { destruct HS as (p & q & E & EE). exists p, (r ++ q). split; [rewrite E, <- !app_assoc; reflexivity|exact EE]. }
    rewrite (has_str _ _ _ H HH). reflexivity.
Qed.
Lemma attrs_stream A attrs : Forall2 (attr_says k s m P) A attrs -> (forall a, In a A -> In a (members F)) -> forall attrs',
  Forall2 (fun a b => fst (fst a) = fst b /\ (snd (fst a) = XBT_NULL /\ snd b = [] \/ stands_for fl (snd (fst a)) (snd a) (snd b))) attrs attrs' ->
  exists f0, forall f, (f0 <= f)%nat -> each (attr_stream fl f buf m) A = rret (map (fun '(n, v) => attr_out n (esc v)) attrs').
Proof.
  induction 1 as [|a [[n ty] v] A attrs [KA SA] _ IH]; intros IN attrs' H; inversion H as [|? [n' w] ? attrs2 [E1 E2] HR]; subst; [exists 0%nat; reflexivity|]. cbn [fst snd] in E1, E2. subst n'.
  destruct (IH ltac:(intros; apply IN; right; assumption) _ HR) as (f1 & G1). assert (V : shows ty v (if ty =? XBT_NULL then None else Some w)).
  { destruct E2 as [[-> ->]|ST]; [left; auto|]. destruct (Z.eqb_spec ty XBT_NULL) as [->|]; [exfalso; exact (stands_null _ _ _ ST)|]. right. eauto. }
  destruct (out_streams a n P ty v _ (IN a (or_introl eq_refl)) SA V) as (f2 & G2). exists (Nat.max f1 f2). intros f FF. cbn [each map]. rewrite (G1 f) by lia. unfold attr_stream. specialize (G2 f ltac:(lia)).
  destruct SA as (i & ty' & EI & NI & _ & TY & _). unfold pool_param. rewrite EI. cbn [obind]. destruct (life_whole _ _ _ _ _ _ LI) as (B & b & I & _). unfold getAttrName.
  rewrite (name_at XPNR2str _ _ _ _ _ _ _ _ _ _ (inv_swap _ _ _ _ _ _ _ I) (IP ltac:(intros ->; destruct i; discriminate)) NI). cbn [obind]. rewrite TY. cbn [obind]. rewrite rbind_ok. cbv beta iota. rewrite G2, rbind_rret, rbind_rret, rbind_rret.
  replace (match (if ty =? XBT_NULL then None else Some w) with Some t => t | None => [] end) with w; [reflexivity|]. destruct E2 as [[-> ->]|ST]; [reflexivity|]. destruct (Z.eqb_spec ty XBT_NULL) as [->|]; [exfalso; exact (stands_null _ _ _ ST)|reflexivity].
Qed.
Definition opening deep sib : list Z := if (0 <? deep) && (sib =? 0) then [62; 10] else [].
Definition streamed x (n : node) : Prop := exists f0, forall f lf ch, (f0 <= f)%nat -> (f0 <= lf)%nat -> (f0 <= ch)%nat -> forall deep sib, 0 <= deep -> pool_stream f lf ch fl buf m x deep sib = rret (opening deep sib ++ slayout deep n).

Lemma concat_map {A} (f : A -> list Z) l : List.concat (map f l) = flat_map f l.
Proof. symmetry. apply flat_map_concat_map. Qed.
Lemma kids_stream L kids : Forall2 streamed L kids -> exists f0, forall f lf ch, (f0 <= f)%nat -> (f0 <= lf)%nat -> (f0 <= ch)%nat -> forall deep count, 0 <= deep -> 0 <= count ->
  (fix children (L : list Z) (count : Z) : run (list Z) :=
        match L with
        | [] => rret []
        | y :: L => rbind (pool_stream f lf ch fl buf m y (deep + 1) count) (fun s => rbind (children L (count + 1)) (fun r => rret (s ++ r)))
        end) L count = rret (match kids with [] => [] | _ => opening (deep + 1) count ++ flat_map (slayout (deep + 1)) kids end).
Proof.
  induction 1 as [|x n L kids (f1 & H1) _ (f2 & H2)]; [exists 0%nat; reflexivity|]. exists (Nat.max f1 f2). intros f lf ch F1 F2 F3 deep count D C. rewrite (H1 f lf ch) by lia. rewrite rbind_rret. rewrite (H2 f lf ch) by lia. rewrite rbind_rret. cbn [flat_map]. rewrite <- app_assoc. do 4 f_equal.
  destruct kids as [|n2 kids]; [reflexivity|]. unfold opening. replace (count + 1 =? 0) with false by lia. rewrite andb_false_r. reflexivity.
Qed.
Lemma node_stream : forall x t, tree x t -> forall n, pictures fl t n -> streamed x n.
Proof.
  apply (tree_rec k s m T P F (fun x t => forall n, pictures fl t n -> streamed x n)).
  intros x A L name ty v attrs kids IX KX SX OA OL AT _ IH n PI. inversion PI as [? ? ? w ? attrs' ? kids' VV AA KK]; subst. clear PI.
  pose proof (life_whole _ _ _ _ _ _ LI) as (B & a & I & EL & _). destruct (names_pool _ _ _ _ _ _ _ I) as [PO _]. pose proof EL as (h & a2 & PL & R & S). pose proof (sh_nodup _ _ S) as ND.
  assert (VW : shows ty v w) by exact VV.
  destruct (out_streams x name T ty v w IX SX VW) as (f1 & G1). destruct (attrs_stream A attrs AT (fun e J => owned_in _ _ _ _ _ OA J) attrs' AA) as (f2 & G2).
  assert (KS : Forall2 streamed L kids'). { clear - IH KK. revert kids' KK. induction IH as [|c d L kids HH FF IHF]; intros kids' KK; inversion KK; subst; constructor; auto. }
  assert (KL : zlen L = zlen kids'). { clear - KS. unfold zlen. induction KS; cbn [List.length]; lia. }
  destruct (kids_stream L kids' KS) as (f3 & G3). exists (Datatypes.S (Nat.max (Nat.max f1 f2) (Nat.max f3 (List.length (members F))))).
  intros f lf ch F1 F2 F3 deep sib D. destruct f as [|f]; [lia|]. cbn [pool_stream]. pose proof SX as (i & ty' & EI & NI & _ & TY & _).
  assert (GN : getNodeName m x = Ok name).
  { unfold getNodeName. pose proof PO as (_ & _ & FS & _). rewrite FS. cbn [obind]. destruct (rep_in _ _ _ R x IX). replace ((0 <? x) && (x + 24 <=? zlen m)) with true by lia. destruct (pl_kind _ _ _ _ _ PL x IX) as (f0 & Ef & KF). rewrite Ef, EI. cbn [obind]. rewrite KF, KX.
    unfold getTagName. rewrite (name_at XTNR2str _ _ _ _ _ _ _ _ _ _ I IT NI). reflexivity. }
  rewrite GN, rbind_ok. assert (FO : forall e, In e (members F) -> bwe m x e = Ok e /\ plugin_bwe m e = Ok e) by (intros e J; apply (follow_ok k s m T P F LI x e IX J)).
  unfold ForAllBinParams. pose proof (inv_list _ _ _ _ _ _ _ EL IX OA) as LA. cbn [field_of] in LA. rewrite (for_all_ok _ _ _ _ _ lf LA), rbind_rret; [|intros e J; split; apply (FO e), (owned_in _ _ _ _ _ OA J)|pose proof (owned_short _ _ _ _ _ _ LI _ _ _ OA ND); lia]. rewrite (G2 ch), rbind_rret by lia.
  unfold ForAllChildren. pose proof (inv_list _ _ _ _ _ _ _ EL IX OL) as LL. cbn [field_of] in LL. rewrite (for_all_ok _ _ _ _ _ lf LL), rbind_rret; [|intros e J; split; apply (FO e), (owned_in _ _ _ _ _ OL J)|pose proof (owned_short _ _ _ _ _ _ LI _ _ _ OL ND); lia].
  rewrite (G3 f lf ch) by lia. rewrite rbind_rret. rewrite (bin_value x name T ty v w IX SX VW), rbind_ok. rewrite concat_map, KL. cbv beta iota zeta. fold (opening deep sib).
  rewrite (G1 ch) by lia. unfold slayout. cbn [sbare]. destruct kids' as [|n2 kids'].
  - change (zlen (@nil node) =? 0) with true. cbv iota. destruct w as [t|]; [rewrite rbind_rret|]; unfold rret; do 2 f_equal; rewrite <- !app_assoc; reflexivity.
  - replace (zlen (n2 :: kids') =? 0) with false by (unfold zlen; cbn [List.length]; lia). assert (O1 : opening (deep + 1) 0 = [62; 10]) by (unfold opening; replace (0 <? deep + 1) with true by lia; reflexivity). rewrite O1.
    destruct w as [t|].
    + destruct (Z.eqb_spec ty XBT_NULL) as [->|NN]; [exfalso; destruct VW as [[_ X]|(t0 & ST & _)]; [discriminate X|exact (stands_null _ _ _ ST)]|]. rewrite !rbind_rret. unfold rret. do 2 f_equal. unfold slayout. rewrite <- !app_assoc. cbn [app]. rewrite <- ?app_assoc. reflexivity.
    + assert (ty = XBT_NULL) as -> by (destruct VW as [[X _]|(t0 & _ & X)]; [exact X|discriminate X]). rewrite Z.eqb_refl, !rbind_rret. unfold rret. do 2 f_equal. rewrite <- !app_assoc. cbn [app]. rewrite <- ?app_assoc. reflexivity.
Qed.
End Stream.

Lemma print_source k s m T P F x t n fl buf : life k s m T P F -> t_index m TAGS <> Ok 0 -> (P <> [] -> t_index m PARAMS <> Ok 0) -> p_root m = Ok x -> tree_at k s m T P F x t -> pictures fl t n ->
  (forall u, In u (elements n) -> expressible u) -> floats_ok fl -> 256 < zlen buf -> zlen buf mod 4 <> 2 ->
  exists bound text, (forall fuel, (bound <= fuel)%nat -> pool_print fuel fl buf m = rret text) /\ XmlSpec.says text = Some (normal n).
Proof.
  intros LI IT IP RO TR PI EX FL B1 B2. destruct (node_stream k s m T P F LI IT IP fl buf FL B1 B2 x t TR n PI) as (f0 & H). exists f0, (slayout 0 n). split; [|apply slayout_says, EX].
  intros f G. unfold pool_print. rewrite RO, rbind_ok. pose proof (life_whole _ _ _ _ _ _ LI) as (B & a & _ & (h & a2 & PL & R & S) & _). assert (IX : In x (members F)) by (inversion TR; assumption). destruct (rep_in _ _ _ R x IX). replace (x =? 0) with false by lia.
  apply (H f f f G G G 0 0). lia.
Qed.
