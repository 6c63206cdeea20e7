(** Comparing and copying keys. *)
From Verif Require Import Base BaseFacts Types ListFacts SizeProofs CompareProofs Sort Xb XbSpec XbFacts XbWrite WriteProofs XbBin BinSpec Bw BwFacts BwRing BwSpec BwHist BwAlloc BwProofs BwRead BwTop BwSym BwReg BwFileSpec BwFileProofs BwNamesSpec BwNamesFacts BwNamesInv BwNamesReg BwNamesOps BwNamesIndex BwNamesProofs BwLifeSpec BwLife BwOnly JsonSource BwSet BwNamesTop BwAttr BwAttrSpec BwAttrProofs BwAttrTop BwTag BwTagSpec BwTagProofs BwTagTop BwSource BwSourceSpec BwSourceProofs BwCopy BwCopySpec BwCopyProofs BwCopyTop BwKeys BwKeysSpec BwKeysProofs.

(** ** What the comparison means *)
Lemma keyed_in key l id ty v : In (id, ty, v) (keyed key l) <-> In (id, ty, v) l /\ key id = true.
Proof. apply filter_In. Qed.
Lemma find_attr id E a : find (fun b => attr_id b =? id) E = Some a -> In a E /\ attr_id a = id.
Proof. intro H. apply List.find_some in H as [H1 H2]. split; [exact H1|]. lia. Qed.
Lemma one_id {A B} (f : A -> B) l a b : NoDup (map f l) -> In a l -> In b l -> f a = f b -> a = b.
Proof.
  induction l as [|c l IH]; intros ND HA HB E; [destruct HA|]. cbn [map] in ND. inversion ND as [|? ? N1 N2]; subst. destruct HA as [->|HA], HB as [->|HB]; auto.
  - exfalso. apply N1. rewrite E. apply in_map, HB.
  - exfalso. apply N1. rewrite <- E. apply in_map, HA.
Qed.
Lemma found_means fl key E : NoDup (map attr_id (keyed key E)) -> forall U checked, comparable (keyed key U) (keyed key E) -> zlen checked <= 16 ->
  exists c, found fl key U E checked = Ok c /\
  match c with
  | None => (exists a, In a (keyed key U) /\ ~ In a (keyed key E)) \/ 16 < zlen checked + zlen (keyed key U)
  | Some c => (forall a, In a (keyed key U) -> In a (keyed key E)) /\ c = checked ++ map attr_id (keyed key U) /\ zlen c <= 16
  end.
Proof.
  intro ND. induction U as [|[[id ty] v] U IH]; intros checked CM ZC; cbn [found].
  - exists (Some checked). split; [reflexivity|]. split; [intros a []|]. rewrite app_nil_r. auto.
  - assert (CM' : comparable (keyed key U) (keyed key E)). { intros i t w t' w' J1 J2. apply (CM i t w t' w'); [|exact J2]. unfold keyed. cbn [filter]. destruct (key _); [right|]; exact J1. }
    destruct (key id) eqn:KI; cbn [negb].
    2:{ destruct (IH checked CM' ZC) as (c & FE & H). exists c. split; [exact FE|]. unfold keyed in *. cbn [filter attr_id fst]. rewrite KI. exact H. }
    assert (KU : keyed key (@cons attr (id, ty, v) U) = @cons attr (id, ty, v) (keyed key U)) by (unfold keyed; cbn [filter attr_id fst]; rewrite KI; reflexivity). rewrite KU in CM |- *. cbn [map]. change (attr_id (id, ty, v)) with id. rewrite zlen_cons. pose proof (zlen_nonneg (keyed key U)) as Z0.
    destruct (find (fun a => attr_id a =? id) E) as [[[i' ty'] v']|] eqn:FE.
    2:{ exists None. split; [reflexivity|]. left. exists (id, ty, v). split; [left; reflexivity|]. intro J. apply keyed_in in J as [J _]. pose proof (List.find_none _ _ FE _ J) as Q. cbn in Q. lia. }
    destruct (find_attr _ _ _ FE) as [JE EI]. cbn in EI. subst i'. assert (JK : In (id, ty', v') (keyed key E)) by (apply keyed_in; auto).
    assert (OTHER : (ty, v) <> (ty', v') -> ~ In (id, ty, v) (keyed key E)). { intros NE J. pose proof (one_id attr_id _ _ _ ND J JK eq_refl) as Q. congruence. }
    assert (EQ : exists b, XBT_Equal fl ty v ty' v' = Ok b /\ (b = true <-> (ty, v) = (ty', v'))).
    { pose proof (CM id ty v ty' v' (or_introl eq_refl) JK) as TX. destruct (Z.eq_dec ty ty') as [<-|NT].
      - pose proof (equal_same fl ty v v') as ES. unfold XBT_Equal in *. rewrite Z.eqb_refl in *. cbv zeta in *. eexists. split; [reflexivity|]. split; [intro Q; f_equal; apply ES; f_equal; exact Q|]. intro Q. injection Q as Q. apply ES in Q. injection Q as Q. exact Q.
      - assert (NS : ty <> XBT_STRING /\ ty' <> XBT_STRING) by (split; intro Q; apply NT; destruct TX as [T1 T2]; [rewrite (T1 Q)|rewrite (T2 Q)]; congruence). destruct NS as [N1 N2]. exists false. split; [apply equal_unrelated; auto|]. split; [discriminate|congruence]. }
    destruct EQ as (b & XE & BE). rewrite XE. cbn [obind]. destruct b; cbn [negb].
    2:{ exists None. split; [reflexivity|]. left. exists (id, ty, v). split; [left; reflexivity|]. apply OTHER. intro Q. apply BE in Q. discriminate. }
    assert (EV : (ty, v) = (ty', v')) by (apply BE; reflexivity). injection EV as <- <-. unfold MAX_PARAM_KEYS. destruct (Z.ltb_spec (zlen checked) 16) as [LT|GE]; cbn [negb].
    2:{ exists None. split; [reflexivity|]. right. lia. }
    assert (ZN : zlen (checked ++ [id]) = zlen checked + 1) by (rewrite zlen_app; reflexivity). destruct (IH (checked ++ [id]) CM' ltac:(lia)) as (c & FC & H). exists c. split; [exact FC|]. destruct c as [c|].
    + destruct H as (H1 & -> & H3). split; [intros a [<-|J]; auto|]. rewrite <- app_assoc in *. auto.
    + destruct H as [(a & J & N)|H]; [left; exists a; split; [right; exact J|exact N]|right; lia].
Qed.
Lemma equal_means fl key U E : NoDup (map attr_id (keyed key E)) -> comparable (keyed key U) (keyed key E) ->
  exists b, equal_keys fl key U E = Ok b /\ (b = true <-> zlen (keyed key U) <= 16 /\ forall a, In a (keyed key U) <-> In a (keyed key E)).
Proof.
  intros ND CM. unfold equal_keys. destruct (found_means fl key E ND U [] CM ltac:(change (zlen (@nil Z)) with 0; lia)) as (c & FE & H). rewrite FE. cbn [obind]. destruct c as [c|].
  - destruct H as (H1 & -> & H3). cbn [app] in *. eexists. split; [reflexivity|]. rewrite forallb_forall. split.
    + intro Q. split; [unfold zlen in *; rewrite map_length in H3; exact H3|]. intros [[id ty] v]. split; [apply H1|]. intro J. pose proof J as JK. apply keyed_in in J as [J KI]. specialize (Q _ J). cbn [attr_id fst] in Q. rewrite KI in Q. cbn [negb orb] in Q. apply isin_true in Q. apply in_map_iff in Q as ([[i t] w] & EI & JU). cbn in EI. subst i.
      rewrite (one_id attr_id _ _ _ ND JK (H1 _ JU) eq_refl). exact JU.
    + intros [_ Q] [[id ty] v] J. cbn [attr_id fst]. destruct (key id) eqn:KI; [|reflexivity]. cbn [negb orb]. apply isin_true. apply in_map_iff. exists (id, ty, v). split; [reflexivity|]. apply Q, keyed_in. auto.
  - exists false. split; [reflexivity|]. split; [discriminate|]. intros [Q1 Q2]. exfalso. change (zlen (@nil Z)) with 0 in H. destruct H as [(a & J & N)|H]; [apply N, Q2, J|lia].
Qed.
Lemma keys_compared fl key k s m T P F x A E d y U fuel : life k s m T P F -> In x (members F) -> owned F x false A -> Forall2 (attr_at s m) A E -> item_attrs d y = Ok U -> NoDup (map attr_id (keyed key E)) -> comparable (keyed key U) (keyed key E) ->
  (List.length A <= fuel)%nat -> exists b, EqualKeys key fuel fl d m x y = rret b /\ (b = true <-> zlen (keyed key U) <= 16 /\ forall a, In a (keyed key U) <-> In a (keyed key E)).
Proof. intros LI IX OW FA IA ND CM FU. destruct (equal_means fl key U E ND CM) as (b & EQ & H). exists b. split; [|exact H]. rewrite (equal_keys_ok _ _ _ _ _ _ _ _ _ _ _ _ _ _ _ LI IX OW FA IA FU), EQ. reflexivity. Qed.
