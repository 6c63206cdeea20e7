(** The text of a document as it is laid out by the printer, and what it says. *)
From Verif Require Import Base BaseFacts ListFacts Types XbWrite DocSpec ReadSpec WriteProofs XmlOut XmlSpec XmlFacts.

Definition text_in (v : option (list Z)) : list Z := match v with Some t => t | None => [] end.
Definition attr_text (a : list (list Z * list Z)) : list Z := flat_map (fun '(n, v) => [32] ++ n ++ [61; 34] ++ v ++ [34]) a.
(** Without the tabs before it and the newline behind. *)
Fixpoint bare (deep : Z) (t : node) : list Z :=
  let '(Node n v a k) := t in
  [60] ++ n ++ attr_text a ++
  match k with
  | [] => match text_in v with [] => [47; 62] | w => [62] ++ w ++ [60; 47] ++ n ++ [62] end
  | _ => [62] ++ ([10] ++ flat_map (fun u => tabs (deep + 1) ++ bare (deep + 1) u ++ [10]) k ++ tabs deep ++ text_in v ++ [10] ++ tabs deep) ++ [60; 47] ++ n ++ [62]
  end.
Definition layout deep t := tabs deep ++ bare deep t ++ [10].
Fixpoint tree (deep : Z) (t : node) : xml :=
  let '(Node n v a k) := t in
  Elem n a match k with
           | [] => match text_in v with [] => [] | w => [Chars w] end
           | _ => flat_map (fun u => [Chars ([10] ++ tabs (deep + 1)); Child (tree (deep + 1) u)]) k ++ [Chars ([10] ++ tabs deep ++ text_in v ++ [10] ++ tabs deep)]
           end.

Definition blanks (s : list Z) : Prop := forallb blank s = true.
Lemma blanks_app a b : blanks a -> blanks b -> blanks (a ++ b).
Proof. unfold blanks. rewrite forallb_app. intros -> ->. reflexivity. Qed.
Lemma blanks_tabs d : blanks (tabs d).
Proof. unfold blanks, tabs, zrepeat. apply forallb_forall. intros c Hc. apply repeat_spec in Hc. subst c. reflexivity. Qed.
Lemma blanks_nl : blanks [10].
Proof. reflexivity. Qed.

Lemma trim_left_blanks a v : blanks a -> trim_left (a ++ v) = trim_left v.
Proof. unfold blanks. induction a as [|c a IH]; intros H; [reflexivity|]. cbn [forallb] in H. apply andb_true_iff in H. destruct H as (H1 & H2). cbn [app trim_left]. rewrite H1. auto. Qed.
Lemma trim_left_len v : (List.length (trim_left v) <= List.length v)%nat.
Proof. induction v as [|c v IH]; [reflexivity|]. cbn [trim_left]. destruct (blank c); cbn [List.length]; lia. Qed.
Lemma trim_left_same v : (List.length v <= List.length (trim_left v))%nat -> trim_left v = v.
Proof. destruct v as [|c v]; [reflexivity|]. cbn [trim_left]. destruct (blank c); [|reflexivity]. pose proof (trim_left_len v). cbn [List.length]. lia. Qed.
Lemma blanks_rev a : blanks a -> blanks (rev a).
Proof. unfold blanks. rewrite !forallb_forall. intros H c Hc. apply H, in_rev, Hc. Qed.
Lemma trim_around a v b : blanks a -> blanks b -> trim v = v -> trim (a ++ v ++ b) = v.
Proof.
  intros Ha Hb Hv. unfold trim in *. rewrite (trim_left_blanks _ _ Ha).
  assert (L : trim_left v = v).
  { apply trim_left_same. rewrite <- Hv at 1. rewrite rev_length. etransitivity; [apply trim_left_len|]. rewrite rev_length. reflexivity. }
  rewrite L in Hv. destruct v as [|c v].
  - cbn [app]. replace (trim_left b) with (@nil Z); [reflexivity|]. symmetry. rewrite <- (app_nil_r b). rewrite trim_left_blanks by assumption. reflexivity.
  - assert (E : trim_left ((c :: v) ++ b) = (c :: v) ++ b).
    { cbn [trim_left app] in *. destruct (blank c); [|reflexivity]. exfalso. pose proof (trim_left_len v) as K. rewrite L in K. cbn [List.length] in K. lia. }
    rewrite E, rev_app_distr, trim_left_blanks by (apply blanks_rev, Hb). exact Hv.
Qed.

Lemma cdata_before a v : blanks a -> has_cdata_end (a ++ v) = has_cdata_end v.
Proof.
  unfold blanks. induction a as [|c a IH]; intros H; [reflexivity|]. cbn [forallb] in H. apply andb_true_iff in H. destruct H as (H1 & H2). cbn [app has_cdata_end].
  rewrite (IH H2). change (lit "]]>") with [93; 93; 62]. cbn [after]. destruct (Z.eqb_spec 93 c) as [<-|]; [discriminate H1|]. reflexivity.
Qed.
Lemma cdata_behind v b : blanks b -> has_cdata_end v = false -> has_cdata_end (v ++ b) = false.
Proof.
  intros Hb. assert (Hb0 : has_cdata_end b = false) by (rewrite <- (app_nil_r b), cdata_before by assumption; reflexivity).
  induction v as [|c v IH]; intros H; [exact Hb0|]. cbn [app has_cdata_end] in *. apply orb_false_iff in H. destruct H as (H1 & H2). rewrite (IH H2). rewrite orb_false_r.
  change (lit "]]>") with [93; 93; 62] in *. cbn [after] in *. destruct (93 =? c); [|reflexivity].
  assert (Hh : forall x r, b = x :: r -> (93 =? x) = false /\ (62 =? x) = false).
  { intros x r ->. unfold blanks in Hb. cbn [forallb] in Hb. apply andb_true_iff in Hb. destruct Hb as (Hb & _). split; [destruct (Z.eqb_spec 93 x) as [<-|]|destruct (Z.eqb_spec 62 x) as [<-|]]; auto; discriminate Hb. }
  destruct v as [|d v]; cbn [app].
  - destruct b as [|x r]; [reflexivity|]. destruct (Hh x r eq_refl) as (-> & _). reflexivity.
  - destruct (93 =? d); [|reflexivity]. destruct v as [|e v]; cbn [app].
    + destruct b as [|x r]; [reflexivity|]. destruct (Hh x r eq_refl) as (_ & ->). reflexivity.
    + destruct (62 =? e); [discriminate H1|reflexivity].
Qed.
Definition text_ok (v : list Z) : Prop := (forall c, In c v -> text_char c = true /\ c <> 38) /\ has_cdata_end v = false.
Lemma blank_char c : blank c = true -> c <> 13 -> text_char c = true /\ c <> 38.
Proof. unfold blank, text_char. intros H N. rewrite !orb_true_iff, !Z.eqb_eq in H. destruct H as [[[->| ->]| ->]|H]; [split; [reflexivity|discriminate]..|]. contradiction. Qed.
Lemma text_ok_around a v b : blanks a -> ~ In 13 a -> blanks b -> ~ In 13 b -> text_ok v -> text_ok (a ++ v ++ b).
Proof.
  intros Ha Na Hb Nb (Hv & Hc). split.
  - unfold blanks in *. rewrite forallb_forall in Ha, Hb. intros c Hin. rewrite !in_app_iff in Hin. destruct Hin as [Hin|[Hin|Hin]]; [apply blank_char; [auto|intros ->; contradiction]|auto|apply blank_char; [auto|intros ->; contradiction]].
  - rewrite cdata_before by assumption. apply cdata_behind; assumption.
Qed.
Lemma no_cr_tabs d : ~ In 13 (tabs d).
Proof. intros H. apply repeat_spec in H. discriminate H. Qed.
Lemma text_free v : text_ok v -> free_of 60 v.
Proof. intros (H & _). apply free_in. intros Hi. apply H in Hi. destruct Hi as (Hi & _). discriminate Hi. Qed.
Lemma text_decode v : text_ok v -> decode_text v = Some v.
Proof. intros (H & Hc). unfold decode_text. rewrite Hc. apply decode_plain; [lia|exact H]. Qed.

Lemma attr_text_ok a : NoDup (map fst a) -> (forall x, In x a -> xml_name (fst x) /\ forall c, In c (snd x) -> attr_char c = true /\ c <> 38) -> attributes_text a (attr_text a).
Proof.
  induction a as [|[n v] a IH]; intros Hd H; [constructor|]. cbn [map fst] in Hd. inversion Hd as [|? ? D1 D2]; subst. destruct (H _ (or_introl eq_refl)) as (Hn & Hv). cbn [fst snd] in Hn, Hv.
  cbn [attr_text flat_map]. rewrite <- !app_assoc. constructor; [exact Hn| | |exact D1|apply IH; [exact D2|intros x Hx; apply H; right; exact Hx]].
  - apply free_in. intros Hi. apply Hv in Hi. destruct Hi as (Hi & _). discriminate Hi.
  - unfold decode_attr. apply decode_plain; [lia|exact Hv].
Qed.

Lemma layout_text t : (forall u, In u (elements t) -> printable u) -> forall deep, element_text (tree deep t) (bare deep t).
Proof.
  induction t as [n v a k IH] using node_ind'. intros Sub deep. destruct (Sub _ (or_introl eq_refl)) as (P1 & _ & P3 & P4 & P5). cbn [name_of attrs_of value_of kids_of] in P1, P3, P4, P5.
  pose proof (attr_text_ok a P3 P4) as At. assert (Tv : text_ok (text_in v)).
  { destruct v as [w|]; [|split; [intros c []|reflexivity]]. destruct (P5 w eq_refl) as (Q1 & Q2 & _). split; assumption. }
  assert (IH' : Forall (fun t => forall deep, element_text (tree deep t) (bare deep t)) k).
  { rewrite Forall_forall in *. intros u Hu d. apply IH; [exact Hu|]. intros w Hw. apply Sub. eapply elements_kids; eassumption. }
  cbn [tree bare]. destruct k as [|u k].
  - destruct (text_in v) as [|c w] eqn:E; [apply short_form; assumption|]. apply long_form; try assumption. rewrite <- (app_nil_r (c :: w)) at 2. apply body_chars; [discriminate|apply text_free, Tv|apply text_decode, Tv|exact I|constructor].
  - apply long_form; try assumption. clear IH Sub P5. induction IH' as [|x l Hx _ IHl].
    + cbn [flat_map app]. assert (T : text_ok (([10] ++ tabs deep) ++ text_in v ++ ([10] ++ tabs deep))).
      { assert (B : blanks ([10] ++ tabs deep)) by (apply blanks_app; [exact blanks_nl|apply blanks_tabs]). assert (C : ~ In 13 ([10] ++ tabs deep)) by (intros [X|X]; [discriminate X|exact (no_cr_tabs _ X)]). apply text_ok_around; assumption. }
      rewrite <- app_assoc in T. cbn [app] in T. rewrite <- (app_nil_r (10 :: tabs deep ++ text_in v ++ 10 :: tabs deep)) at 2. apply body_chars; [discriminate|apply text_free, T|apply text_decode, T|exact I|constructor].
    + cbn [flat_map]. rewrite <- !app_assoc. replace ([10] ++ tabs (deep + 1) ++ bare (deep + 1) x ++ [10] ++ flat_map (fun u => tabs (deep + 1) ++ bare (deep + 1) u ++ [10]) l ++ tabs deep ++ text_in v ++ [10] ++ tabs deep)
        with (([10] ++ tabs (deep + 1)) ++ bare (deep + 1) x ++ [10] ++ flat_map (fun u => tabs (deep + 1) ++ bare (deep + 1) u ++ [10]) l ++ tabs deep ++ text_in v ++ [10] ++ tabs deep) by (rewrite <- app_assoc; reflexivity).
      assert (T : text_ok (([10] ++ tabs (deep + 1)) ++ [] ++ [])).
      { apply text_ok_around; [apply blanks_app; [exact blanks_nl|apply blanks_tabs]|intros [X|X]; [discriminate X|exact (no_cr_tabs _ X)]|reflexivity|intros []|]. split; [intros c []|reflexivity]. }
      rewrite !app_nil_r in T. cbn [app]. apply (body_chars (10 :: tabs (deep + 1))); [discriminate|apply text_free, T|apply text_decode, T|exact I|].
      apply body_child; [apply Hx|]. exact IHl.
Qed.

Lemma layout_content t : (forall u, In u (elements t) -> printable u) -> forall deep, content (tree deep t) = normal t.
Proof.
  induction t as [n v a k IH] using node_ind'. intros Sub deep. destruct (Sub _ (or_introl eq_refl)) as (_ & _ & _ & _ & P5). cbn [value_of kids_of] in P5.
  assert (IH' : Forall (fun t => forall deep, content (tree deep t) = normal t) k).
  { rewrite Forall_forall in *. intros u Hu d. apply IH; [exact Hu|]. intros w Hw. apply Sub. eapply elements_kids; eassumption. }
  cbn [tree normal content]. destruct k as [|u k].
  - destruct v as [[|c w]|]; cbn [text_in flat_map map]; [reflexivity| |reflexivity]. rewrite (app_nil_r (c :: w)). reflexivity.
  - set (P := fun p => match p with Chars _ => [] | Child y => [content y] end). set (Q := fun p => match p with Chars t => t | Child _ => [] end).
    set (tail := Chars ([10] ++ tabs deep ++ text_in v ++ [10] ++ tabs deep)).
    assert (K1 : flat_map P (flat_map (fun u => [Chars ([10] ++ tabs (deep + 1)); Child (tree (deep + 1) u)]) (u :: k) ++ [tail]) = map normal (u :: k)).
    { rewrite flat_map_app. unfold tail. change (flat_map P [Chars ([10] ++ tabs deep ++ text_in v ++ [10] ++ tabs deep)]) with (@nil node). rewrite !app_nil_r. clear - IH'. revert IH'. generalize (u :: k). intros l IH'. induction IH' as [|x l Hx _ IHl]; [reflexivity|]. cbn [flat_map map app P]. rewrite Hx. f_equal. exact IHl. }
    rewrite K1. cbn [map]. 
    assert (K2 : exists b, blanks b /\ flat_map Q (flat_map (fun u => [Chars ([10] ++ tabs (deep + 1)); Child (tree (deep + 1) u)]) (u :: k) ++ [tail]) = b ++ text_in v ++ ([10] ++ tabs deep)).
    { rewrite flat_map_app. unfold tail. change (flat_map Q [Chars ([10] ++ tabs deep ++ text_in v ++ [10] ++ tabs deep)]) with (([10] ++ tabs deep ++ text_in v ++ [10] ++ tabs deep) ++ []). rewrite app_nil_r. generalize (u :: k). clear. intros l. exists (flat_map Q (flat_map (fun u => [Chars ([10] ++ tabs (deep + 1)); Child (tree (deep + 1) u)]) l) ++ [10] ++ tabs deep). split.
      - apply blanks_app; [|apply blanks_app; [exact blanks_nl|apply blanks_tabs]]. induction l as [|x l IHl]; [reflexivity|].
        change (blanks (([10] ++ tabs (deep + 1)) ++ flat_map Q (flat_map (fun u => [Chars ([10] ++ tabs (deep + 1)); Child (tree (deep + 1) u)]) l))). apply blanks_app; [apply blanks_app; [exact blanks_nl|apply blanks_tabs]|exact IHl].
      - rewrite <- !app_assoc. reflexivity. }
    destruct K2 as (b & Hb & ->). rewrite trim_around; [|exact Hb|apply blanks_app; [exact blanks_nl|apply blanks_tabs]|].
    + destruct v as [[|c w]|]; reflexivity.
    + destruct v as [w|]; [|reflexivity]. apply (P5 w eq_refl). discriminate.
Qed.

Lemma layout_says t : (forall u, In u (elements t) -> printable u) -> says (layout 0 t) = Some (normal t).
Proof.
  intros H. unfold says, layout. change (tabs 0) with (@nil Z). cbn [app]. rewrite (reads_document _ _ [10] (layout_text t H 0) blanks_nl). cbn [option_map]. rewrite (layout_content t H). reflexivity.
Qed.
