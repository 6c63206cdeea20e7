(** The text of a document as a source is streamed, and what it says. *)
From Verif Require Import Base BaseFacts ListFacts Types XbWrite DocSpec ReadSpec WriteProofs XmlOut XmlSpec XmlFacts XmlLayout SrcStream SrcSpec.

Notation esc := (flat_map xml_escape).
(** Without the tabs before it and the newline behind. *)
Fixpoint sbare (deep : Z) (t : node) : list Z :=
  let '(Node n v a k) := t in
  [60] ++ n ++ flat_map (fun '(n, v) => attr_out n (esc v)) a ++
  match k with
  | [] => match v with None => [47; 62] | Some w => [62] ++ esc w ++ [60; 47] ++ n ++ [62] end
  | _ => [62] ++ ([10] ++ flat_map (fun u => tabs (deep + 1) ++ sbare (deep + 1) u ++ [10]) k ++ match v with None => [] | Some w => tabs (deep + 1) ++ esc w ++ [10] end ++ tabs deep) ++ [60; 47] ++ n ++ [62]
  end.
Definition beside deep (v : option (list Z)) : list Z := [10] ++ match v with None => [] | Some w => tabs (deep + 1) ++ w ++ [10] end ++ tabs deep.
Fixpoint stree (deep : Z) (t : node) : xml :=
  let '(Node n v a k) := t in
  Elem n a match k with
           | [] => match text_in v with [] => [] | w => [Chars w] end
           | _ => flat_map (fun u => [Chars ([10] ++ tabs (deep + 1)); Child (stree (deep + 1) u)]) k ++ [Chars (beside deep v)]
           end.

(** ** Escaped texts *)
Lemma decode_lt k ok s : decode (Datatypes.S k) ok (lit "&lt;" ++ s) = option_map (cons 60) (decode k ok s).
Proof. reflexivity. Qed.
Lemma decode_gt k ok s : decode (Datatypes.S k) ok (lit "&gt;" ++ s) = option_map (cons 62) (decode k ok s).
Proof. reflexivity. Qed.
Lemma decode_amp k ok s : decode (Datatypes.S k) ok (lit "&amp;" ++ s) = option_map (cons 38) (decode k ok s).
Proof. reflexivity. Qed.
Lemma decode_quot k ok s : decode (Datatypes.S k) ok ([38; 113; 117; 111; 116; 59] ++ s) = option_map (cons 34) (decode k ok s).
Proof. reflexivity. Qed.
Lemma esc_decode ok v : forall k, (List.length (esc v) < k)%nat -> (forall c, In c v -> c = 60 \/ c = 62 \/ c = 38 \/ c = 34 \/ ok c = true) -> decode k ok (esc v) = Some v.
Proof.
  induction v as [|c v IH]; intros k K H; (destruct k as [|k]; [cbn in K; lia|]); [reflexivity|]. cbn [flat_map] in K |- *. rewrite app_length in K.
  assert (K1 : (1 <= List.length (xml_escape c))%nat) by (unfold xml_escape; repeat destruct (_ =? _); cbn; lia). assert (K2 : (List.length (esc v) < k)%nat) by lia. clear K K1. unfold xml_escape at 1.
  assert (H' : forall d, In d v -> d = 60 \/ d = 62 \/ d = 38 \/ d = 34 \/ ok d = true) by (intros d D; apply H; right; exact D).
  destruct (Z.eqb_spec c 60) as [->|N1]; [rewrite decode_lt, IH by (auto; lia); reflexivity|].
  destruct (Z.eqb_spec c 62) as [->|N2]; [rewrite decode_gt, IH by (auto; lia); reflexivity|].
  destruct (Z.eqb_spec c 38) as [->|N3]; [rewrite decode_amp, IH by (auto; lia); reflexivity|].
  destruct (Z.eqb_spec c 34) as [->|N4]; [rewrite decode_quot, IH by (auto; lia); reflexivity|].
  cbn [app decode]. destruct (Z.eqb_spec c 38); [contradiction|]. destruct (H c (or_introl eq_refl)) as [X|[X|[X|[X|X]]]]; try contradiction. rewrite X, IH by (auto; lia). reflexivity.
Qed.
Lemma esc_in c v : In c (esc v) -> c <> 60 /\ c <> 62 /\ c <> 34.
Proof.
  intros H. apply in_flat_map in H as (d & _ & H). unfold xml_escape in H.
  destruct (d =? 60) eqn:N1; [cbn in H; intuition lia|]. destruct (d =? 62) eqn:N2; [cbn in H; intuition lia|]. destruct (d =? 38) eqn:N3; [cbn in H; intuition lia|].
  destruct (d =? 34) eqn:N4; cbn in H; intuition lia.
Qed.
Lemma no_cdata s : ~ In 62 s -> has_cdata_end s = false.
Proof.
  induction s as [|c s IH]; intro H; [reflexivity|]. cbn [has_cdata_end]. rewrite IH by (intro X; apply H; right; exact X). rewrite orb_false_r. destruct (after (lit "]]>") (c :: s)) eqn:E; [|reflexivity].
  exfalso. apply H. apply (after_in _ _ _ E). cbn. auto.
Qed.
Definition plain_text (v : list Z) : Prop := forall c, In c v -> c = 9 \/ c = 10 \/ 32 <= c <= 255.
Lemma esc_text v : plain_text v -> free_of 60 (esc v) /\ decode_text (esc v) = Some v.
Proof.
  intros H. split; [apply free_in; intro X; apply esc_in in X; tauto|]. unfold decode_text. rewrite no_cdata by (intro X; apply esc_in in X; tauto). apply esc_decode; [lia|].
  intros c C. destruct (H c C) as [->|[->|R]]; [auto 7..|]. destruct (Z.eq_dec c 60) as [->|N]; [auto|]. do 4 right. unfold text_char. lia.
Qed.
Lemma esc_attr v : (forall c, In c v -> 32 <= c <= 255) -> free_of 34 (esc v) /\ decode_attr (esc v) = Some v.
Proof.
  intros H. split; [apply free_in; intro X; apply esc_in in X; tauto|]. apply esc_decode; [lia|]. intros c C. specialize (H c C). destruct (Z.eq_dec c 60) as [->|N]; [auto|]. destruct (Z.eq_dec c 34) as [->|N4]; [auto|]. do 4 right. unfold attr_char. lia.
Qed.
Lemma esc_tabs d : esc (tabs d) = tabs d.
Proof. unfold tabs, zrepeat. induction (Z.to_nat d) as [|n IH]; [reflexivity|]. cbn [repeat flat_map]. rewrite IH. reflexivity. Qed.
Lemma plain_tabs d : plain_text (tabs d).
Proof. intros c H. apply repeat_spec in H. auto. Qed.
Lemma plain_app a b : plain_text a -> plain_text b -> plain_text (a ++ b).
Proof. intros A B c H. apply in_app_or in H as [H|H]; auto. Qed.
Lemma plain_nl : plain_text [10].
Proof. intros c [<-|[]]. auto. Qed.
Lemma plain_beside deep v : plain_text (text_in v) -> plain_text (beside deep v).
Proof. intros H. apply plain_app; [exact plain_nl|]. apply plain_app; [|apply plain_tabs]. destruct v as [w|]; [|intros c []]. apply plain_app; [apply plain_tabs|]. apply plain_app; [exact H|exact plain_nl]. Qed.

(** ** Attributes, elements, what they say *)
Lemma attrs_text a : NoDup (map fst a) -> (forall x, In x a -> xml_name (fst x) /\ forall c, In c (snd x) -> 32 <= c <= 255) -> attributes_text a (flat_map (fun '(n, v) => attr_out n (esc v)) a).
Proof.
  induction a as [|[n v] a IH]; intros Hd H; [constructor|]. cbn [map fst] in Hd. inversion Hd as [|? ? D1 D2]; subst. destruct (H _ (or_introl eq_refl)) as (Hn & Hv). cbn [fst snd] in Hn, Hv. destruct (esc_attr v Hv) as [E1 E2].
  cbn [flat_map]. unfold attr_out at 1. rewrite <- !app_assoc. constructor; [exact Hn|exact E1|exact E2|exact D1|apply IH; [exact D2|intros x Hx; apply H; right; exact Hx]].
Qed.
Lemma sbare_text t : (forall u, In u (elements t) -> expressible u) -> forall deep, element_text (stree deep t) (sbare deep t).
Proof.
  induction t as [n v a k IH] using node_ind'. intros Sub deep. destruct (Sub _ (or_introl eq_refl)) as (P1 & P3 & P4 & P5). cbn [name_of attrs_of value_of kids_of] in P1, P3, P4, P5.
  pose proof (attrs_text a P3 P4) as At. assert (Tv : plain_text (text_in v)) by (destruct v as [w|]; [exact (proj1 (P5 w eq_refl))|intros c []]).
  assert (IH' : Forall (fun t => forall deep, element_text (stree deep t) (sbare deep t)) k).
  { rewrite Forall_forall in *. intros u Hu d. apply IH; [exact Hu|]. intros w Hw. apply Sub. eapply elements_kids; eassumption. }
  cbn [stree sbare]. destruct k as [|u k].
  - destruct v as [[|c w]|]; [apply long_form; try assumption; constructor| |apply short_form; assumption]. cbn [text_in] in *. apply long_form; try assumption. rewrite <- (app_nil_r (esc (c :: w))). destruct (esc_text _ Tv) as [E1 E2].
    apply body_chars; [|exact E1|exact E2|exact I|constructor]. cbn [flat_map]. unfold xml_escape at 1. repeat destruct (_ =? _); discriminate.
  - apply long_form; try assumption. clear IH Sub P5. induction IH' as [|x l Hx _ IHl].
    + cbn [flat_map app]. destruct (esc_text _ (plain_beside deep v Tv)) as [E1 E2].
      assert (EE : esc (beside deep v) = 10 :: match v with None => [] | Some w => tabs (deep + 1) ++ esc w ++ [10] end ++ tabs deep).
      { unfold beside. rewrite !flat_map_app, esc_tabs. change (esc [10]) with [10]. destruct v as [w|]; [|reflexivity]. rewrite !flat_map_app, esc_tabs. reflexivity. }
      rewrite <- EE. rewrite <- (app_nil_r (esc (beside deep v))). apply body_chars; [rewrite EE; discriminate|exact E1|exact E2|exact I|constructor].
    + cbn [flat_map]. rewrite <- !app_assoc. cbn [app]. assert (T : plain_text ([10] ++ tabs (deep + 1))) by (apply plain_app; [exact plain_nl|apply plain_tabs]). destruct (esc_text _ T) as [E1 E2].
      assert (EE : esc ([10] ++ tabs (deep + 1)) = 10 :: tabs (deep + 1)) by (rewrite flat_map_app, esc_tabs; reflexivity). rewrite EE in E1, E2.
      apply (body_chars (10 :: tabs (deep + 1))); [discriminate|exact E1|exact E2|exact I|]. apply body_child; [apply Hx|]. exact IHl.
Qed.
Lemma sbare_content t : (forall u, In u (elements t) -> expressible u) -> forall deep, content (stree deep t) = normal t.
Proof.
  induction t as [n v a k IH] using node_ind'. intros Sub deep. destruct (Sub _ (or_introl eq_refl)) as (_ & _ & _ & P5). cbn [value_of kids_of] in P5.
  assert (IH' : Forall (fun t => forall deep, content (stree deep t) = normal t) k).
  { rewrite Forall_forall in *. intros u Hu d. apply IH; [exact Hu|]. intros w Hw. apply Sub. eapply elements_kids; eassumption. }
  cbn [stree normal content]. destruct k as [|u k].
  - destruct v as [[|c w]|]; cbn [text_in flat_map map]; [reflexivity| |reflexivity]. rewrite (app_nil_r (c :: w)). reflexivity.
  - set (P := fun p => match p with Chars _ => [] | Child y => [content y] end). set (Q := fun p => match p with Chars t => t | Child _ => [] end).
    set (front := fun u => [Chars ([10] ++ tabs (deep + 1)); Child (stree (deep + 1) u)]).
    assert (K1 : flat_map P (flat_map front (u :: k) ++ [Chars (beside deep v)]) = map normal (u :: k)).
    { rewrite flat_map_app. change (flat_map P [Chars (beside deep v)]) with (@nil node). rewrite (app_nil_r (flat_map P _)). clear - IH'. revert IH'. generalize (u :: k). intros l IH'. induction IH' as [|x l Hx _ IHl]; [reflexivity|]. cbn [flat_map map app P front]. rewrite Hx. f_equal. exact IHl. }
    rewrite K1. cbn [map]. assert (BN : forall d, blanks ([10] ++ tabs d)) by (intro; apply blanks_app; [exact blanks_nl|apply blanks_tabs]).
    assert (K2 : exists b c, blanks b /\ blanks c /\ flat_map Q (flat_map front (u :: k) ++ [Chars (beside deep v)]) = b ++ text_in v ++ c).
    { rewrite flat_map_app. change (flat_map Q [Chars (beside deep v)]) with (beside deep v ++ []). rewrite app_nil_r. assert (FB : forall l, blanks (flat_map Q (flat_map front l))).
      { induction l as [|x l IHl]; [reflexivity|]. change (blanks (([10] ++ tabs (deep + 1)) ++ flat_map Q (flat_map front l))). apply blanks_app; [apply BN|exact IHl]. }
      specialize (FB (u :: k)). destruct v as [w|]; cbn [text_in]; unfold beside.
      - exists (flat_map Q (flat_map front (u :: k)) ++ [10] ++ tabs (deep + 1)), ([10] ++ tabs deep). split; [apply blanks_app; [exact FB|apply BN]|]. split; [apply BN|]. rewrite <- !app_assoc. reflexivity.
      - exists (flat_map Q (flat_map front (u :: k))), ([10] ++ tabs deep). split; [exact FB|]. split; [apply BN|]. reflexivity. }
    destruct K2 as (b & c & Hb & Hc & ->). rewrite trim_around; [|exact Hb|exact Hc|].
    + destruct v as [[|x w]|]; reflexivity.
    + destruct v as [w|]; [|reflexivity]. apply (P5 w eq_refl). discriminate.
Qed.
Definition slayout deep t := tabs deep ++ sbare deep t ++ [10].
Lemma slayout_says t : (forall u, In u (elements t) -> expressible u) -> says (slayout 0 t) = Some (normal t).
Proof.
  intros H. unfold says, slayout. change (tabs 0) with (@nil Z). cbn [app]. rewrite (reads_document _ _ [10] (sbare_text t H 0) blanks_nl). cbn [option_map]. rewrite (sbare_content t H). reflexivity.
Qed.
