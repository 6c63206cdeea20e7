(** Proofs for C81. *)
From Verif Require Import Base BaseFacts ListFacts Types XbWrite DocSpec ReadSpec WriteProofs XmlOut XmlSpec XmlFacts XmlLayout SrcPrint SrcPrintSpec.

Definition line deep := [10] ++ pad deep.
Definition tail_text deep (v : option (list Z)) : list Z := line deep ++ match v with Some w => w ++ line deep | None => [] end.
Fixpoint pbare (deep : Z) (t : node) : list Z :=
  let '(Node n v a k) := t in
  [60] ++ n ++ attr_text a ++ [62] ++
  match k with
  | [] => text_in v
  | _ => flat_map (fun u => line (deep + 1) ++ pbare (deep + 1) u) k ++ tail_text deep v
  end ++ [60; 47] ++ n ++ [62].
Fixpoint ptree (deep : Z) (t : node) : xml :=
  let '(Node n v a k) := t in
  Elem n a match k with
           | [] => match text_in v with [] => [] | w => [Chars w] end
           | _ => flat_map (fun u => [Chars (line (deep + 1)); Child (ptree (deep + 1) u)]) k ++ [Chars (tail_text deep v)]
           end.

Lemma params_text a : flat_map print_param a = attr_text a.
Proof. unfold attr_text. induction a as [|[n v] a IH]; [reflexivity|]. cbn [flat_map]. rewrite IH. reflexivity. Qed.
Lemma print_element_text t : forall deep c, exists c', c < c' /\ print_element t deep c = (line deep ++ pbare deep t, c').
Proof.
  induction t as [n v a k IH] using node_ind'. intros deep c. cbn [print_element]. rewrite params_text.
  set (f := fix children (l : list node) (c : Z) : list Z * Z := match l with [] => ([], c) | u :: l => let '(s, c) := print_element u (deep + 1) c in let '(r, c) := children l c in (s ++ r, c) end).
  assert (K : forall c, exists c', (match k with [] => c' = c | _ => c < c' end) /\ f k c = (flat_map (fun u => line (deep + 1) ++ pbare (deep + 1) u) k, c')).
  { clear c. induction IH as [|u k Hu _ IHk]; intros c; [exists c; split; reflexivity|]. destruct (Hu (deep + 1) c) as (c1 & L1 & E1). destruct (IHk c1) as (c2 & L2 & E2). exists c2.
    split; [destruct k; lia|]. cbn [f]. rewrite E1. fold f. rewrite E2. reflexivity. }
  destruct (K c) as (c1 & L & E). rewrite E. exists (c1 + 1). cbn [pbare]. destruct k as [|u k].
  - subst c1. split; [lia|]. rewrite Z.ltb_irrefl. f_equal. unfold line. cbn [flat_map app]. destruct v as [w|]; cbn [text_in app]; rewrite <- ?app_assoc; reflexivity.
  - split; [lia|]. destruct (Z.ltb_spec c c1); [|lia]. f_equal. unfold tail_text, line. rewrite <- !app_assoc. destruct v as [w|]; rewrite <- ?app_assoc; cbn [app]; repeat f_equal.
Qed.

Lemma blanks_line d : blanks (line d).
Proof. apply blanks_app; [exact blanks_nl|]. unfold blanks, pad, zrepeat. apply forallb_forall. intros c Hc. apply repeat_spec in Hc. subst c. reflexivity. Qed.
Lemma no_cr_line d : ~ In 13 (line d).
Proof. intros [X|X]; [discriminate X|]. apply repeat_spec in X. discriminate X. Qed.
Lemma tail_ok d v : text_ok (text_in v) -> text_ok (tail_text d v).
Proof.
  intros T. unfold tail_text. destruct v as [w|]; [apply text_ok_around; auto using blanks_line, no_cr_line|].
  apply (text_ok_around (line d) [] []); [apply blanks_line|apply no_cr_line|reflexivity|intros []|]. exact T.
Qed.
Lemma line_ok d : text_ok (line d).
Proof. pose proof (tail_ok d None) as H. unfold tail_text in H. rewrite app_nil_r in H. apply H. split; [intros c []|reflexivity]. Qed.

Lemma pbare_text t : (forall u, In u (elements t) -> unescaped u) -> forall deep, element_text (ptree deep t) (pbare deep t).
Proof.
  induction t as [n v a k IH] using node_ind'. intros Sub deep. destruct (Sub _ (or_introl eq_refl)) as (P1 & P3 & P4 & P5). cbn [name_of attrs_of value_of kids_of] in P1, P3, P4, P5.
  pose proof (attr_text_ok a P3 P4) as At. assert (Tv : text_ok (text_in v)).
  { destruct v as [w|]; [|split; [intros c []|reflexivity]]. destruct (P5 w eq_refl) as (Q1 & Q2 & _). split; assumption. }
  assert (IH' : Forall (fun t => forall deep, element_text (ptree deep t) (pbare deep t)) k).
  { rewrite Forall_forall in *. intros u Hu d. apply IH; [exact Hu|]. intros w Hw. apply Sub. eapply elements_kids; eassumption. }
  cbn [ptree pbare]. apply long_form; try assumption. destruct k as [|u k].
  - destruct (text_in v) as [|c w] eqn:E; [constructor|]. rewrite <- (app_nil_r (c :: w)) at 2. apply body_chars; [discriminate|apply text_free, Tv|apply text_decode, Tv|exact I|constructor].
  - clear IH Sub P5. induction IH' as [|x l Hx _ IHl].
    + cbn [flat_map app]. rewrite <- (app_nil_r (tail_text deep v)) at 2. pose proof (tail_ok deep v Tv) as T. apply body_chars; [discriminate|apply text_free, T|apply text_decode, T|exact I|constructor].
    + cbn [flat_map]. rewrite <- !app_assoc. cbn [app]. pose proof (line_ok (deep + 1)) as T. apply body_chars; [discriminate|apply text_free, T|apply text_decode, T|exact I|].
      apply body_child; [apply Hx|]. exact IHl.
Qed.
Lemma pbare_content t : (forall u, In u (elements t) -> unescaped u) -> forall deep, content (ptree deep t) = normal t.
Proof.
  induction t as [n v a k IH] using node_ind'. intros Sub deep. destruct (Sub _ (or_introl eq_refl)) as (_ & _ & _ & P5). cbn [value_of kids_of] in P5.
  assert (IH' : Forall (fun t => forall deep, content (ptree deep t) = normal t) k).
  { rewrite Forall_forall in *. intros u Hu d. apply IH; [exact Hu|]. intros w Hw. apply Sub. eapply elements_kids; eassumption. }
  cbn [ptree normal content]. destruct k as [|u k].
  - destruct v as [[|c w]|]; cbn [text_in flat_map map]; [reflexivity| |reflexivity]. rewrite (app_nil_r (c :: w)). reflexivity.
  - set (P := fun p => match p with Chars _ => [] | Child y => [content y] end). set (Q := fun p => match p with Chars t => t | Child _ => [] end).
    set (front := fun u => [Chars (line (deep + 1)); Child (ptree (deep + 1) u)]).
    assert (K1 : flat_map P (flat_map front (u :: k) ++ [Chars (tail_text deep v)]) = map normal (u :: k)).
    { rewrite flat_map_app. change (flat_map P [Chars (tail_text deep v)]) with (@nil node). rewrite (app_nil_r (flat_map P _)). clear - IH'. revert IH'. generalize (u :: k). intros l IH'. induction IH' as [|x l Hx _ IHl]; [reflexivity|]. cbn [flat_map map app P front]. rewrite Hx. f_equal. exact IHl. }
    rewrite K1. cbn [map].
    assert (K2 : exists b c, blanks b /\ blanks c /\ flat_map Q (flat_map front (u :: k) ++ [Chars (tail_text deep v)]) = b ++ text_in v ++ c).
    { rewrite flat_map_app. change (flat_map Q [Chars (tail_text deep v)]) with (tail_text deep v ++ []). rewrite app_nil_r. assert (FB : forall l, blanks (flat_map Q (flat_map front l))).
      { induction l as [|x l IHl]; [reflexivity|]. change (blanks (line (deep + 1) ++ flat_map Q (flat_map front l))). apply blanks_app; [apply blanks_line|exact IHl]. }
      specialize (FB (u :: k)). unfold tail_text. destruct v as [w|]; cbn [text_in].
      - exists (flat_map Q (flat_map front (u :: k)) ++ line deep), (line deep). split; [apply blanks_app; [exact FB|apply blanks_line]|]. split; [apply blanks_line|]. rewrite <- !app_assoc. reflexivity.
      - exists (flat_map Q (flat_map front (u :: k))), (line deep). split; [exact FB|]. split; [apply blanks_line|]. rewrite app_nil_r. reflexivity. }
    destruct K2 as (b & c & Hb & Hc & ->). rewrite trim_around; [|exact Hb|exact Hc|].
    + destruct v as [[|x w]|]; reflexivity.
    + destruct v as [w|]; [|reflexivity]. apply (P5 w eq_refl). discriminate.
Qed.
Lemma print_source_says t : (forall u, In u (elements t) -> unescaped u) -> exists text, print_source t = 10 :: text /\ says text = Some (normal t).
Proof.
  intros H. unfold print_source. destruct (print_element_text t 0 0) as (c & _ & E). rewrite E. exists (pbare 0 t ++ [10]). split; [reflexivity|].
  unfold says. rewrite (reads_document _ _ [10] (pbare_text t H 0) blanks_nl). cbn [option_map]. rewrite (pbare_content t H). reflexivity.
Qed.
