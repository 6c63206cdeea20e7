(** XML texts through the converter and the printer. *)
From Verif Require Import Base BaseFacts Sort Types Symtab SymtabSpec Xb XbWrite Bw BwSpec BwHist BwSym BwFile BwNamesSpec BwLifeSpec BwSource BwSourceSpec BwMake BwMakeSpec BwMakeDoc.
From Verif Require Import DocSpec ReadSpec RingProofs RoundtripProofs XmlSpec XmlFacts XmlOut XmlProofs XmlMore XmlSrc XmlSrcSpec XmlSrcProofs XmlTripSpec.

Definition piece_holds (P : xml -> Prop) (p : piece) : Prop := match p with Child y => P y | Chars _ => True end.
Fixpoint xml_rec0 (P : xml -> Prop) (h : forall n a body, Forall (piece_holds P) body -> P (Elem n a body)) (x : xml) {struct x} : P x :=
  match x with Elem n a body => h n a body ((fix go (l : list piece) : Forall (piece_holds P) l :=
    match l with
    | [] => Forall_nil _
    | p :: l => Forall_cons p (match p return piece_holds P p with Child z => xml_rec0 P h z | Chars _ => I end) (go l)
    end) body) end.
Lemma xml_rec' (P : xml -> Prop) : (forall n a body, (forall y, In (Child y) body -> P y) -> P (Elem n a body)) -> forall x, P x.
Proof. intros h. apply xml_rec0. intros n a body F. apply h. intros y J. rewrite Forall_forall in F. exact (F _ J). Qed.

Lemma blank_space c : blank c = true -> is_space c = true.
Proof. unfold blank, is_space. lia. Qed.
Lemma skip_blank z : forallb blank z = true -> skip_spaces z = [].
Proof. induction z as [|c z IH]; [reflexivity|]. cbn. intros B. apply andb_prop in B as [B1 B2]. rewrite (blank_space _ B1). auto. Qed.
Lemma trim_left_blank z s : forallb blank z = true -> trim_left (z ++ s) = trim_left s.
Proof. induction z as [|c z IH]; [reflexivity|]. cbn. intros B. apply andb_prop in B as [B1 B2]. rewrite B1. auto. Qed.
Lemma blank_rev z : forallb blank z = true -> forallb blank (rev z) = true.
Proof. rewrite !forallb_forall. intros F c I. apply F. apply in_rev. exact I. Qed.
Lemma trim_blank z : forallb blank z = true -> trim z = [].
Proof. intros B. unfold trim. replace (trim_left z) with (@nil Z) by (rewrite <- (app_nil_r z) at 1; rewrite trim_left_blank by exact B; reflexivity). reflexivity. Qed.
Lemma well_left t z : starts_well t -> t <> [] -> trim_left (t ++ z) = t ++ z.
Proof. destruct t as [|c t]; [congruence|]. intros W _. cbn. destruct (blank c) eqn:B; [|reflexivity]. exfalso. apply (W c t eq_refl). apply blank_space in B. apply space_white. exact B. Qed.
Lemma trim_app t z : starts_well t -> trim t = t -> forallb blank z = true -> trim (t ++ z) = t.
Proof.
  intros W T B. destruct t as [|c t]; [apply trim_blank; exact B|]. unfold trim in *. rewrite (well_left _ _ W) by discriminate. pose proof (well_left _ [] W ltac:(discriminate)) as E. rewrite !app_nil_r in E. rewrite E in T. rewrite rev_app_distr, trim_left_blank by (apply blank_rev; exact B). exact T.
Qed.
Lemma well_skip t : starts_well t -> skip_spaces t = t.
Proof. destruct t as [|c t]; [reflexivity|]. intros W. cbn. destruct (is_space c) eqn:S; [|reflexivity]. exfalso. apply (W c t eq_refl). apply space_white. exact S. Qed.

Definition pitem (p : piece) : xitem := match p with Chars t => Text t | Child y => item y end.
Definition pkids (body : list piece) : list node := flat_map (fun p => match p with Chars _ => [] | Child y => [content y] end) body.
Lemma kids_some body y : In (Child y) body -> exists n r, pkids body = n :: r.
Proof. induction body as [|p body IH]; intros [].
  - subst p. cbn. eauto.
  - destruct p; cbn; [auto|eauto].
Qed.
Lemma content_eq n a body : content (Elem n a body) = Node n (match (match pkids body with [] => text_of body | _ => trim (text_of body) end) with [] => None | v => Some v end) a (pkids body).
Proof. reflexivity. Qed.
Lemma item_attrs a : xml_properties (map (fun '(_, n, ps) => (n, map part_tree ps)) (map (fun '(n, v) => ([] : list Z, n, [Letters v])) a)) = Ok a.
Proof. induction a as [|[n v] a IH]; [reflexivity|]. cbn [map xml_properties part_tree]. change (x_type _ =? XML_TEXT_NODE) with true. cbn [negb]. rewrite IH. reflexivity. Qed.
Lemma first_child (p : xml_node) ps t n c ns nd pr : xml_getNodeValue (XmlNode t n c ns nd pr (p :: ps)) = if negb (x_type p =? XML_TEXT_NODE) then None else match x_content p with None => None | Some v => match skip_spaces v with [] => None | v => Some v end end.
Proof. reflexivity. Qed.
Lemma value_seen n a body : laid_out_element (Elem n a body) -> xml_getNodeValue (tree (item (Elem n a body))) = value_of (content (Elem n a body)).
Proof.
  rewrite content_eq. cbn [value_of item tree]. change (map (fun p => match p with Chars t => Text t | Child y => item y end) body) with (map pitem body). intros [(t & -> & W)|[->|[((y & I) & B)|(t & rest & y & -> & I & B & W & T)]]].
  - cbn. rewrite app_nil_r, (well_skip _ W). reflexivity.
  - reflexivity.
  - destruct (kids_some _ _ I) as (k & r & ->). rewrite (trim_blank _ B). destruct body as [|p body]; [destruct I|]. cbn [map]. rewrite first_child. destruct p as [t|[nn aa bb]]; [|reflexivity]. cbn. cbn in B. rewrite forallb_app in B. apply andb_prop in B as [B _]. rewrite (skip_blank _ B). reflexivity.
  - destruct (kids_some _ _ I) as (k & r & K). change (pkids (Chars t :: rest)) with (pkids rest). rewrite K. change (text_of (Chars t :: rest)) with (t ++ text_of rest). rewrite (trim_app _ _ W T B). cbn. rewrite (well_skip _ W). reflexivity.
Qed.
Lemma source_reads x : laid_out x -> xml_source (tree (item x)) = Ok (content x).
Proof.
  induction x as [n a body IH] using xml_rec'. intros LO. pose proof (value_seen n a body (LO _ (or_introl eq_refl))) as V. rewrite content_eq in *. cbn [value_of item tree] in *. change (map (fun p => match p with Chars t => Text t | Child y => item y end) body) with (map pitem body) in *.
  rewrite source_eq. cbn [xml_getNodeName x_name obind]. unfold xml_ForAllParams. cbn [x_properties]. rewrite item_attrs. cbn [obind]. rewrite V.
  assert (K : sources (map tree (map pitem body)) = Ok (pkids body)).
  { assert (LB : forall y, In (Child y) body -> laid_out y) by (intros y I z Z0; apply LO; right; apply in_flat_map; exists (Child y); auto). clear -IH LB. induction body as [|p body IHb]; [reflexivity|]. cbn [map sources]. fold sources. rewrite tree_type. rewrite IHb; [|intros y J; apply IH; right; exact J|intros y J; apply LB; right; exact J]. destruct p as [t|y].
    - reflexivity.
    - replace (is_element (pitem (Child y))) with true by (destruct y; reflexivity). cbn [pitem]. rewrite (IH y (or_introl eq_refl)) by (apply LB; left; reflexivity). reflexivity. }
  rewrite K. reflexivity.
Qed.
Lemma content_normal x : normal (content x) = content x.
Proof.
  induction x as [n a body IH] using xml_rec'. rewrite content_eq. cbn [normal]. f_equal.
  - destruct (match pkids body with [] => _ | _ => _ end); reflexivity.
  - induction body as [|p body IHb]; [reflexivity|]. destruct p as [t|y]; cbn; [apply IHb; intros; apply IH; right; assumption|]. f_equal; [apply IH; left; reflexivity|apply IHb; intros; apply IH; right; assumption].
Qed.
Lemma trip fl m filename modified text x root img k buf : bytes m -> zlen m <= INT_MAX -> cstring filename -> read_xml text = Some x -> laid_out x -> document_fits (content x) -> steady_document (content x) -> (forall u, In u (elements (content x)) -> printable u) ->
  xml_source (tree (item x)) = Ok root -> Make_xb fl m filename modified root = rret img -> 256 < zlen buf ->
  exists R bound text', Xb.Initialize (S k) img = rret R /\ (forall fuel steps, (bound <= fuel)%nat -> (bound <= steps)%nat -> print_document fuel steps fl img R buf = rret text') /\ XmlSpec.says text' = XmlSpec.says text.
Proof.
  intros BM ZM CF RX LO DF SD PR SR MX ZB. rewrite (source_reads x LO) in SR. injection SR as <-. destruct (prints_says fl m filename modified (content x) img k buf BM ZM CF DF SD PR MX ZB) as (R & bound & t' & I & P & S). exists R, bound, t'. split; [exact I|]. split; [exact P|]. rewrite S, content_normal. unfold XmlSpec.says. rewrite RX. reflexivity.
Qed.
Lemma trip_pool fl fuel disk n text x root f m : read_xml text = Some x -> laid_out x -> numbered (content x) -> roomy n f -> xml_source (tree (item x)) = Ok root -> Make_xbw fl fuel disk n root f = rret (true, m) ->
  XmlSpec.says text = Some root /\ exists T P k s F y t, lists_all T (tag_uses root) /\ lists_all P (attr_uses root) /\ life k s m [] [] F /\ p_root m = Ok y /\ tree_at k s m T P F y t /\ mirrors fl t root.
Proof.
  intros RX LO NU RO SR MX. rewrite (source_reads x LO) in SR. injection SR as <-. split; [unfold XmlSpec.says; rewrite RX; reflexivity|]. eapply make_mirror; eauto.
Qed.
