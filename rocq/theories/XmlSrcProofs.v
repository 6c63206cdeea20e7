(** Proofs about the source of XML documents. *)
From Verif Require Import Base BaseFacts Sort XbWrite Xb Types DocSpec ReadSpec RingProofs RoundtripProofs ReadProofs XmlSrc XmlSrcSpec.

Fixpoint xitem_rect' (P : xitem -> Prop) (ht : forall s, P (Text s)) (hc : forall s, P (CData s)) (hm : forall s, P (Comment s)) (hi : forall a b, P (Instruction a b)) (hr : forall a b, P (Ref a b))
  (he : forall l sp ds a items, Forall P items -> P (Element l sp ds a items)) (i : xitem) : P i :=
  match i with
  | Text s => ht s | CData s => hc s | Comment s => hm s | Instruction a b => hi a b | Ref a b => hr a b
  | Element l sp ds a items => he l sp ds a items ((fix go (l : list xitem) : Forall P l := match l with [] => Forall_nil _ | x :: l => Forall_cons _ (xitem_rect' P ht hc hm hi hr he x) (go l) end) items)
  end.
Fixpoint xml_rect' (P : xml_node -> Prop) (he : forall t n c ns nd ps ch, Forall P ch -> P (XmlNode t n c ns nd ps ch)) (x : xml_node) : P x :=
  match x with XmlNode t n c ns nd ps ch => he t n c ns nd ps ch ((fix go (l : list xml_node) : Forall P l := match l with [] => Forall_nil _ | x :: l => Forall_cons _ (xml_rect' P he x) (go l) end) ch) end.

Definition sources := fix kids (l : list xml_node) : outcome (list node) :=
    match l with
    | [] => Ok []
    | c :: l => if x_type c =? XML_ELEMENT_NODE then obind (xml_source c) (fun n => obind (kids l) (fun r => Ok (n :: r))) else kids l
    end.
Lemma source_eq t n c ns nd ps ch : xml_source (XmlNode t n c ns nd ps ch) =
  obind (xml_getNodeName (XmlNode t n c ns nd ps ch)) (fun name => obind (xml_ForAllParams (XmlNode t n c ns nd ps ch)) (fun attrs => obind (sources ch) (fun k => Ok (Node name (xml_getNodeValue (XmlNode t n c ns nd ps ch)) attrs k)))).
Proof. reflexivity. Qed.

(** ** White space *)
Lemma space_white c : is_space c = true <-> 9 <= c <= 13 \/ c = 32.
Proof. unfold is_space. lia. Qed.
Lemma skip_split s : exists w, s = w ++ skip_spaces s /\ white w /\ (skip_spaces s = [] \/ exists c r, skip_spaces s = c :: r /\ ~ (9 <= c <= 13 \/ c = 32)).
Proof.
  induction s as [|c s (w & E & W & N)]; [exists []; repeat split; auto; constructor|]. cbn [skip_spaces]. destruct (is_space c) eqn:S.
  - exists (c :: w). split; [cbn; congruence|]. split; [constructor; [apply space_white; exact S|exact W]|exact N].
  - exists []. split; [reflexivity|]. split; [constructor|]. right. exists c, s. split; [reflexivity|]. rewrite <- space_white, S. discriminate.
Qed.
Lemma skip_white s : white s -> skip_spaces s = [].
Proof. induction 1 as [|c s C W IH]; [reflexivity|]. cbn. apply space_white in C. rewrite C. exact IH. Qed.
Definition shown_value s : option (list Z) := match skip_spaces s with [] => None | v => Some v end.
Lemma shown_ok s z : white z -> value_is (s ++ z) (shown_value s).
Proof.
  intros WZ. unfold shown_value. destruct (skip_split s) as (w & E & W & N). destruct (skip_spaces s) as [|c r] eqn:Q; cbn [value_is].
  - rewrite app_nil_r in E. subst w. apply Forall_app. auto.
  - exists w, z. split; [rewrite E at 1; rewrite <- app_assoc; reflexivity|]. split; [exact W|]. split; [exact WZ|]. destruct N as [N|(c' & r' & N & C)]; [discriminate|]. eauto.
Qed.
Lemma value_plain l sp ds a items : plain_element (Element l sp ds a items) -> value_is (char_data items) (xml_getNodeValue (tree (Element l sp ds a items))).
Proof.
  intros ([(s & r & -> & W)|W] & _ & _).
  - cbn. apply shown_ok. exact W.
  - assert (E : xml_getNodeValue (tree (Element l sp ds a items)) = None); [|rewrite E; exact W]. unfold xml_getNodeValue. cbn [tree x_children]. destruct items as [|i items]; [reflexivity|]. cbn [map]. destruct i; try reflexivity. cbn. cbn in W. apply Forall_app in W as [W _]. rewrite (skip_white _ W). reflexivity.
Qed.

(** ** Attributes *)
Lemma params_plain attrs : Forall (fun '(p, n, ps) => p = [] /\ exists s, ps = [Letters s]) attrs -> xml_properties (map (fun '(_, n, ps) => (n, map part_tree ps)) attrs) = Ok (map (fun '(p, n, ps) => (written p n, value_text ps)) attrs).
Proof.
  induction 1 as [|[[p n] ps] attrs (-> & s & ->) FA IH]; [reflexivity|]. cbn [map xml_properties part_tree]. change (x_type _ =? XML_TEXT_NODE) with true. cbn [negb]. rewrite IH. cbn. rewrite app_nil_r. reflexivity.
Qed.

(** ** The document *)
Lemma tree_type i : (x_type (tree i) =? XML_ELEMENT_NODE) = is_element i.
Proof. destruct i; reflexivity. Qed.
Lemma shown i : plain i -> is_element i = true -> exists n, xml_source (tree i) = Ok n /\ shows i n.
Proof.
  induction i as [| | | | |l sp ds a items IH] using xitem_rect'; intros PL E; try discriminate.
  assert (PE := PL _ (or_introl eq_refl)). pose proof (value_plain _ _ _ _ _ PE) as V. destruct PE as (_ & PA & PS). cbn [tree] in *. rewrite source_eq. cbn [xml_getNodeName x_name obind]. unfold xml_ForAllParams. cbn [x_properties]. rewrite (params_plain _ PA). cbn [obind].
  assert (K : exists ks, sources (map tree items) = Ok ks /\ show_all (filter is_element items) ks).
  { assert (PI : forall j, In j items -> plain j) by (intros j J k K; apply PL; right; apply in_flat_map; eauto). clear -IH PI.
    induction items as [|i items IHi]; [exists []; split; [reflexivity|constructor]|]. inversion IH as [|x l0 Ii Il]; subst. destruct IHi as (ks & SE & SA); [exact Il|intros j J; apply PI; right; exact J|].
    cbn [map sources]. rewrite tree_type. cbn [filter]. destruct (is_element i) eqn:EI.
    - destruct (Ii (PI i (or_introl eq_refl)) eq_refl) as (n & S & SH). rewrite S. cbn [obind]. fold sources. rewrite SE. cbn [obind]. exists (n :: ks). split; [reflexivity|constructor; auto].
    - fold sources. exists ks. auto. }
  destruct K as (ks & -> & SA). cbn [obind]. eexists. split; [reflexivity|].
  match goal with |- shows _ (Node _ _ (?x ++ _) _) => replace x with (match sp with Some u => [(lit "xmlns", u)] | None => [] end) end.
  - constructor; [exact V|exact SA].
  - unfold xmlns. cbn [x_ns x_nsDef]. destruct sp as [u|]; [reflexivity|]. rewrite (PS eq_refl). reflexivity.
Qed.
Lemma order_ i : is_element i = true -> forall d, xml_ForAllChildrenRecursively (tree i) d = map (fun '(e, d) => (tree e, d)) (in_order i d).
Proof.
  induction i as [| | | | |l sp ds a items IH] using xitem_rect'; intros E d; try discriminate. cbn [tree xml_ForAllChildrenRecursively in_order map]. f_equal. clear E. induction IH as [|i items Ii Il IHi]; [reflexivity|]. cbn [map flat_map]. rewrite map_app, tree_type, IHi. f_equal. destruct (is_element i) eqn:EI; [apply Ii; reflexivity|]. destruct i; try discriminate; reflexivity.
Qed.
(** What the passes over the names see is what the tree of the source holds. *)
Lemma passes x : forall n d, xml_source x = Ok n -> exists ns, elements n = ns /\ Forall2 (fun '(y, _) k => xml_source y = Ok k) (xml_ForAllChildrenRecursively x d) ns.
Proof.
  induction x as [t nm c ns nd ps ch IH] using xml_rect'; intros n d S. pose proof S as S0. rewrite source_eq in S. destruct (xml_getNodeName _) as [name| |]; [|discriminate..]. cbn [obind] in S. destruct (xml_ForAllParams _) as [at_| |]; [|discriminate..]. cbn [obind] in S. destruct (sources ch) as [ks| |] eqn:K; [|discriminate..]. cbn [obind] in S. injection S as <-.
  eexists. split; [reflexivity|]. cbn [elements xml_ForAllChildrenRecursively]. constructor; [exact S0|]. clear S0. revert ks K. induction IH as [|x ch Ix Il IHl]; intros ks K; [cbn in K; injection K as <-; constructor|].
  cbn [sources] in K. cbn [flat_map]. destruct (x_type x =? XML_ELEMENT_NODE).
  - destruct (xml_source x) as [n| |] eqn:SX; [|discriminate..]. cbn [obind] in K. fold sources in K. destruct (sources ch) as [r| |]; [|discriminate..]. cbn [obind] in K. injection K as <-. cbn [flat_map]. apply Forall2_app; [|apply IHl; reflexivity]. destruct (Ix n (d + 1) eq_refl) as (? & <- & F). exact F.
  - fold sources in K. apply IHl. exact K.
Qed.
Lemma properties_sound ps : Forall (fun '(_, l) => exists c r, l = c :: r /\ x_type c = 3) ps <-> exists r, xml_properties ps = Ok r.
Proof.
  induction ps as [|[n l] ps IH]; [split; [exists []; reflexivity|constructor]|]. cbn [xml_properties]. split.
  - intros F. apply Forall_cons_iff in F as [A F']. cbv beta iota in A. destruct A as (c & r & -> & T). rewrite T. change (3 =? XML_TEXT_NODE) with true. cbn [negb]. apply IH in F' as (r' & ->). cbn. eauto.
  - intros (r & E). destruct l as [|c l]; [discriminate|]. destruct (Z.eqb_spec (x_type c) XML_TEXT_NODE) as [T|]; [|discriminate]. cbn [negb] in E. constructor; [eauto|]. apply IH. destruct (xml_properties ps); [eauto|discriminate..].
Qed.
Lemma sound_source x : sound_tree x <-> exists n, xml_source x = Ok n.
Proof.
  induction x as [t nm c ns nd ps ch IH] using xml_rect'. cbn [sound_tree]. rewrite source_eq. unfold xml_ForAllParams. cbn [x_properties].
  assert (K : fold_right and True (map (fun c => x_type c = 1 -> sound_tree c) ch) <-> exists ks, sources ch = Ok ks).
  { induction IH as [|x ch Ix Il IHl]; [split; [exists []; reflexivity|cbn; auto]|]. cbn [map fold_right sources]. fold sources. destruct (Z.eqb_spec (x_type x) XML_ELEMENT_NODE) as [T|T]; unfold XML_ELEMENT_NODE in T.
    - split.
      + intros [A B]. specialize (A T). apply Ix in A as (n & ->). cbn [obind]. apply IHl in B as (ks & ->). cbn. eauto.
      + intros (ks & E). destruct (xml_source x) as [n| |]; [|discriminate..]. cbn [obind] in E. split; [intros _; apply Ix; eauto|]. apply IHl. destruct (sources ch); [eauto|discriminate..].
    - rewrite IHl. tauto. }
  rewrite K, properties_sound. unfold xml_getNodeName. cbn [x_name]. split.
  - intros (N & (r & ->) & ks & ->). destruct nm; [cbn; eauto|congruence].
  - intros (n & E). destruct nm; [|discriminate]. cbn [obind] in E. split; [discriminate|]. destruct (xml_properties ps); [|discriminate..]. cbn [obind] in E. split; [eauto|]. destruct (sources ch); [eauto|discriminate..].
Qed.
Lemma converted fl m filename modified i k out st fuel : floats_ok fl -> bytes m -> zlen m <= INT_MAX -> cstring filename -> plain i -> is_element i = true ->
  exists root, xml_source (tree i) = Ok root /\ shows i root /\ forall img, document_fits root -> steady_document root -> Make_xb fl m filename modified root = rret img -> ring_ok st -> (height root <= fuel)%nat ->
  exists R x st', Initialize (S k) img = rret R /\ rd_root R = Some x /\ read_node fuel fl img R x out st = rret (normal root, st').
Proof.
  intros FL BM ZM CF PL E. destruct (shown i PL E) as (n & S & SH). exists n. split; [exact S|]. split; [exact SH|]. intros img DF SD MX RO HE. eapply reads_back; eauto.
Qed.
(** ** What is not seen *)
Lemma shows_value i n v : xml_source (tree i) = Ok n -> value_of n = v -> ~ value_is (match i with Element _ _ _ _ items => char_data items | _ => [] end) v -> ~ shows i n.
Proof. intros _ <- N S. destruct S. apply N. exact H. Qed.
