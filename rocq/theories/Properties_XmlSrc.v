(** The source of XML documents and the command line tools. *)
From Verif Require Import Base Types RingProofs RoundtripProofs Sort Xb XbWrite DocSpec ReadSpec XmlSrc XmlSrcSpec XmlSrcProofs Tools ToolsProofs.

(** C89: of every XML document in which the character data of each element is one text in front, attributes have no prefix and no references, and name
    spaces are declared by elements that belong to one, the converter gets to see exactly the document.  Missing because the code violates it: see the
    refutations. *)
Theorem C89_partial : forall i, plain i -> is_element i = true -> exists n, xml_source (tree i) = Ok n /\ shows i n.
Proof. exact shown. Qed.
Print Assumptions C89_partial.
Definition note : xitem := Element (lit "note") (Some (lit "urn:n")) [lit "urn:n"] [([], lit "id", [Letters (lit "7")])] [Text [10; 32]; Comment (lit " c "); Element (lit "to") (Some (lit "urn:n")) [] [] [Text (lit " Eva")]; Text [10]; Element (lit "n") (Some (lit "urn:n")) [] [] [Text (lit "5"); Instruction (lit "x") (lit "y")]; Text [10]].
Example C89_met : plain note /\ is_element note = true /\ xml_source (tree note) = Ok (Node (lit "note") None [(lit "xmlns", lit "urn:n"); (lit "id", lit "7")]
  [Node (lit "to") (Some (lit "Eva")) [(lit "xmlns", lit "urn:n")] []; Node (lit "n") (Some (lit "5")) [(lit "xmlns", lit "urn:n")] []]).
Proof.
  split; [|split; reflexivity]. intros j J. cbn in J. repeat (destruct J as [<-|J]; [|]); try contradiction; cbn; try exact I; (split; [|split; [repeat constructor; eauto|intros; (discriminate || reflexivity)]]).
  - right. repeat constructor; lia.
  - left. exists (lit " Eva"), []. split; [reflexivity|constructor].
  - left. exists (lit "5"), [Instruction (lit "x") (lit "y")]. split; [reflexivity|constructor].
Qed.
(** The pass over all elements meets them in document order with their depths, and each is seen as in the whole document. *)
Theorem C89_order : forall i d, is_element i = true -> xml_ForAllChildrenRecursively (tree i) d = map (fun '(e, d) => (tree e, d)) (in_order i d).
Proof. intros i d E. exact (order_ i E d). Qed.
Print Assumptions C89_order.
Theorem C89_passes : forall x n d, xml_source x = Ok n -> exists ns, elements n = ns /\ Forall2 (fun '(y, _) k => xml_source y = Ok k) (xml_ForAllChildrenRecursively x d) ns.
Proof. exact passes. Qed.
Print Assumptions C89_passes.
Example C89_order_met : map snd (in_order note 0) = [0; 1; 1] /\ is_element note = true.
Proof. split; reflexivity. Qed.
(** Whatever tree libxml2 delivers: the source survives it exactly if every element has a name and every attribute begins with a text. *)
Theorem C89_survives : forall x, sound_tree x <-> exists n, xml_source x = Ok n.
Proof. exact sound_source. Qed.
Print Assumptions C89_survives.
Example C89_survives_met : sound_tree (tree note).
Proof. apply C89_survives. eexists. reflexivity. Qed.
(** Together with C29: converting the document and reading the file shows the document. *)
Theorem C89_converted : forall fl m filename modified i k out st fuel, floats_ok fl -> bytes m -> zlen m <= INT_MAX -> cstring filename -> plain i -> is_element i = true ->
  exists root, xml_source (tree i) = Ok root /\ shows i root /\ forall img, document_fits root -> steady_document root -> Make_xb fl m filename modified root = rret img -> ring_ok st -> (height root <= fuel)%nat ->
  exists R x st', Initialize (S k) img = rret R /\ rd_root R = Some x /\ read_node fuel fl img R x out st = rret (normal root, st').
Proof. exact converted. Qed.
Print Assumptions C89_converted.

(** Values are lost behind a comment, and in CDATA. *)
Theorem C89_comment_refuted : exists i, is_element i = true /\ (forall n, xml_source (tree i) = Ok n -> value_of n = None /\ ~ shows i n) /\ (exists n, xml_source (tree i) = Ok n) /\ i = Element (lit "a") None [] [] [Comment (lit "c"); Text (lit "5")].
Proof.
  eexists. split; [|split; [|split; [|reflexivity]]]; [reflexivity| |eexists; reflexivity]. intros n E. injection E as <-. split; [reflexivity|]. eapply shows_value; [reflexivity..|]. cbn. intros W. inversion W. lia.
Qed.
Print Assumptions C89_comment_refuted.
Theorem C89_cdata_refuted : exists i, is_element i = true /\ (forall n, xml_source (tree i) = Ok n -> value_of n = None /\ ~ shows i n) /\ (exists n, xml_source (tree i) = Ok n) /\ i = Element (lit "a") None [] [] [CData (lit "5")].
Proof.
  eexists. split; [|split; [|split; [|reflexivity]]]; [reflexivity| |eexists; reflexivity]. intros n E. injection E as <-. split; [reflexivity|]. eapply shows_value; [reflexivity..|]. cbn. intros W. inversion W. lia.
Qed.
Print Assumptions C89_cdata_refuted.
(** A comment or a reference inside cuts the value: 12<!--c-->34 becomes 12. *)
Theorem C89_cut_refuted : exists i, is_element i = true /\ (forall n, xml_source (tree i) = Ok n -> value_of n = Some (lit "12") /\ ~ shows i n) /\ (exists n, xml_source (tree i) = Ok n) /\ i = Element (lit "a") None [] [] [Text (lit "12"); Comment (lit "c"); Text (lit "34")].
Proof.
  eexists. split; [|split; [|split; [|reflexivity]]]; [reflexivity| |eexists; reflexivity]. intros n E. injection E as <-. split; [reflexivity|]. eapply shows_value; [reflexivity..|]. cbn. intros (w & z & E & WW & WZ & _).
  destruct w as [|c w]; [|injection E as <- _; inversion WW; lia]. injection E as <-. inversion WZ. lia.
Qed.
Print Assumptions C89_cut_refuted.
(** So does a reference in the value of an attribute; if it comes first, or if libxml2 gives no nodes to an empty value, the program ends. *)
Theorem C89_reference_refuted : exists i, is_element i = true /\ (forall n, xml_source (tree i) = Ok n -> attrs_of n = [(lit "k", lit "a")] /\ ~ shows i n) /\ (exists n, xml_source (tree i) = Ok n) /\ i = Element (lit "a") None [] [([], lit "k", [Letters (lit "a"); RefTo (lit "e") (lit "b")])] [].
Proof. eexists. split; [|split; [|split; [|reflexivity]]]; [reflexivity| |eexists; reflexivity]. intros n E. injection E as <-. split; [reflexivity|]. intros S. inversion S. Qed.
Print Assumptions C89_reference_refuted.
Theorem C89_crash_refuted : forall l sp ds p n e items, xml_source (tree (Element l sp ds [(p, n, [])] items)) = Ub /\ xml_source (tree (Element l sp ds [(p, n, [RefTo e []])] items)) = Ub.
Proof. intros. split; reflexivity. Qed.
Print Assumptions C89_crash_refuted.
(** Attributes lose their prefix, so that two of them get one name. *)
Theorem C89_prefix_refuted : exists i, is_element i = true /\ (forall n, xml_source (tree i) = Ok n -> attrs_of n = [(lit "k", lit "1"); (lit "k", lit "2")] /\ ~ shows i n) /\ (exists n, xml_source (tree i) = Ok n) /\
  i = Element (lit "a") None [] [([], lit "k", [Letters (lit "1")]); (lit "p", lit "k", [Letters (lit "2")])] [].
Proof. eexists. split; [|split; [|split; [|reflexivity]]]; [reflexivity| |eexists; reflexivity]. intros n E. injection E as <-. split; [reflexivity|]. intros S. inversion S. Qed.
Print Assumptions C89_prefix_refuted.
(** An element that declares a name space seems to belong to it. *)
Theorem C89_space_refuted : exists i, is_element i = true /\ (forall n, xml_source (tree i) = Ok n -> attrs_of n = [(lit "xmlns", lit "u")] /\ ~ shows i n) /\ (exists n, xml_source (tree i) = Ok n) /\ i = Element (lit "a") None [lit "u"] [] [].
Proof. eexists. split; [|split; [|split; [|reflexivity]]]; [reflexivity| |eexists; reflexivity]. intros n E. injection E as <-. split; [reflexivity|]. intros S. inversion S. Qed.
Print Assumptions C89_space_refuted.

(** C90: the tools.  With one file, 2xb converts it and tells by the exit code whether that worked.  xb2xml asks for a mapping that holds the pool, up to 1.4 GB. *)
Theorem C90_one_partial : forall convert test a, a <> lit "--test" -> main_2xb convert test [a] = if convert a then (0, [a]) else (1, []).
Proof. intros cv t a N. apply (exit_code cv t a []). intros [E|[]]. auto. Qed.
Print Assumptions C90_one_partial.
(** --test tells by the exit code what the self test says, and nothing is converted behind it. *)
Theorem C90_test : forall convert test argv, main_2xb convert test (lit "--test" :: argv) = (if test then 0 else 1, []).
Proof. intros cv [] argv; reflexivity. Qed.
Print Assumptions C90_test.
(** An empty file, or one of more than 2 GB by the sign of its size, is not opened. *)
Theorem C90_empty : forall size, xb2xml_pool_size size = None <-> s32 size <= 0.
Proof. exact pool_none. Qed.
Print Assumptions C90_empty.
Theorem C90_pool_partial : forall size, 0 < size <= 1431644842 -> exists M, xb2xml_pool_size size = Some M /\ size + 12288 <= M /\ M mod 4096 = 0.
Proof. exact pool_room. Qed.
Print Assumptions C90_pool_partial.
Example C90_met : lit "a.xml" <> lit "--test" /\ main_2xb (fun _ => true) true [lit "a.xml"] = (0, [lit "a.xml"]) /\ xb2xml_pool_size 4096 = Some 20480.
Proof. split; [discriminate|]. split; vm_compute; reflexivity. Qed.
(** Of several files only the first is converted, again and again; the exit code says that all is well. *)
Theorem C90_refuted : forall convert test a argv, ~ In (lit "--test") (a :: argv) -> convert a = true -> main_2xb convert test (a :: argv) = (0, repeat a (List.length (a :: argv))).
Proof. intros cv t a argv N C. rewrite (exit_code cv t a argv N), C. reflexivity. Qed.
Print Assumptions C90_refuted.
Theorem C90_first : forall convert test a argv c r f, main_2xb convert test (a :: argv) = (c, r) -> In f r -> f = a.
Proof. exact only_first. Qed.
Print Assumptions C90_first.
Example C90_refuted_met : ~ In (lit "--test") [lit "a.xml"; lit "b.xml"] /\ main_2xb (fun _ => true) true [lit "a.xml"; lit "b.xml"] = (0, [lit "a.xml"; lit "a.xml"]).
Proof. split; [intros [E|[E|[]]]; discriminate|vm_compute; reflexivity]. Qed.
(** A larger pool gets a negative size. *)
Theorem C90_pool_refuted : exists size M, 0 < size <= 2147483647 /\ xb2xml_pool_size size = Some M /\ M < 0.
Proof. exists 1431655766. eexists. split; [lia|]. split; [vm_compute; reflexivity|lia]. Qed.
Print Assumptions C90_pool_refuted.
