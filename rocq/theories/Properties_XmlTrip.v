(** C91: XML texts through 2xb and xb2xml. *)
From Verif Require Import Base Types Sort Symtab SymtabSpec Xb XbWrite Bw BwSpec BwHist BwSym BwFile BwNamesSpec BwLifeSpec BwSource BwSourceSpec BwMake BwMakeSpec BwMakeDoc BwKeysExamples BwMakeExamples.
From Verif Require Import DocSpec ReadSpec DocExamples XmlSpec XmlOut XmlExamples XmlSrc XmlSrcSpec XmlTripSpec XmlTripProofs.

(** An XML text that is converted to a file and printed again says the same, for texts as the source takes them (C89) with values that survive (C29) and can
    be printed (C64).  Missing because the code violates it: see those properties and below. *)
Theorem C91_partial : forall fl m filename modified text x root img k buf, bytes m -> zlen m <= INT_MAX -> cstring filename -> read_xml text = Some x -> laid_out x -> document_fits (content x) -> steady_document (content x) -> (forall u, In u (elements (content x)) -> printable u) ->
  xml_source (tree (item x)) = Ok root -> Make_xb fl m filename modified root = rret img -> 256 < zlen buf ->
  exists R bound text', Xb.Initialize (S k) img = rret R /\ (forall fuel steps, (bound <= fuel)%nat -> (bound <= steps)%nat -> print_document fuel steps fl img R buf = rret text') /\ XmlSpec.says text' = XmlSpec.says text.
Proof. exact trip. Qed.
Print Assumptions C91_partial.
(** The source sees what the text says. *)
Theorem C91_source : forall x, laid_out x -> xml_source (tree (item x)) = Ok (content x).
Proof. exact source_reads. Qed.
Print Assumptions C91_source.
Definition novel_text : list Z := lit "<library version=""1"">two shelves<book id=""7"" lang=""en"">Dune &gt; 1965</book>
 <book id=""-12"" lang="""">
  <price>12.50</price><sold/>
 </book>
</library>
".
Definition novel_xml : xml := Eval vm_compute in match read_xml novel_text with Some x => x | None => Elem [] [] [] end.
Example C91_met : read_xml novel_text = Some novel_xml /\ laid_out novel_xml /\ content novel_xml = novel /\ document_fits (content novel_xml) /\ steady_document (content novel_xml) /\ (forall u, In u (elements (content novel_xml)) -> printable u) /\ XmlSpec.says novel_text = Some novel.
Proof.
  split; [vm_compute; reflexivity|]. split.
  { intros y J. cbn in J. repeat (destruct J as [<-|J]; [|]); try contradiction; cbn.
    - right. right. right. eexists _, _, _. split; [reflexivity|]. split; [left; reflexivity|]. split; [reflexivity|]. split; [intros c r [= <- _]; lia|reflexivity].
    - left. eexists. split; [reflexivity|]. intros c r [= <- _]; lia.
    - right. right. left. split; [eexists; right; left; reflexivity|reflexivity].
    - left. eexists. split; [reflexivity|]. intros c r [= <- _]; lia.
    - right. left. reflexivity. }
  assert (E : content novel_xml = novel) by (vm_compute; reflexivity). split; [exact E|]. rewrite E. split; [apply document_fitsb_ok; vm_compute; reflexivity|]. split; [exact novel_steady|]. split; [apply all_printable; vm_compute; reflexivity|vm_compute; reflexivity].
Qed.
(** <r>a&lt;b</r> is printed as <r>a<b</r>, which is no XML any more. *)
Definition trip_of fl (text : list Z) : run (list Z) := match read_xml text with None => Some Fail | Some x => rbind (Some (xml_source (tree (item x)))) (print_of fl) end.
Theorem C91_escape_refuted : forall fl, exists text', XmlSpec.says (lit "<r>a&lt;b</r>") = Some (leaf "a<b") /\ trip_of fl (lit "<r>a&lt;b</r>") = rret text' /\ XmlSpec.says text' = None.
Proof. intros fl. eexists. split; [vm_compute; reflexivity|]. split; vm_compute; reflexivity. Qed.
Print Assumptions C91_escape_refuted.
(** A value behind a child is lost, white space in front of a value as well. *)
Theorem C91_behind_refuted : forall fl, exists text' t, XmlSpec.says (lit "<r><a/>5</r>") = Some t /\ value_of t = Some (lit "5") /\ trip_of fl (lit "<r><a/>5</r>") = rret text' /\ exists t', XmlSpec.says text' = Some t' /\ value_of t' = None.
Proof. intros fl. eexists. eexists. split; [vm_compute; reflexivity|]. split; [reflexivity|]. split; [vm_compute; reflexivity|]. eexists. split; vm_compute; reflexivity. Qed.
Print Assumptions C91_behind_refuted.
Theorem C91_blank_refuted : forall fl, exists text' t, XmlSpec.says (lit "<r> x</r>") = Some t /\ value_of t = Some (lit " x") /\ trip_of fl (lit "<r> x</r>") = rret text' /\ exists t', XmlSpec.says text' = Some t' /\ value_of t' = Some (lit "x").
Proof. intros fl. eexists. eexists. split; [vm_compute; reflexivity|]. split; [reflexivity|]. split; [vm_compute; reflexivity|]. eexists. split; vm_compute; reflexivity. Qed.
Print Assumptions C91_blank_refuted.
(** The same text converted into a pool: the root mirrors what the text says (as in C71). *)
Theorem C91_pool_partial : forall fl fuel disk n text x root f m, read_xml text = Some x -> laid_out x -> numbered (content x) -> roomy n f -> xml_source (tree (item x)) = Ok root -> Make_xbw fl fuel disk n root f = rret (true, m) ->
  XmlSpec.says text = Some root /\ exists T P k s F y t, lists_all T (tag_uses root) /\ lists_all P (attr_uses root) /\ life k s m [] [] F /\ p_root m = Ok y /\ tree_at k s m T P F y t /\ mirrors fl t root.
Proof. exact trip_pool. Qed.
Print Assumptions C91_pool_partial.
Definition small_text : list Z := lit "<a n=""5"">
<b>7</b> <c>some text</c></a>".
Definition small_xml : xml := Eval vm_compute in match read_xml small_text with Some x => x | None => Elem [] [] [] end.
Example C91_pool_met : read_xml small_text = Some small_xml /\ laid_out small_xml /\ content small_xml = plain_doc /\ numbered (content small_xml) /\ roomy 100 [] /\ exists m, Make_xbw fl0 0 true 100 (content small_xml) [] = rret (true, m).
Proof.
  split; [vm_compute; reflexivity|]. split.
  { intros y J. cbn in J. repeat (destruct J as [<-|J]; [|]); try contradiction; cbn.
    - right. right. left. split; [eexists; right; left; reflexivity|reflexivity].
    - left. eexists. split; [reflexivity|]. intros c r [= <- _]; lia.
    - left. eexists. split; [reflexivity|]. intros c r [= <- _]; lia. }
  assert (E : content small_xml = plain_doc) by (vm_compute; reflexivity). rewrite E. split; [reflexivity|]. split; [exact plain_numbered|]. split; [left; split; [reflexivity|lia]|exact plain_made].
Qed.
