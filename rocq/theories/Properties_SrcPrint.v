(** C81: printing a source to the standard output. *)
From Verif Require Import Base Types XbWrite DocSpec ReadSpec XmlSpec DocExamples XmlExamples SrcSpec SrcPrint SrcPrintSpec SrcPrintProofs.

(** A document whose texts need no entities is printed, behind a newline, as XML that says the same. *)
Theorem C81_partial : forall t, (forall u, In u (elements t) -> unescaped u) -> exists text, print_source t = 10 :: text /\ XmlSpec.says text = Some (normal t).
Proof. exact print_source_says. Qed.
Print Assumptions C81_partial.
Example C81_met : (forall u, In u (elements novel) -> unescaped u) /\ exists text, print_source novel = 10 :: text /\ zlen text = 182 /\ XmlSpec.says text = Some (normal novel).
Proof.
  split; [|eexists; split; [vm_compute; reflexivity|]; split; vm_compute; reflexivity].
  intros u Hu. assert (P : printable u) by (revert u Hu; apply all_printable; vm_compute; reflexivity). destruct P as (A & _ & B & C & D).
  split; [exact A|]. split; [exact B|]. split; [exact C|]. intros v E. destruct (D v E) as (D1 & D2 & _ & D3). auto.
Qed.
(** All these can be expressed in XML: a value that is not XML any more; one that becomes an element; an attribute that becomes two. *)
Definition comparison := DocExamples.xml "a" (Some "1 < 2"%string) [] [].
Definition nested := DocExamples.xml "a" (Some "<b></b>"%string) [] [].
Definition quoted : node := Node (lit "a") None [(lit "id", lit "1"" x=""2")] [].
Theorem C81_markup_refuted : (expressible comparison /\ exists text, print_source comparison = 10 :: text /\ XmlSpec.says text = None) /\
  (expressible nested /\ exists text, print_source nested = 10 :: text /\ XmlSpec.says text = Some (DocExamples.xml "a" None [] [DocExamples.xml "b" None [] []])) /\
  (expressible quoted /\ exists text, print_source quoted = 10 :: text /\ XmlSpec.says text = Some (DocExamples.xml "a" None [("id", "1"); ("x", "2")]%string [])).
Proof.
  assert (N : xml_name (lit "a") /\ xml_name (lit "id")) by (split; (split; [eexists _, _; split; [vm_compute; reflexivity|reflexivity]|reflexivity])).
  assert (E : forall l, forallb (fun c => (32 <=? c) && (c <=? 255)) l = true -> forall c, In c l -> 32 <= c <= 255) by (intros l H c Hc; rewrite forallb_forall in H; specialize (H c Hc); lia).
  split; [|split]; (split; [|eexists; split; vm_compute; reflexivity]).
  - split; [apply N|]. split; [constructor|]. split; [intros a []|]. intros v [= <-]. split; [intros c Hc; right; right; revert c Hc; apply E; reflexivity|intros X; contradiction X; reflexivity].
  - split; [apply N|]. split; [constructor|]. split; [intros a []|]. intros v [= <-]. split; [intros c Hc; right; right; revert c Hc; apply E; reflexivity|intros X; contradiction X; reflexivity].
  - split; [apply N|]. split; [constructor; [intros []|constructor]|]. split; [intros a [<-|[]]; split; [apply N|apply E; reflexivity]|]. discriminate.
Qed.
Print Assumptions C81_markup_refuted.
