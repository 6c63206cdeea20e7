(** C76: converting a JSON text into a document. *)
From Verif Require Import Base Types Sort RingProofs RoundtripProofs SymtabSpec Xb XbWrite DocSpec ReadSpec DocExamples Jsmn JsonSpec JsonExamples JsonMake JsonMakeSpec JsonMakeTop JsonMakeExamples.

(** A JSON text whose values survive (C29) and that is converted gives a document that opens and shows the tree of the text, with all its
    values.  If the compiler computes the value before the name, all names are right (elements without a name are called NULL); otherwise the
    names of elements without a value are right, and every other name is right or replaced by NULL. *)
Theorem C76_partial : forall o v a b n fl fill m filename modified img k out st fuel, floats_ok fl -> bytes m -> zlen m <= INT_MAX -> cstring filename ->
  json v -> keyed v -> white a -> white b -> zlen (a ++ vtext v ++ b) <= INT_MAX -> 3 * zlen (a ++ vtext v ++ b) < Z.of_nat n -> zlen (a ++ vtext v ++ b) + 5 <= zlen fill -> (JsonSpec.height (tree v) <= n)%nat ->
  steady (tree v) -> JsonMake_xb o n fl (a ++ vtext v ++ b) fill m filename modified = rret img -> ring_ok st -> (JsonSpec.height (tree v) <= fuel)%nat ->
  exists R x t st', Xb.Initialize (S k) img = rret R /\ rd_root R = Some x /\ read_node fuel fl img R x out st = rret (normal t, st') /\ resembles (fun _ => False) (tree v) t /\
    (o = ValueFirst -> different (enames (tree v)) <= 32768 -> t = doc (tree v)) /\
    (o = NameFirst -> different (texts (tree v)) <= 32768 -> resembles (fun v => v = None) (tree v) t).
Proof. exact json_document. Qed.
Print Assumptions C76_partial.
Example C76_met : forall fl, let js := [] ++ vtext list3 ++ [10] in json list3 /\ keyed list3 /\ white [] /\ white [10] /\ 3 * zlen js < Z.of_nat 200 /\ zlen js + 5 <= zlen (zrepeat 170 60) /\ steady (tree list3) /\
  (JsonSpec.height (tree list3) <= 3)%nat /\ different (texts (tree list3)) <= 32768 /\
  (exists img, JsonMake_xb ValueFirst 200 fl js (zrepeat 170 60) (zrepeat 0 (json_buffer js)) (lit "f") 0 = rret img) /\
  (exists img, JsonMake_xb NameFirst 200 fl js (zrepeat 170 60) (zrepeat 0 (json_buffer js)) (lit "f") 0 = rret img) /\
  doc (tree list3) = xml "NULL" None [] [xml "a" (Some "1"%string) [] []; xml "books" None [] [xml "book" (Some "Dune"%string) [] []; xml "book" (Some "7"%string) [] []]; xml "c" None [] []].
Proof.
  intros fl. cbv zeta. split; [apply list3_json|]. split; [apply list3_json|]. split; [constructor|]. split; [constructor; [lia|constructor]|]. split; [vm_compute; reflexivity|]. split; [vm_compute; discriminate|]. split; [exact list3_steady|].
  split; [vm_compute; lia|]. split; [vm_compute; discriminate|]. split; [eexists; vm_compute; reflexivity|]. split; [eexists; vm_compute; reflexivity|]. vm_compute. reflexivity.
Qed.
(** Name first: all members with a value lose their names. *)
Theorem C76_order_refuted : forall fl, json_back fl NameFirst 200 (vtext list3) =
  rret (xml "NULL" None [] [xml "NULL" (Some "1"%string) [] []; xml "books" None [] [xml "NULL" (Some "Dune"%string) [] []; xml "NULL" (Some "7"%string) [] []]; xml "c" None [] []]).
Proof. intros fl. vm_compute. reflexivity. Qed.
Print Assumptions C76_order_refuted.
(** Value first: the type of a name is that of the name itself, here an integer for a member that is a text. *)
Theorem C76_type_refuted : forall fl, exists img R, JsonMake_xb ValueFirst 60 fl (lit "{""12"":""x""}") (zrepeat 170 20) (zrepeat 0 (json_buffer (lit "{""12"":""x""}"))) (lit "f") 0 = rret img /\
  Xb.Initialize 3 img = rret R /\ getSymbol img (rd_tags R) 0 = Ok (lit "12") /\ Xb.getType img (rd_tags R) 0 = Ok XBT_INT32.
Proof. intros fl. eexists. eexists. split; [vm_compute; reflexivity|]. split; [vm_compute; reflexivity|]. split; vm_compute; reflexivity. Qed.
Print Assumptions C76_type_refuted.
(** The image is written beyond its buffer: 121 empty objects in an array, whose name is not even registered. *)
Theorem C76_buffer_refuted : forall fl o, JsonMake_xb o 1200 fl (empties 120) (zrepeat 170 500) (zrepeat 0 (json_buffer (empties 120))) (lit "f") 0 = Some Ub.
Proof. intros fl o. destruct o; vm_compute; reflexivity. Qed.
Print Assumptions C76_buffer_refuted.
(** A string and a number give the same document, so which one it was is lost; escapes are not resolved. *)
Theorem C76_string_refuted : forall fl, exists t, json_back fl ValueFirst 60 (lit "{""a"":1}") = rret t /\ json_back fl ValueFirst 60 (lit "{""a"":""1""}") = rret t.
Proof. intros fl. eexists. split; vm_compute; reflexivity. Qed.
Print Assumptions C76_string_refuted.
Theorem C76_escape_refuted : forall fl, json_back fl ValueFirst 60 (lit "{""a"":""x\ny""}") = rret (xml "NULL" None [] [xml "a" (Some "x\ny"%string) [] []]) /\ zlen (lit "x\ny") = 4.
Proof. intros fl. split; vm_compute; reflexivity. Qed.
Print Assumptions C76_escape_refuted.
