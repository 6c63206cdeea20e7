(** Theorems about printed documents (C64). *)
From Verif Require Import Base NumSpec Types CalSpec RingProofs RoundtripProofs Sort SymtabSpec Sha1Spec Xb XbSpec XbWrite DocSpec ReadSpec NavSpec Packer PackSpec PackExamples Append AppendSpec AppendExamples XmlOut XmlSpec XmlMore XmlExamples.
From Verif Require Import DocExamples.

(** ** C64: what is printed is XML and says what the document says, whatever stood in the printer's buffer before. *)
Theorem C64_partial : forall fl m filename modified root img k buf, bytes m -> zlen m <= INT_MAX -> cstring filename ->
  document_fits root -> steady_document root -> (forall u, In u (elements root) -> printable u) -> Make_xb fl m filename modified root = rret img -> 256 < zlen buf ->
  exists R bound text, Initialize (S k) img = rret R /\
    (forall fuel steps, (bound <= fuel)%nat -> (bound <= steps)%nat -> print_document fuel steps fl img R buf = rret text) /\ says text = Some (normal root).
Proof. exact prints_says. Qed.
Print Assumptions C64_partial.
Example C64_met : document_fits novel /\ steady_document novel /\ (forall u, In u (elements novel) -> printable u) /\ 256 < zlen old_bytes /\
  forall fl, exists text, print_of fl novel = rret text /\ zlen text = 157 /\ says text = Some (normal novel).
Proof.
  split; [apply document_fitsb_ok; vm_compute; reflexivity|]. split; [exact novel_steady|]. split; [apply all_printable; vm_compute; reflexivity|]. split; [vm_compute; reflexivity|].
  intros fl. eexists. split; [vm_compute; reflexivity|]. split; vm_compute; reflexivity.
Qed.

(** The same for packed documents, in which equal elements are stored once, ... *)
Theorem C64_packed_partial : forall fl m filename modified root img W scratch heap depth k buf, bytes m -> zlen m <= INT_MAX -> cstring filename -> document_fits root -> steady_document root ->
  (forall u, In u (elements root) -> printable u) -> Make_xb fl m filename modified root = rret img -> sha1_separates img ->
  zlen W = 64 -> bytes heap -> zlen img <= zlen heap -> zlen scratch = 4 + zlen (elements root) -> (height root + 2 <= depth)%nat -> 256 < zlen buf ->
  exists img' R bound text, Make_packed W scratch heap depth fl m filename modified root = rret img' /\ Initialize (S k) img' = rret R /\
    (forall fuel steps, (bound <= fuel)%nat -> (bound <= steps)%nat -> print_document fuel steps fl img' R buf = rret text) /\ says text = Some (normal root).
Proof. exact packed_says. Qed.
Print Assumptions C64_packed_partial.
(** The other hypotheses for this document: C36_met. *)
Example C64_packed_met : (forall u, In u (elements shelves) -> printable u) /\
  forall fl, exists text, rbind (packed_image fl shelves) (fun img => rbind (Initialize 3 img) (fun R => print_document 5 20 fl img R old_bytes)) = rret text /\ says text = Some (normal shelves).
Proof. split; [apply all_printable; vm_compute; reflexivity|]. intros fl. eexists. split; vm_compute; reflexivity. Qed.

(** ... and for documents to which elements have been appended. *)
Theorem C64_grown_partial : forall fl m filename modified root old img cr data ts data' f k buf, bytes m -> bytes data -> cstring filename ->
  document_fits root -> steady_document root -> open_ended root old -> Make_xb fl m filename modified root = rret img -> MakeSymbolTable root = rret cr ->
  Forall (belongs root) ts -> Appends fl cr data img ts = Ok (data', f) -> zlen f + 16 <= INT_MAX ->
  old ++ ts <> [] -> (forall u, In u (elements (grown_root root (old ++ ts))) -> printable u) -> 256 < zlen buf ->
  exists R bound text, Initialize (S k) f = rret R /\
    (forall fuel steps, (bound <= fuel)%nat -> (bound <= steps)%nat -> print_document fuel steps fl f R buf = rret text) /\ says text = Some (normal (grown_root root (old ++ ts))).
Proof. exact grown_says. Qed.
Print Assumptions C64_grown_partial.
(** The other hypotheses for this document: C34_example. *)
Example C64_grown_met : forall u, In u (elements (grown_root log ([xml "entry" (Some "start"%string) [("id", "1")%string] []] ++ [more; last]))) -> printable u.
Proof. apply all_printable. vm_compute. reflexivity. Qed.

(** What is missing is false.  Nothing is escaped: some texts make the output ill-formed, others change. *)
Theorem C64_escape_refuted : forall fl,
  print_of fl (leaf "a<b") = rret (lit "<r>a<b</r>" ++ [10]) /\ says (lit "<r>a<b</r>" ++ [10]) = None /\
  print_of fl (leaf "AT&T") = rret (lit "<r>AT&T</r>" ++ [10]) /\ says (lit "<r>AT&T</r>" ++ [10]) = None /\
  print_of fl (leaf "use &lt;b&gt;") = rret (lit "<r>use &lt;b&gt;</r>" ++ [10]) /\ says (lit "<r>use &lt;b&gt;</r>" ++ [10]) = Some (leaf "use <b>").
Proof. intros fl. repeat split; vm_compute; reflexivity. Qed.
Print Assumptions C64_escape_refuted.
(** An attribute may break out of its quotes, ... *)
Theorem C64_quote_refuted : forall fl, let t := xml "r" None [("a", String "034" (append " b=" (String "034" "x")))%string] [] in exists text, print_of fl t = rret text /\
  says text = Some (xml "r" None [("a", ""); ("b", "x")]%string []).
Proof. intros fl t. eexists. split; vm_compute; reflexivity. Qed.
Print Assumptions C64_quote_refuted.
(** ... GUIDs lose their dashes, ... *)
Theorem C64_guid_refuted : forall fl, exists text, print_of fl (leaf "00112233-4455-6677-8899-aabbccddeeff") = rret text /\ says text = Some (leaf "00112233445566778899aabbccddeeff").
Proof. intros fl. eexists. split; vm_compute; reflexivity. Qed.
Print Assumptions C64_guid_refuted.
(** ... a 64-bit number is followed by what stood in the buffer, ... *)
Theorem C64_stale_refuted : forall fl, exists text, print_of fl (leaf "12345678901") = rret text /\ ztake 20 text = lit "<r>12345678901AAAAAA".
Proof. intros fl. eexists. split; vm_compute; reflexivity. Qed.
Print Assumptions C64_stale_refuted.
(** ... and the children behind one named et-tecera are not printed. *)
Theorem C64_end_mark_refuted : forall fl, exists text, print_of fl (xml "r" None [] [xml "a" None [] []; xml "et-tecera" None [] []; xml "b" None [] []]) = rret text /\
  says text = Some (xml "r" None [] [xml "a" None [] []]).
Proof. intros fl. eexists. split; vm_compute; reflexivity. Qed.
Print Assumptions C64_end_mark_refuted.
