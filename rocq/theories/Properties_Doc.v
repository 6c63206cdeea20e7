(** Theorems about documents: what the converter writes, the reader reads (C29, C30). *)
From Verif Require Import Base Types RingProofs RoundtripProofs Sort Xb XbWrite DocSpec ReadSpec OpenProofs ReadProofs DocExamples.

(** C30: opening the image of any document within the limits of the format succeeds and delivers the root element. *)
Theorem C30_opens : forall fl m filename modified root img k, document_fits root -> cstring filename -> zlen m <= INT_MAX ->
  Make_xb fl m filename modified root = rret img ->
  exists R x nm, Initialize (S k) img = rret R /\ rd_root R = Some x /\ it_name img x = Ok nm /\ getSymbol img (rd_tags R) nm = Ok (name_of root).
Proof. exact opens. Qed.
Print Assumptions C30_opens.
Example C30_met : forall fl, document_fits book /\ cstring (lit "book.xml") /\ zlen (zrepeat 0 600) <= INT_MAX /\
  exists img, Make_xb fl (zrepeat 0 600) (lit "book.xml") 0 book = rret img /\ zlen img = 412.
Proof. intros fl. split; [exact book_fits|]. split; [apply cstringb_ok; reflexivity|]. split; [vm_compute; discriminate|]. eexists. split; vm_compute; reflexivity. Qed.

(** C29: the client that walks through the whole document with the reader's functions sees the source tree,
    for texts that are stored exactly (see [steady_document]), whatever was shown before. *)
Theorem C29_same_document_partial : forall fl m filename modified root img k out st fuel,
  floats_ok fl -> bytes m -> zlen m <= INT_MAX -> cstring filename ->
  document_fits root -> steady_document root -> Make_xb fl m filename modified root = rret img -> ring_ok st -> (height root <= fuel)%nat ->
  exists R x st', Initialize (S k) img = rret R /\ rd_root R = Some x /\ read_node fuel fl img R x out st = rret (normal root, st').
Proof. exact reads_back. Qed.
Print Assumptions C29_same_document_partial.
Example C29_met : steady_document book /\ (height book <= 3)%nat /\ normal book = book /\ ring_ok ring0.
Proof. split; [exact book_steady|]. split; [vm_compute; lia|]. split; [reflexivity|exact ring0_ok]. Qed.

(** What is missing, and why: texts that the document does not give back.
    A value that is not in the canonical form of its type. *)
Theorem C29_leading_zeros_refuted : forall fl, exists root t, document_fits root /\ back fl (zrepeat 0 400) (lit "f") root = rret t /\
  value_of root = Some (lit "007") /\ value_of t = Some (lit "7").
Proof. intros fl. exists (xml "r" (Some "007"%string) [] []). eexists. split; [apply document_fitsb_ok; reflexivity|]. split; [vm_compute; reflexivity|]. split; reflexivity. Qed.
Print Assumptions C29_leading_zeros_refuted.
(** An attribute whose column has fractions elsewhere. *)
Theorem C29_column_refuted : forall fl, exists root t, document_fits root /\ back fl (zrepeat 0 400) (lit "f") root = rret t /\
  attrs_of root = [(lit "a", lit "1")] /\ attrs_of t = [(lit "a", lit "1.0")].
Proof. intros fl. exists (xml "r" None [("a", "1")%string] [xml "k" None [("a", "2.5")%string] []]). eexists. split; [apply document_fitsb_ok; reflexivity|]. split; [vm_compute; reflexivity|]. split; reflexivity. Qed.
Print Assumptions C29_column_refuted.
(** An attribute of hexadecimal letters. *)
Theorem C29_hex_attribute_refuted : forall fl, exists root t, document_fits root /\ back fl (zrepeat 0 400) (lit "f") root = rret t /\
  attrs_of root = [(lit "a", lit "beef")] /\ attrs_of t <> [(lit "a", lit "beef")].
Proof. intros fl. exists (xml "r" None [("a", "beef")%string] [xml "k" (Some "12"%string) [] []]). eexists. split; [apply document_fitsb_ok; reflexivity|]. split; [vm_compute; reflexivity|]. split; [reflexivity|vm_compute; discriminate]. Qed.
Print Assumptions C29_hex_attribute_refuted.
(** ... which overwrites what stands behind it: here the type of the element's value. *)
Theorem C29_hex_value_refuted : forall fl, exists root t, document_fits root /\ back fl (zrepeat 0 400) (lit "f") root = rret t /\
  value_of root = Some (lit "hello") /\ value_of t = None.
Proof. intros fl. exists (xml "r" (Some "hello"%string) [("a", "deadbeef")%string] []). eexists. split; [apply document_fitsb_ok; reflexivity|]. split; [vm_compute; reflexivity|]. split; reflexivity. Qed.
Print Assumptions C29_hex_value_refuted.
(** An IPv4 address has no text. *)
Theorem C29_ipv4_refuted : forall fl, exists root t, document_fits root /\ back fl (zrepeat 0 400) (lit "f") root = rret t /\
  value_of root = Some (lit "10.0.0.1") /\ value_of t = None.
Proof. intros fl. exists (xml "r" (Some "10.0.0.1"%string) [] []). eexists. split; [apply document_fitsb_ok; reflexivity|]. split; [vm_compute; reflexivity|]. split; reflexivity. Qed.
Print Assumptions C29_ipv4_refuted.
(** A number beyond 32 bits without sign cannot be converted at all. *)
Theorem C29_uint32_refuted : forall fl, exists root, document_fits root /\ value_of root = Some (lit "3000000000") /\ Make_xb fl (zrepeat 0 400) (lit "f") 0 root = Some Fail.
Proof. intros fl. exists (xml "r" (Some "3000000000"%string) [] []). split; [apply document_fitsb_ok; reflexivity|]. split; [reflexivity|]. vm_compute. reflexivity. Qed.
Print Assumptions C29_uint32_refuted.
(** A date as attribute is read through a wild offset. *)
Theorem C29_date_attribute_refuted : forall fl, exists root, document_fits root /\ attrs_of root = [(lit "a", lit "2024-01-05")] /\
  back fl (zrepeat 0 400) (lit "f") root = Some Ub.
Proof. intros fl. exists (xml "r" None [("a", "2024-01-05")%string] []). split; [apply document_fitsb_ok; reflexivity|]. split; [reflexivity|]. vm_compute. reflexivity. Qed.
Print Assumptions C29_date_attribute_refuted.
(** Milliseconds are stored at a multiple of four but read at a multiple of eight. *)
Theorem C29_milliseconds_refuted : forall fl, exists root t, document_fits root /\ back fl (zrepeat 0 400) (lit "f") root = rret t /\
  value_of root = Some (lit "2024-01-05 10:00:00.123") /\ value_of t <> value_of root.
Proof. intros fl. exists (xml "r" (Some "2024-01-05 10:00:00.123"%string) [] [xml "b" None [] []; xml "b" None [] []]). eexists. split; [apply document_fitsb_ok; reflexivity|]. split; [vm_compute; reflexivity|]. split; [reflexivity|vm_compute; discriminate]. Qed.
Print Assumptions C29_milliseconds_refuted.
