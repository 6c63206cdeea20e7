(** Properties of appending. *)
From Verif Require Import Base Types RingProofs RoundtripProofs Sort Xb XbWrite DocSpec ReadSpec DocExamples Append AppendSpec AppendProofs AppendExamples.

(** ** C34: the loop over the children shows the children converted originally, then all appended elements in order.
    For any texts: names and numbers of attributes and children; hexadecimal attributes are excluded (see C29). *)
Theorem C34_order : forall fl m filename modified root old img cr data ts data' f k,
  bytes m -> bytes data -> cstring filename -> document_fits root -> (forall u, In u (elements root) -> no_hex_attr u) -> open_ended root old ->
  Make_xb fl m filename modified root = rret img -> MakeSymbolTable root = rret cr ->
  Forall (named_in root) ts -> Appends fl cr data img ts = Ok (data', f) -> zlen f + 16 <= INT_MAX ->
  exists R x ys, Initialize (S k) f = rret R /\ rd_root R = Some x /\ Forall2 (looks_like f R) ys (old ++ ts) /\
    forall fuel, (List.length (old ++ ts) < fuel)%nat -> all_children fuel f x 0 = rret ys.
Proof. exact appends_look. Qed.
Print Assumptions C34_order.

(** With everything inside, for texts that survive. *)
Theorem C34_content : forall fl m filename modified root old img cr data ts data' f k,
  floats_ok fl -> bytes m -> bytes data -> cstring filename -> document_fits root -> steady_document root -> open_ended root old ->
  Make_xb fl m filename modified root = rret img -> MakeSymbolTable root = rret cr ->
  Forall (belongs root) ts -> Appends fl cr data img ts = Ok (data', f) -> zlen f + 16 <= INT_MAX ->
  exists R x ys, Initialize (S k) f = rret R /\ rd_root R = Some x /\ Forall2 (reads_as fl f R) ys (old ++ ts) /\
    forall fuel, (List.length (old ++ ts) < fuel)%nat -> all_children fuel f x 0 = rret ys.
Proof. exact appends_read. Qed.
Print Assumptions C34_content.

Example C34_example : document_fits log /\ steady_document log /\ open_ended log [xml "entry" (Some "start"%string) [("id", "1")%string] []] /\ Forall (belongs log) [more; last] /\
  forall fl, torn_log fl 26 4 = rret [rret (xml "entry" (Some "start"%string) [("id", "1")%string] []); rret more; rret last].
Proof.
  split; [apply document_fitsb_ok; vm_compute; reflexivity|]. split; [apply log_steady|]. split; [|split; [apply log_steady|intros fl; vm_compute; reflexivity]].
  split; [intros t [<-|[]]; vm_compute; discriminate|]. eexists. split; [|reflexivity]. reflexivity.
Qed.

(** ** C35: whatever part of an append reaches the file, all earlier appends are read and nothing else. *)
Theorem C35_torn_partial : forall fl m filename modified root old img cr data ts data' f t data'' bs n k,
  floats_ok fl -> bytes m -> bytes data -> cstring filename -> document_fits root -> steady_document root -> open_ended root old ->
  Make_xb fl m filename modified root = rret img -> MakeSymbolTable root = rret cr ->
  Forall (belongs root) ts -> Appends fl cr data img ts = Ok (data', f) ->
  belongs root t -> append_bytes fl cr data' f t = Ok (data'', bs) -> 0 <= n < zlen bs -> zlen f + zlen bs + 16 <= INT_MAX ->
  exists R x ys, Initialize (S k) (f ++ ztake n bs) = rret R /\ rd_root R = Some x /\ Forall2 (reads_as fl (f ++ ztake n bs) R) ys (old ++ ts) /\
    forall fuel, (List.length (old ++ ts) < fuel)%nat -> all_children fuel (f ++ ztake n bs) x 0 = rret ys.
Proof. exact torn_read. Qed.
Print Assumptions C35_torn_partial.
Example C35_example : exists img cr data bs, forall fl, Make_xb fl (zrepeat 0 400) (lit "f") 0 log = rret img /\ MakeSymbolTable log = rret cr /\
  append_bytes fl cr (zrepeat 0 400) img more = Ok (data, bs) /\ zlen bs = 26.
Proof. do 4 eexists. intros fl. split; [vm_compute; reflexivity|]. split; [vm_compute; reflexivity|]. split; vm_compute; reflexivity. Qed.

(** What is missing is false: later appends are lost, and an element nobody wrote is read instead. *)
Theorem C35_lost_refuted : forall fl, torn_log fl 16 9 =
  rret [rret (xml "entry" (Some "start"%string) [("id", "1")%string] []); rret (xml "entry" None [("id", "65536")%string] [])].
Proof. intros fl. vm_compute. reflexivity. Qed.
Print Assumptions C35_lost_refuted.
(** If one byte has reached the file, the loop never ends after the next append. *)
Theorem C35_endless_refuted : forall fl fuel, torn_log fl 1 fuel = None.
Proof. exact torn_endless. Qed.
Print Assumptions C35_endless_refuted.
