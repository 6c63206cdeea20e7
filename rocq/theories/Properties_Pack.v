(** Theorems about packed documents (C36, C37, C38). *)
From Verif Require Import Base NumSpec Types CalSpec RingProofs RoundtripProofs Sort SymtabSpec Sha1Spec Xb XbSpec XbWrite DocSpec ReadSpec NavSpec CheckSpec DocExamples Packer PackSpec PackReadProofs PackExamples PackSameSpec PackSame PackSameExamples.

(** ** C36: the packed document is the same document, for documents with steady texts (see C29) in which SHA-1 tells the
    nodes apart. *)
Theorem C36_same_document_partial : forall fl m filename modified root img W scratch heap depth, bytes m -> zlen m <= INT_MAX -> cstring filename -> document_fits root -> no_hex root ->
  Make_xb fl m filename modified root = rret img -> sha1_separates img -> zlen W = 64 -> bytes heap -> zlen img <= zlen heap -> zlen scratch = 4 + zlen (elements root) -> (height root + 2 <= depth)%nat ->
  forall k out st fuel, floats_ok fl -> steady_document root -> ring_ok st -> (height root <= fuel)%nat ->
  exists img' R x st' R' x' st'', Make_packed W scratch heap depth fl m filename modified root = rret img' /\
    Initialize (S k) img = rret R /\ rd_root R = Some x /\ read_node fuel fl img R x out st = rret (normal root, st') /\
    Initialize (S k) img' = rret R' /\ rd_root R' = Some x' /\ read_node fuel fl img' R' x' out st = rret (normal root, st'').
Proof. exact packed_reads. Qed.
Print Assumptions C36_same_document_partial.
Example C36_met : document_fits shelves /\ no_hex shelves /\ steady_document shelves /\ (height shelves + 2 <= 9)%nat /\
  exists img, (forall fl, plain fl shelves = rret img) /\ sha1_separates img /\ zlen img <= zlen (zrepeat 0 800) /\ exists img', (forall fl, packed_image fl shelves = rret img') /\ zlen img = 432 /\ zlen img' = 308.
Proof.
  split; [apply document_fitsb_ok; vm_compute; reflexivity|].
  split; [intros u Hu n v Hv; cbn in Hu; repeat (destruct Hu as [<-|Hu]; [cbn in Hv; repeat (destruct Hv as [Hv|Hv]; [injection Hv as <- <-; vm_compute; discriminate|]); contradiction|]); contradiction|].
  split; [exact shelves_steady|]. split; [vm_compute; lia|]. eexists. split; [intros fl; vm_compute; reflexivity|].
  split; [match goal with |- sha1_separates ?m => apply (separatedb_ok m (below 9 m 0)); vm_compute; reflexivity end|]. split; [vm_compute; discriminate|]. eexists. split; [intros fl; vm_compute; reflexivity|]. split; reflexivity.
Qed.

(** The same for all texts, also those that do not come back letter by letter: whatever a client reads from the plain image, it reads from the packed one, for documents without 64-bit and hexadecimal
    values and without dates as attributes. *)
Theorem C36_any_text_partial : forall fl m filename modified root img W scratch heap depth, bytes m -> zlen m <= INT_MAX -> cstring filename -> document_fits root -> no_hex root ->
  Make_xb fl m filename modified root = rret img -> sha1_separates img -> zlen W = 64 -> bytes heap -> zlen img <= zlen heap -> zlen scratch = 4 + zlen (elements root) -> (height root + 2 <= depth)%nat -> movable root ->
  forall k, exists img' R x R' x', Make_packed W scratch heap depth fl m filename modified root = rret img' /\
    Initialize (S k) img = rret R /\ rd_root R = Some x /\ Initialize (S k) img' = rret R' /\ rd_root R' = Some x' /\ forall fuel out st, read_node fuel fl img' R' x' out st = read_node fuel fl img R x out st.
Proof. exact packed_same. Qed.
Print Assumptions C36_any_text_partial.
Example C36_any_text_met : movable worn /\ no_hex worn /\ document_fits worn /\ exists img, (forall fl, plain fl worn = rret img) /\ sha1_separates img /\ zlen img = 348 /\
  exists t, (forall fl, tree_of fl (plain fl worn) = rret t) /\ (forall fl, tree_of fl (packed_image fl worn) = rret t) /\ value_of (nth 0 (kids_of t) t) = Some (lit "7") /\ attrs_of (nth 0 (kids_of t) t) = [(lit "a", lit "1.0")].
Proof.
  split; [exact worn_movable|]. split; [exact worn_no_hex|]. split; [apply document_fitsb_ok; vm_compute; reflexivity|]. eexists. split; [intros fl; vm_compute; reflexivity|].
  split; [match goal with |- sha1_separates ?m => apply (separatedb_ok m (below 9 m 0)); vm_compute; reflexivity end|]. split; [reflexivity|]. eexists. split; [intros fl; vm_compute; reflexivity|]. split; [intros fl; vm_compute; reflexivity|]. split; reflexivity.
Qed.
(** With a 64-bit value the property is false: the packed document has another value. *)
Theorem C36_wide_refuted : forall fl, document_fits behind /\ no_hex behind /\ exists t t', tree_of fl (plain fl behind) = rret t /\ tree_of fl (packed_image fl behind) = rret t' /\ value_of (nth 2 (kids_of t) t) <> value_of (nth 2 (kids_of t') t').
Proof.
  intros fl. split; [apply document_fitsb_ok; vm_compute; reflexivity|]. split; [intros u Hu n v Hv; cbn in Hu; repeat (destruct Hu as [<-|Hu]; [cbn in Hv; contradiction|]); contradiction|].
  eexists. eexists. split; [vm_compute; reflexivity|]. split; [vm_compute; reflexivity|]. vm_compute. discriminate.
Qed.
Print Assumptions C36_wide_refuted.

(** ** C37: the packed image is not longer, and elements stored with the same bytes in the plain image are stored once. *)
Theorem C37_shared_partial : forall fl m filename modified root img W scratch heap depth, bytes m -> zlen m <= INT_MAX -> cstring filename -> document_fits root -> no_hex root ->
  Make_xb fl m filename modified root = rret img -> sha1_separates img -> zlen W = 64 -> bytes heap -> zlen img <= zlen heap -> zlen scratch = 4 + zlen (elements root) -> (height root + 2 <= depth)%nat ->
  forall k, exists img', Make_packed W scratch heap depth fl m filename modified root = rret img' /\ zlen img' <= zlen img /\
  exists R x R' x', Initialize (S k) img = rret R /\ rd_root R = Some x /\ Initialize (S k) img' = rret R' /\ rd_root R' = Some x' /\
  forall path u path' u', sub root path = Some u -> sub root path' = Some u' ->
  exists y z y' z', walk img x path = Ok (Some y) /\ walk img' x' path = Ok (Some z) /\ walk img x path' = Ok (Some y') /\ walk img' x' path' = Ok (Some z') /\
    forall bs, stored_as img y bs -> stored_as img y' bs -> z = z'.
Proof. exact packed_shares. Qed.
Print Assumptions C37_shared_partial.
Example C37_example : forall fl, map (at_path (plain fl shelves)) [[0]; [2]; [1; 0]; [3; 0]]%nat = [rret 240; rret 336; rret 292; rret 388] /\
  map (at_path (packed_image fl shelves)) [[0]; [2]; [1; 0]; [3; 0]]%nat = [rret 240; rret 240; rret 240; rret 240].
Proof. intros fl. split; vm_compute; reflexivity. Qed.
(** What is missing is false: equal elements whose values need different padding stay apart. *)
Theorem C37_padding_refuted : forall fl, sub apart [0%nat] = sub apart [2%nat] /\ at_path (packed_image fl apart) [0%nat] = rret 224 /\ at_path (packed_image fl apart) [2%nat] = rret 268.
Proof. intros fl. split; [reflexivity|]. split; vm_compute; reflexivity. Qed.
Print Assumptions C37_padding_refuted.

(** ** C38: a 64-bit value reads the same from both images if packing moves its element by a multiple of eight. *)
Theorem C38_same_value_partial : forall fl m filename modified root img W scratch heap depth, bytes m -> zlen m <= INT_MAX -> cstring filename -> document_fits root -> no_hex root ->
  Make_xb fl m filename modified root = rret img -> sha1_separates img -> zlen W = 64 -> bytes heap -> zlen img <= zlen heap -> zlen scratch = 4 + zlen (elements root) -> (height root + 2 <= depth)%nat ->
  forall k path u n, sub root path = Some u -> value_of u = Some (sdec n) -> int64 n -> n <> INT64_MIN -> ~ -2147483648 <= n <= 4294967295 ->
  exists img' R x R' x' y z, Make_packed W scratch heap depth fl m filename modified root = rret img' /\
  Initialize (S k) img = rret R /\ rd_root R = Some x /\ Initialize (S k) img' = rret R' /\ rd_root R' = Some x' /\
  walk img x path = Ok (Some y) /\ walk img' x' path = Ok (Some z) /\ getInt64 img (Some y) = Ok (Some n) /\ ((z - y) mod 8 = 0 -> getInt64 img' (Some z) = Ok (Some n)).
Proof. exact packed_int64. Qed.
Print Assumptions C38_same_value_partial.
Example C38_example : forall fl, int64_at (packed_image fl apart) [2%nat] = rret (Some 12345678901) /\ exists u, sub apart [2%nat] = Some u /\ value_of u = Some (sdec 12345678901).
Proof. intros fl. split; [vm_compute; reflexivity|]. eexists. split; reflexivity. Qed.
(** Without that condition it is false: sharing one element of 20 bytes moves the value behind it by 20. *)
Theorem C38_moved_refuted : forall fl, at_path (plain fl behind) [2%nat] = rret 272 /\ at_path (packed_image fl behind) [2%nat] = rret 252 /\
  int64_at (plain fl behind) [2%nat] = rret (Some 12345678901) /\ exists n, int64_at (packed_image fl behind) [2%nat] = rret (Some n) /\ n <> 12345678901.
Proof. intros fl. split; [vm_compute; reflexivity|]. split; [vm_compute; reflexivity|]. split; [vm_compute; reflexivity|]. eexists. split; [vm_compute; reflexivity|discriminate]. Qed.
Print Assumptions C38_moved_refuted.
