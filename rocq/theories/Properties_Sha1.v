(** The claims about SHA-1 (C21, C22). *)
From Verif Require Import Base BaseFacts Sha1 Sha1Spec Sha1Proofs Sha1StreamProofs.

(** ** C21: the digest *)

(** [W] is what the uninitialised part of the context holds. *)
Theorem C21_pieces : forall W pieces, zlen W = 64 -> Forall bytes pieces -> zlen (List.concat pieces) < 2 ^ 61 ->
  exists c, updates (blk_SHA1_Init W) pieces = Some c /\ blk_SHA1_Final c = Some (sha1 (List.concat pieces)).
Proof. exact sha1_pieces. Qed.
Print Assumptions C21_pieces.

Theorem C21_at_once : forall W m, zlen W = 64 -> bytes m -> zlen m < 2 ^ 61 -> SHA1 W m = Some (sha1 m).
Proof. exact SHA1_ok. Qed.
Print Assumptions C21_at_once.

(** The specification against the examples of the standard: "abc", the 56 byte message and no message. *)
Definition hex_of (l : list Z) : Z := fold_left (fun acc b => acc * 256 + b) l 0.
Example C21_met : zlen (zrepeat 165 64) = 64 /\ Forall bytes [lit "a"; []; lit "bc"] /\ zlen (List.concat [lit "a"; []; lit "bc"]) < 2 ^ 61 /\
  hex_of (sha1 (lit "abc")) = 968236873715988614170569073515315707566766479517 /\
  hex_of (sha1 (lit "abcdbcdecdefdefgefghfghighijhijkijkljklmklmnlmnomnopnopq")) = 756981919157381189150916787291668349464288325873 /\
  hex_of (sha1 []) = 1245845410931227995499360226027473197403882391305.
Proof.
  split; [reflexivity|]. split; [repeat constructor; discriminate|]. split; [reflexivity|]. repeat split; vm_compute; reflexivity.
Qed.

(** ** C22: the digest of a file *)

(** When every read delivers all that is left of the file or 4096 bytes. *)
Theorem C22_full_reads_partial : forall W reads file, zlen W = 64 -> bytes file -> zlen file < 2 ^ 61 ->
  Forall (fun n => 4096 <= n) reads -> zlen file / 4096 < zlen reads ->
  file_getsha1 W reads file = Some (Some (sha1 file)).
Proof. exact file_full. Qed.
Print Assumptions C22_full_reads_partial.

(** Otherwise it is the digest of some beginning of the file. *)
Theorem C22_prefix_partial : forall W reads file out, zlen W = 64 -> bytes file -> zlen file < 2 ^ 61 ->
  file_getsha1 W reads file = Some (Some out) -> exists n, 0 <= n <= zlen file /\ out = sha1 (ztake n file).
Proof. intros W reads file out HW. exact (sha1_reads_prefix reads (blk_SHA1_Init W) [] file out (init_ok W HW)). Qed.
Print Assumptions C22_prefix_partial.

Example C22_met : zlen (zrepeat 0 64) = 64 /\ Forall (fun n => 4096 <= n) [4096; 5000] /\ zlen (zrepeat 65 4100) / 4096 < zlen [4096; 5000] /\
  (exists n, file_getsha1 (zrepeat 0 64) [2; 9] (lit "abcd") = Some (Some (sha1 (ztake n (lit "abcd"))))).
Proof. split; [reflexivity|]. split; [repeat constructor; discriminate|]. split; [vm_compute; reflexivity|]. exists 2. vm_compute. reflexivity. Qed.

(** Missing from the full property, and false: the complete file for every schedule of reads. *)
Theorem C22_short_read_refuted : exists W reads file, zlen W = 64 /\ bytes file /\
  (exists out, file_getsha1 W reads file = Some (Some out) /\ out <> sha1 file).
Proof. exact file_short. Qed.
Print Assumptions C22_short_read_refuted.
