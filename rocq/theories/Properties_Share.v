(** C86 Sharing files as memory; C87 identifying numbers; C88 the buffer for long texts. *)
From Verif Require Import Base Base64 Base64Spec Types Share ShareSpec ShareProofs OutBuf OutBufSpec OutBufProofs.

(** For every history of sharing, giving back in any order, writing and changing files: exactly the files that are shared have their descriptor and their memory, everything
    else is as at the beginning (which had a standard input). *)
Theorem C86_balanced_partial : forall s0 L s, descr s0 0 <> None -> uses s0 L s -> balanced s0 L s.
Proof. exact balanced_only. Qed.
Print Assumptions C86_balanced_partial.
(** Nothing is left when all files have been given back. *)
Theorem C86_nothing_left : forall s0 s, descr s0 0 <> None -> uses s0 [] s -> (forall d, descr s d = descr s0 d) /\ (forall k, pages s k = pages s0 k).
Proof. exact nothing_left. Qed.
Print Assumptions C86_nothing_left.
(** The memory of a shared file shows the bytes that the file has now; behind them a rest of a page, behind that the process is ended by a signal. *)
Theorem C86_reads : forall s0 L s h c i, descr s0 0 <> None -> uses s0 L s -> In h L -> files s (name h) = Some c -> 0 <= i < size h ->
  load s (at_ h + i) = (if i <? zlen c then Byte (znth c i) else if i <? page_count (zlen c) * 4096 then Tail else Signal).
Proof. exact reads_file. Qed.
Print Assumptions C86_reads.
(** Writing to it changes this byte of the file; a file shared for reading cannot be written. *)
Theorem C86_writes : forall s0 L s h c i v, descr s0 0 <> None -> uses s0 L s -> In h L -> files s (name h) = Some c -> 0 <= i < size h -> i < zlen c ->
  if writable h then exists s', store s (at_ h + i) v = Some s' /\ files s' (name h) = Some (ztake i c ++ v :: zskip (i + 1) c) /\ (forall n, n <> name h -> files s' n = files s n)
  else store s (at_ h + i) v = None.
Proof. exact writes_file. Qed.
Print Assumptions C86_writes.
(** A call that fails leaves nothing but, maybe, an empty file it was allowed to make. *)
Theorem C86_failed : forall s n create w want len opened mapped d s', (forall e, opened = Some e -> can_open s n create e) -> s_ShareFile s n create w want len opened mapped = (None, d, s') ->
  d = None /\ (forall x, descr s' x = descr s x) /\ (forall k, pages s' k = pages s k) /\ (forall x, files s' x = files s x \/ create = true /\ x = n /\ files s x = None /\ files s' x = Some []).
Proof. exact failed_share. Qed.
Print Assumptions C86_failed.
(** Sharing a file for reading changes no file and gives memory that cannot be written; a file that must exist is not made. *)
Theorem C86_reading : forall s n want len opened mapped a d s', (forall e, opened = Some e -> can_open s n false e) -> (forall b, mapped = Some b -> can_map s len b) -> ShareFileRO s n want len opened mapped = (a, d, s') ->
  (forall x, files s' x = files s x) /\ forall b i v, a = Some b -> 0 <= i < len -> store s' (b + i) v = None.
Proof. exact read_shared. Qed.
Print Assumptions C86_reading.
Theorem C86_existing : forall s n want len opened mapped a d s', (forall e, opened = Some e -> can_open s n false e) -> ShareFileRW s n true want len opened mapped = (a, d, s') -> forall x, files s' x = files s x.
Proof. exact existing_shared. Qed.
Print Assumptions C86_existing.

(** A process with files a (3 bytes) and b, descriptors 0 to 2. *)
Definition s0 : os := Os (fun n => if same_name n [97] then Some [1; 2; 3] else if same_name n [98] then Some [] else None) (fun d => if (0 <=? d) && (d <? 3) then Some [] else None) (fun _ => None).
Definition s1 : os := snd (ShareFileRW s0 [97] true true 8192 (Some 3) (Some 65536)).
Definition s2 : os := snd (ShareFileRO s1 [97] true 4096 (Some 4) (Some 131072)).
Definition s3 : os := match store s2 65537 9 with Some s => s | None => s2 end.
Definition h1 := Shared 65536 8192 (Some 3) [97] true.
Definition h2 := Shared 131072 4096 (Some 4) [97] false.
Lemma used : uses s0 [h2; h1] s3.
Proof.
  eapply (uses_store _ _ s2 65537 9); [|vm_compute; reflexivity].
  apply (uses_share s0 [h1] s1 [97] false false true 4096 (Some 4) (Some 131072) 131072 (Some 4) s2); [| | |reflexivity].
  - apply (uses_share s0 [] s0 [97] false true true 8192 (Some 3) (Some 65536) 65536 (Some 3) s1); [constructor| | |reflexivity].
    + intros e X. injection X as <-. split; [lia|]. split; [reflexivity|]. intros _. vm_compute. discriminate.
    + intros e X. injection X as <-. split; [lia|]. split; [reflexivity|]. split; [lia|]. reflexivity.
  - intros e X. injection X as <-. split; [lia|]. split; [reflexivity|]. intros _. vm_compute. discriminate.
  - intros e X. injection X as <-. split; [lia|]. split; [reflexivity|]. split; [lia|]. intros k K. change (page_count 4096) with 1 in K. change (131072 / 4096) with 32 in K. assert (k = 32) as -> by lia. reflexivity.
Qed.
Example C86_met : descr s0 0 <> None /\ uses s0 [h2; h1] s3 /\ load s3 131073 = Byte 9 /\ load s3 131075 = Tail /\ load s3 69632 = Signal /\ store s3 131072 5 = None /\
  uses s0 [] (CloseSharedFile (CloseSharedFile s3 65536 8192 3) 131072 4096 4).
Proof.
  split; [discriminate|]. split; [exact used|]. split; [reflexivity|]. split; [reflexivity|]. split; [reflexivity|]. split; [reflexivity|].
  apply (uses_close s0 [] h2 [] (CloseSharedFile s3 65536 8192 3)). apply (uses_close s0 [h2] h1 [] s3). exact used.
Qed.
Example C86_failed_met : s_ShareFile s0 [99] true true true 4096 (Some 3) None = (None, None, snd (s_ShareFile s0 [99] true true true 4096 (Some 3) None)) /\ can_open s0 [99] true 3.
Proof. split; [reflexivity|]. split; [lia|]. split; [reflexivity|discriminate]. Qed.
Example C86_reading_met : (forall x, files s2 x = files s1 x) /\ store s2 (131072 + 5) 7 = None.
Proof.
  destruct (C86_reading s1 [97] true 4096 (Some 4) (Some 131072) (Some 131072) (Some 4) s2) as [A B]; [| |reflexivity|split; [exact A|apply (B 131072 5 7); [reflexivity|lia]]].
  - intros e X. injection X as <-. split; [lia|]. split; [reflexivity|]. intros _. vm_compute. discriminate.
  - intros e X. injection X as <-. split; [lia|]. split; [reflexivity|]. split; [lia|]. intros k K. change (page_count 4096) with 1 in K. change (131072 / 4096) with 32 in K. assert (k = 32) as -> by lia. reflexivity.
Qed.
Example C86_existing_met : forall x, files s1 x = files s0 x.
Proof. apply (C86_existing s0 [97] true 8192 (Some 3) (Some 65536) (Some 65536) (Some 3) s1); [|reflexivity]. intros e X. injection X as <-. split; [lia|]. split; [reflexivity|]. intros _. vm_compute. discriminate. Qed.

(** A process without standard input gets descriptor 0, which CloseSharedFile does not close. *)
Theorem C86_zero_refuted : forall s n create w len a s', can_open s n create 0 -> can_map s len a -> s_ShareFile s n create w true len (Some 0) (Some a) = (Some a, Some 0, s') ->
  descr s 0 = None /\ descr (CloseSharedFile s' a len 0) 0 = Some n.
Proof. exact zero_left. Qed.
Print Assumptions C86_zero_refuted.
(** ShareFileRW makes a missing file, but gives it no length: every access to its memory is a signal. *)
Theorem C86_new_refuted : forall s n w want len d a s' i v, files s n = None -> can_open s n true d -> can_map s len a -> s_ShareFile s n true w want len (Some d) (Some a) = (Some a, if want then Some d else None, s') -> 0 <= i < len ->
  files s' n = Some [] /\ load s' (a + i) = Signal /\ store s' (a + i) v = None.
Proof. exact new_file. Qed.
Print Assumptions C86_new_refuted.
Example C86_new_met : files s0 [99] = None /\ can_open s0 [99] true 3 /\ can_map s0 4096 65536 /\ load (snd (ShareFileRW s0 [99] false true 4096 (Some 3) (Some 65536))) 65536 = Signal.
Proof. split; [reflexivity|]. split; [split; [lia|]; split; [reflexivity|discriminate]|]. split; [split; [lia|]; split; [reflexivity|]; split; [lia|reflexivity]|reflexivity]. Qed.
Example C86_zero_met : let s := Os (files s0) (fun _ => None) (pages s0) in can_open s [97] false 0 /\ can_map s 4096 65536.
Proof. split; [split; [lia|]; split; [reflexivity|intros _; vm_compute; discriminate]|split; [lia|]; split; [reflexivity|]; split; [lia|reflexivity]]. Qed.

(** WriteToFile is true only if the file has exactly the text and nothing else has changed. *)
Theorem C86_text : forall s n text opened printed closed k s', (forall d, opened = Some d -> can_open s n true d) -> WriteToFile s n text opened printed closed k = (true, s') ->
  files s' n = Some text /\ (forall x, x <> n -> files s' x = files s x) /\ (forall d, descr s' d = descr s d) /\ (forall p, pages s' p = pages s p).
Proof. exact written_file. Qed.
Print Assumptions C86_text.
Example C86_text_met : can_open s0 [98] true 3 /\ fst (WriteToFile s0 [98] [104; 105] (Some 3) true true 0) = true.
Proof. split; [split; [lia|]; split; [reflexivity|discriminate]|reflexivity]. Qed.
(** When the text cannot be written, the file stays open. *)
Theorem C86_stays_open_refuted : forall s n text d closed k, can_open s n true d ->
  exists s', WriteToFile s n text (Some d) false closed k = (false, s') /\ descr s d = None /\ descr s' d = Some n /\ files s' n = Some (ztake k text).
Proof. exact print_fails. Qed.
Print Assumptions C86_stays_open_refuted.
Example C86_stays_open_met : can_open s0 [98] true 3.
Proof. split; [lia|]. split; [reflexivity|discriminate]. Qed.

(** Every generated number is in range, and two draws at the same point of a series never give the same number. *)
Theorem C87_signed_partial : forall b c r1 r2, clocked b -> clocked c -> drawn r1 -> drawn r2 -> exists v, genI64 b c r1 r2 = Ok (v, seeded b c + 1) /\ 0 <= v < 4611686018427387904.
Proof. exact signed_range. Qed.
Print Assumptions C87_signed_partial.
Theorem C87_unsigned_partial : forall b c r1 r2, clocked b -> clocked c -> drawn r1 -> drawn r2 -> exists v, genU64 b c r1 r2 = Ok (v, seeded b c + 1) /\ 0 <= v < 9223372036854775808.
Proof. exact unsigned_range. Qed.
Print Assumptions C87_unsigned_partial.
Theorem C87_signed_different : forall b c r1 r2 q1 q2 v b1 b2, drawn r1 -> drawn r2 -> drawn q1 -> drawn q2 -> genI64 b c r1 r2 = Ok (v, b1) -> genI64 b c q1 q2 = Ok (v, b2) -> r1 = q1 /\ r2 = q2.
Proof. exact signed_injective. Qed.
Print Assumptions C87_signed_different.
Theorem C87_unsigned_different : forall b c r1 r2 q1 q2 v b1 b2, clocked b -> clocked c -> drawn r1 -> drawn r2 -> drawn q1 -> drawn q2 -> genU64 b c r1 r2 = Ok (v, b1) -> genU64 b c q1 q2 = Ok (v, b2) -> r1 = q1 /\ r2 = q2.
Proof. exact unsigned_injective. Qed.
Print Assumptions C87_unsigned_different.
(** A series of any length that the counter allows has all its numbers, none of them negative. *)
Theorem C87_series : forall l b, 0 <= b -> b + zlen l <= 4611686018427387904 -> Forall (fun '(c, r1, r2) => 0 <= c /\ c + zlen l < 4611686018427387904 /\ drawn r1 /\ drawn r2) l ->
  exists vs, series genI64 b l = Ok vs /\ List.length vs = List.length l /\ Forall (fun v => 0 <= v < 4611686018427387904) vs.
Proof. exact series_total. Qed.
Print Assumptions C87_series.
Example C87_met : clocked 0 /\ clocked 5000000000 /\ drawn 7 /\ drawn 2147483647 /\ genI64 0 5000000000 7 2147483647 = Ok (12179869183, 5000000001) /\ genU64 0 5000000000 7 2147483647 = Ok (27212254719, 5000000001) /\
  series genI64 0 [(5000000000, 7, 8); (0, 9, 10)] = Ok [11442450952; 24327352843].
Proof. unfold clocked, drawn. repeat (split; [lia|]). repeat split; vm_compute; reflexivity. Qed.
(** Numbers of one series may be equal, also when all that was drawn is different. *)
Theorem C87_repeated_refuted : exists b c r1 r2 q1 q2 v, clocked b /\ drawn r1 /\ drawn r2 /\ drawn q1 /\ drawn q2 /\ (r1, r2) <> (q1, q2) /\ series genI64 b [(c, r1, r2); (c, q1, q2)] = Ok [v; v] /\ series genU64 b [(c, r1, r2); (c, q1, q2)] = Ok [v; v].
Proof. exists 2, 0, 0, 0, 0, 1, 2. unfold clocked, drawn. repeat (split; [lia|]). split; [discriminate|]. split; vm_compute; reflexivity. Qed.
Print Assumptions C87_repeated_refuted.
(** One bit of genU64 does not depend on what is drawn. *)
Theorem C87_bit_refuted : forall b c r1 r2 v b1, drawn r1 -> drawn r2 -> genU64 b c r1 r2 = Ok (v, b1) -> Z.testbit v 31 = Z.testbit (seeded b c) 31.
Proof. exact bit_fixed. Qed.
Print Assumptions C87_bit_refuted.

(** After any series of requests the buffer is as large as the largest of them. *)
Theorem C88_requests : forall wants have, 0 <= have -> Forall (fun w => w <= INT_MAX - 8192) wants -> exists h, requests have wants = Ok h /\ have <= h /\ Forall (fun w => w <= h) wants.
Proof. exact requests_enough. Qed.
Print Assumptions C88_requests.
(** The lines of a HEX value of any content up to a gigabyte fit the buffer, with the terminator ... *)
Theorem C88_hex_partial : forall have l, 0 <= have -> zlen l <= 1041200000 -> exists h, XBT_Buffer have (hex_room (zlen l)) = Ok h /\ have <= h /\ zlen (hex_lines (S (Z.to_nat (zlen l / 16))) l) + 1 <= h.
Proof. exact hex_fits_all. Qed.
Print Assumptions C88_hex_partial.
(** ... and the whole text of a BLOB. *)
Theorem C88_blob_partial : forall have l, bytes l -> 0 <= have -> zlen l <= 1610000000 -> exists h, XBT_Buffer have (blob_room (zlen l)) = Ok h /\ have <= h /\
  let '(t, ended) := base64_encode l (blob_room (zlen l)) in t = b64_text l /\ zlen (t ++ if ended then [0] else []) <= h.
Proof. exact blob_fits_all. Qed.
Print Assumptions C88_blob_partial.
Example C88_met : requests 0 [37; 5; 9000; 8192] = Ok 16384 /\ XBT_Buffer 0 (hex_room 17) = Ok 8192 /\ hex_room 17 = 37 /\ zlen (hex_lines 2 (zrepeat 255 17)) + 1 = 37.
Proof. repeat split; vm_compute; reflexivity. Qed.
(** Beyond, the computed size is negative: the buffer stays as it is, and the text is written behind its end. *)
Theorem C88_wrap_refuted : forall have l, 0 <= have <= INT_MAX -> 1041204193 <= zlen l -> zlen l * 2 + zlen l / 16 + 2 < 4294967296 ->
  XBT_Buffer have (hex_room (zlen l)) = Ok have /\ have < zlen (hex_lines (S (Z.to_nat (zlen l / 16))) l) + 1.
Proof. exact hex_negative. Qed.
Print Assumptions C88_wrap_refuted.
Example C88_wrap_met : exists l, 1041204193 <= @zlen Z l /\ zlen l * 2 + zlen l / 16 + 2 < 4294967296.
Proof. destruct (any_length 1100000000) as [l L]; [lia|]. exists l. rewrite L. change (1100000000 / 16) with 68750000. lia. Qed.
