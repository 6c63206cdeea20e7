(** C77, C78, C79: directories and whole files. *)
From Verif Require Import Base Text Files FilesSpec FilesProofs FilesExamples.

(** Making the directories of a path that ends with a slash: whatever others do meanwhile, on success everything before the last name is a
    directory, and something with the last name exists. *)
Theorem C77_made_partial : forall w f cwd x c f', c <> 47 -> force_directory w f cwd ((x ++ [c]) ++ [47]) = (true, f') ->
  (exists k, exists_at f' cwd (x ++ [c]) k) /\ (forall a b, a <> [] -> x ++ [c] = a ++ 47 :: b -> is_dir f' cwd a).
Proof. exact force_directory_makes. Qed.
Print Assumptions C77_made_partial.
(** It succeeds if all is allowed, others remove nothing and make no files, and there are no files; so with C77_made_partial the directory is there. *)
Theorem C77_succeeds : forall w f cwd directory, Forall (fun e => friendly (fst e) /\ snd e = true) w -> only_dirs f -> f [] = Some Dir -> f cwd = Some Dir ->
  exists f', force_directory w f cwd directory = (true, f') /\ only_dirs f'.
Proof. exact force_directory_succeeds. Qed.
Print Assumptions C77_succeeds.
(** Nothing that exists is changed and only directories are made, also on failure. *)
Theorem C77_only : forall w f cwd directory r f', Forall (fun e => fst e = (fun f => f)) w -> force_directory w f cwd directory = (r, f') ->
  forall q, f' q <> f q -> f q = None /\ f' q = Some Dir.
Proof. exact force_directory_only. Qed.
Print Assumptions C77_only.
Example C77_met : exists f', friendly rival /\ only_dirs bare /\ bare [lit "w"] = Some Dir /\ force_directory [(rival, true)] bare [lit "w"] (lit "a/b/../c/") = (true, f') /\
  is_dir f' [lit "w"] (lit "a/b") /\ is_dir f' [lit "w"] (lit "/w/a/c") /\ bare [lit "c"; lit "a"; lit "w"] = None.
Proof.
  eexists. split.
  - intros f. split; [intros p k E; unfold rival; destruct (same_place p _); rewrite E; reflexivity|]. intros O p. unfold rival. specialize (O p). destruct (same_place p _); [destruct (f p) as [[|]|]; congruence|exact O].
  - split; [intros p; unfold bare; destruct (same_place p []); [discriminate|]; destruct (same_place p _); discriminate|]. split; [vm_compute; reflexivity|]. split; [vm_compute; reflexivity|].
    split; [exists [lit "b"; lit "a"; lit "w"]; split; vm_compute; reflexivity|]. split; [exists [lit "c"; lit "a"; lit "w"]; split; vm_compute; reflexivity|]. vm_compute. reflexivity.
Qed.
(** Without the slash at the end the directory itself is not made. *)
Theorem C77_slash_refuted : exists f', force_directory [] bare [lit "w"] (lit "a/b") = (true, f') /\ is_dir f' [lit "w"] (lit "a") /\ forall k, ~ exists_at f' [lit "w"] (lit "a/b") k.
Proof.
  eexists. split; [vm_compute; reflexivity|]. split; [exists [lit "a"; lit "w"]; split; vm_compute; reflexivity|].
  intros k (p & A & B). vm_compute in A. injection A as <-. vm_compute in B. discriminate.
Qed.
Print Assumptions C77_slash_refuted.
(** A file with the name of the directory is taken for it. *)
Theorem C77_file_refuted : exists f', force_directory [] with_file [lit "w"] (lit "a/") = (true, f') /\ exists_at f' [lit "w"] (lit "a") File.
Proof. eexists. split; [vm_compute; reflexivity|]. exists [lit "a"; lit "w"]. split; vm_compute; reflexivity. Qed.
Print Assumptions C77_file_refuted.

(** Scanning a directory: the callback gets the entries except the directory itself and its parent, each once, in their order, up to the first one
    for which it says to stop.  Unless readdir fails and if the callback leaves no error, the directory is closed and the result is that of closing it. *)
Theorem C78_scan_partial : forall U (on_file : list Z -> Z -> U -> bool * Z * U) l closes u r calls open u', scan_dir on_file (Some l) closes u = (r, calls, open, u') ->
  exists rest b, listed l = calls ++ rest /\ served on_file calls u u' b /\ (b = true -> rest = []) /\
    (polite on_file -> (b = false \/ ~ broken l) -> r = closes /\ open = false) /\ (b = true -> broken l -> r = false).
Proof. exact @scan_dir_scans. Qed.
Print Assumptions C78_scan_partial.
Example C78_met : polite two /\ ~ broken [Entry (lit ".") 4; Entry (lit ".x") 8; Entry (lit "..") 4; Entry (lit "y") 8; Entry (lit "z") 8] /\
  scan_dir two (Some [Entry (lit ".") 4; Entry (lit ".x") 8; Entry (lit "..") 4; Entry (lit "y") 8; Entry (lit "z") 8]) true 0 = (true, [(lit ".x", 8); (lit "y", 8)], false, 2).
Proof. split; [intros n t u e u' E; injection E; auto|]. split; [intros X; cbn in X; repeat (destruct X as [X|X]; [discriminate|]); exact X|]. vm_compute. reflexivity. Qed.
(** The callback stops the scan and errno is set: that counts as an error of the scan and the directory stays open. *)
Theorem C78_errno_refuted : scan_dir rude (Some [Entry (lit "x") 8]) true 0 = (false, [(lit "x", 8)], true, 1).
Proof. vm_compute. reflexivity. Qed.
Print Assumptions C78_errno_refuted.
(** After an error of readdir the directory stays open. *)
Theorem C78_open_refuted : forall U (on_file : list Z -> Z -> U -> bool * Z * U) u, scan_dir on_file (Some [ReadError]) true u = (false, [], true, u).
Proof. reflexivity. Qed.
Print Assumptions C78_open_refuted.

(** Reading a whole file: whatever happens to the file between asking for its size and reading it, memory that is returned has the first *size bytes
    of the file and a NUL behind them. *)
Theorem C79_partial : forall size c x d n, possible c size x -> ReadFile size c x = (Some d, n) -> n = size /\ 0 < n <= zlen c /\ d = ztake n c ++ [0].
Proof. exact ReadFile_reads. Qed.
Print Assumptions C79_partial.
(** A file that is not empty, does not change and is read at once is returned whole. *)
Theorem C79_whole_partial : forall c, 0 < zlen c <= 2147479552 -> ReadFile (zlen c) c (Reads (zlen c)) = (Some (c ++ [0]), zlen c).
Proof. exact ReadFile_whole. Qed.
Print Assumptions C79_whole_partial.
(** No memory: the size is not known or not positive, or the file could not be read up to it. *)
Theorem C79_null : forall size c x n, possible c size x -> ReadFile size c x = (None, n) -> size <= 0 \/ x = NoRead \/ exists r, x = Reads r /\ r < size.
Proof. exact ReadFile_null. Qed.
Print Assumptions C79_null.
(** Reading into a buffer: the first bytes are those of the file, as many as the result says, the others are 0. *)
Theorem C79_buffer_partial : forall size c x buf r, 0 <= size -> possible c size x -> file_get_contents size c x = (buf, r) ->
  zlen buf = size /\ (x = NoRead -> r = -1 /\ buf = zrepeat 0 size) /\
  (x <> NoRead -> 0 <= r <= zlen c /\ ztake r buf = ztake r c /\ zskip r buf = zrepeat 0 (size - r)).
Proof. exact file_get_contents_gets. Qed.
Print Assumptions C79_buffer_partial.
Example C79_met : possible (lit "abcd") 3 (Reads 3) /\ ReadFile 3 (lit "abcd") (Reads 3) = (Some (lit "abc" ++ [0]), 3) /\ possible (lit "abcd") 6 (Reads 2) /\
  file_get_contents 6 (lit "abcd") (Reads 2) = (lit "ab" ++ [0; 0; 0; 0], 2).
Proof. repeat split; vm_compute; try reflexivity; discriminate. Qed.
(** An empty file gives no memory; a file that could not be read gives a size but no memory. *)
Theorem C79_empty_refuted : ReadFile 0 [] (Reads 0) = (None, 0).
Proof. reflexivity. Qed.
Print Assumptions C79_empty_refuted.
Theorem C79_size_refuted : forall c, ReadFile 5 c NoRead = (None, 5).
Proof. reflexivity. Qed.
Print Assumptions C79_size_refuted.
(** A file as long as the buffer leaves no NUL, and a longer one is cut with the same result. *)
Theorem C79_terminator_refuted : file_get_contents 4 (lit "abcd") (Reads 4) = (lit "abcd", 4) /\ file_get_contents 4 (lit "abcde") (Reads 4) = (lit "abcd", 4).
Proof. split; vm_compute; reflexivity. Qed.
Print Assumptions C79_terminator_refuted.
