(** Theorems about the space and the lists of an XBW pool (C40, C41, C42, C43, C51).

    [built kind size m F]: some history of calls on a new pool led to the memory [m]; [F] says which elements it has, in
    which lists (BwSpec). *)
From Verif Require Import Base Types Sort Xb XbWrite Bw BwSpec BwHist BwSym BwFile BwTop BwExamples.

(** ** C40: blocks are inside the pool, behind its header, aligned, and do not overlap. *)
Theorem C40_blocks : forall m B, allocs m B ->
  (forall x n, In (x, n) B -> HEADER <= x /\ 0 < n /\ x + n <= zlen m /\ x mod 4 = 0) /\ ForallOrdPairs apart B.
Proof. exact blocks_inside. Qed.
Print Assumptions C40_blocks.
(** A new block is zero and handing it out changes no other block. *)
Theorem C40_zero : forall m B n x m', allocs m B -> allocate m n = Ok (Some x, m') ->
  rd m' x n = Ok (zrepeat 0 n) /\ forall y k, In (y, k) B -> rd m' y k = rd m y k.
Proof. exact block_fresh. Qed.
Print Assumptions C40_zero.
Theorem C40_zero8 : forall m B n x m', allocs m B -> allocate8 m n = Ok (Some x, m') ->
  x mod 8 = 0 /\ rd m' x n = Ok (zrepeat 0 n) /\ forall y k, In (y, k) B -> rd m' y k = rd m y k.
Proof. exact block8_fresh. Qed.
Print Assumptions C40_zero8.
Theorem C40_element : forall m B disk ty n k x m', allocs m B -> new_element disk m ty n = Ok (Some x, m') -> XBT_Size2 ty n = Ok k ->
  (XBT_Align ty = 8 -> x mod 8 = 0) /\ (XBT_IS_VARSIZE ty = false -> rd m' (x + 24) k = Ok (zrepeat 0 k)) /\ forall y k, In (y, k) B -> rd m' y k = rd m y k.
Proof. exact element_fresh. Qed.
Print Assumptions C40_element.
Example C40_met : exists m1 m2 m3, allocate s0 5 = Ok (Some 92, m1) /\ allocate8 m1 9 = Ok (Some 104, m2) /\ new_element true m2 XBT_INT64 8 = Ok (Some 120, m3) /\
  allocs m3 [(120, 32); (104, 9); (92, 5)] /\ pool s0 92 /\ pool e0 92.
Proof.
  exists (mem (allocate s0 5)), (mem (allocate8 (mem (allocate s0 5)) 9)), (mem (new_element true (mem (allocate8 (mem (allocate s0 5)) 9)) XBT_INT64 8)).
  assert (A : allocate s0 5 = Ok (Some 92, mem (allocate s0 5))) by (vm_compute; reflexivity).
  assert (B : allocate8 (mem (allocate s0 5)) 9 = Ok (Some 104, mem (allocate8 (mem (allocate s0 5)) 9))) by (vm_compute; reflexivity).
  assert (C : new_element true (mem (allocate8 (mem (allocate s0 5)) 9)) XBT_INT64 8 = Ok (Some 120, mem (new_element true (mem (allocate8 (mem (allocate s0 5)) 9)) XBT_INT64 8))) by (vm_compute; reflexivity).
  split; [exact A|]. split; [exact B|]. split; [exact C|]. split; [|split; [exact s0_pool|exact e0_pool]].
  refine (allocs_element _ _ true XBT_INT64 8 8 120 _ _ C eq_refl).
  refine (allocs_block8 _ _ _ _ _ _ B). exact (allocs_block _ _ _ _ _ (allocs_start s0 92 s0_pool) A).
Qed.

(** ** C41: iterating the children shows the list that was built, in both directions, and ends. *)
Theorem C41_iterate : forall kind size m F p L n, built kind size m F -> In p (members F) -> owned F p true L -> (List.length L < n)%nat ->
  forward n m p 0 = rret L /\ backward n m p 0 = rret (rev L).
Proof. exact list_iterates. Qed.
Print Assumptions C41_iterate.
(** Adding and joining always succeed, and store nothing but links. *)
Theorem C41_add : forall kind size m F p t F', built kind size m F -> In p (members F) -> adds kind p t F F' ->
  exists tr, add m p t = Ok (true, tr) /\ built kind size (final m tr) F' /\ only_links (members F) m (final m tr).
Proof. exact add_works. Qed.
Print Assumptions C41_add.
Theorem C41_join : forall kind size m F a b F', built kind size m F -> joins a b F F' ->
  exists tr, join m a b = Ok (true, tr) /\ built kind size (final m tr) F' /\ only_links (members F) m (final m tr).
Proof. exact join_works. Qed.
Print Assumptions C41_join.
Example C41_met : built kind0 size0 e9 F9 /\ In 92 (members F9) /\ owned F9 92 true [116; 176; 144] /\ forward 4 e9 92 0 = rret [116; 176; 144] /\ backward 4 e9 92 0 = rret [144; 176; 116].
Proof. split; [exact e9_built|]. split; [cbn; tauto|]. split; [left; left; reflexivity|]. split; vm_compute; reflexivity. Qed.
Example C41_add_met : built kind0 size0 e6 F6 /\ In 92 (members F6) /\ adds kind0 92 144 F6 F7.
Proof. split; [exact e6_built|]. split; [cbn; tauto|exact F7_adds]. Qed.
Example C41_join_met : built kind0 size0 e8 F8 /\ joins 144 176 F8 F9.
Proof. split; [exact e8_built|exact F9_joins]. Qed.

(** ** C42: after every store of add and join, and for every interleaving of the reads of a reader with these stores, the children of
    every element are those from before or those from after. *)
Theorem C42_add : forall kind size m F q t F' p L L' n tr ok, built kind size m F -> In q (members F) -> adds kind q t F F' -> add m q t = Ok (ok, tr) ->
  In p (members F) -> owned F p true L -> owned F' p true L' -> (List.length L < n)%nat -> (List.length L' < n)%nat ->
  (forall mi, In mi (m :: tr) -> forward n mi p 0 = rret L \/ forward n mi p 0 = rret L') /\
  (forall s, meets m tr s -> forward_c n s 0 p 0 = rret L \/ forward_c n s 0 p 0 = rret L').
Proof. exact add_atomic. Qed.
Print Assumptions C42_add.
Theorem C42_join : forall kind size m F a b F' p L L' n tr ok, built kind size m F -> joins a b F F' -> join m a b = Ok (ok, tr) ->
  In p (members F) -> owned F p true L -> owned F' p true L' -> (List.length L < n)%nat -> (List.length L' < n)%nat ->
  (forall mi, In mi (m :: tr) -> forward n mi p 0 = rret L \/ forward n mi p 0 = rret L') /\
  (forall s, meets m tr s -> forward_c n s 0 p 0 = rret L \/ forward_c n s 0 p 0 = rret L').
Proof. exact join_atomic. Qed.
Print Assumptions C42_join.
(** A reader that meets the last store of the join behind its ninth read (it is at 116 then). *)
Example C42_met : built kind0 size0 e8 F8 /\ joins 144 176 F8 F9 /\ owned F8 92 true [116; 144] /\ owned F9 92 true [116; 176; 144] /\
  meets e8 (stores (join e8 144 176)) (fun i => nth (if Nat.leb i 5 then 3 else 4)%nat (e8 :: stores (join e8 144 176)) []) /\
  forward_c 4 (fun i => nth (if Nat.leb i 5 then 3 else 4)%nat (e8 :: stores (join e8 144 176)) []) 0 92 0 = rret [116; 176; 144] /\
  forward_c 4 (fun i => nth (if Nat.leb i 8 then 3 else 4)%nat (e8 :: stores (join e8 144 176)) []) 0 92 0 = rret [116; 144].
Proof.
  split; [exact e8_built|]. split; [exact F9_joins|]. split; [left; right; left; reflexivity|]. split; [left; left; reflexivity|].
  split; [|split; vm_compute; reflexivity]. exists (fun i => if Nat.leb i 5 then 3 else 4)%nat. split.
  - intros i j I. destruct (Nat.leb_spec i 5), (Nat.leb_spec j 5); lia.
  - intro i. destruct (Nat.leb i 5); vm_compute; reflexivity.
Qed.

(** ** C43: remove and replace change the list of the one element and nothing but links and flags, for lists in which replace does
    not meet an only child. *)
Theorem C43_remove : forall kind size m F p t F', built kind size m F -> removes kind p t F F' ->
  exists tr, remove m p t = Ok (true, tr) /\ built kind size (final m tr) F' /\ only_links (members F) m (final m tr).
Proof. exact remove_works. Qed.
Print Assumptions C43_remove.
Theorem C43_replace_partial : forall kind size m F p old new child F', built kind size m F -> replaces p old new child F F' -> ~ In (Some (p, child), [old]) F ->
  exists tr, replace m p old new = Ok (true, tr) /\ built kind size (final m tr) F' /\ only_links (members F) m (final m tr).
Proof. exact replace_works. Qed.
Print Assumptions C43_replace_partial.
Example C43_met : built kind0 size0 e9 F9 /\ removes kind0 92 176 F9 F10 /\ replaces 92 144 176 true F10 F11 /\ ~ In (Some (92, true), [144]) F10 /\
  forward 4 (after e9 (remove e9 92 176)) 92 0 = rret [116; 144] /\ forward 4 (after (after e9 (remove e9 92 176)) (replace (after e9 (remove e9 92 176)) 92 144 176)) 92 0 = rret [116; 176].
Proof. split; [exact e9_built|]. split; [exact F10_removes|]. split; [exact F11_replaces|]. split; [cbn; intuition congruence|]. split; vm_compute; reflexivity. Qed.
(** Replacing an only child leaves a list whose iteration never ends. *)
Theorem C43_only_child_refuted : exists m F, built kind0 size0 m F /\ owned F 92 true [116] /\ replaces 92 116 144 true F [(Some (92, true), [144]); (None, [116]); (None, [208]); (None, [176]); (None, [92])] /\
  exists tr, replace m 92 116 144 = Ok (true, tr) /\ forall n, forward n (final m tr) 92 0 = None.
Proof.
  exists e6, F6. split; [exact e6_built|]. split; [left; left; reflexivity|]. split.
  - apply (replaces_at 92 116 144 true F6 [] [] [(None, [208]); (None, [176]); (None, [92])]). apply perm_skip. apply (perm_pick (None, [144]) [(None, [208]); (None, [176])]).
  - exists (stores (replace e6 92 116 144)). split; [vm_cast_no_check (eq_refl (Ok (true, stores (replace e6 92 116 144))))|]. intros n. assert (E : final e6 (stores (replace e6 92 116 144)) = only) by (vm_cast_no_check (eq_refl only)). rewrite E. apply endless.
Qed.
Print Assumptions C43_only_child_refuted.

(** ** C51: after makeSpace(n) the request for n bytes succeeds, the file stays within the mapping and nothing moves; with alignment
    to eight only if n is a multiple of eight. *)
Theorem C51_space_partial : forall m B disk n m', allocs m B -> makeSpace disk m n = Ok (true, m') -> 0 < n ->
  (exists x m'', allocate m' n = Ok (Some x, m'')) /\ (n mod 8 = 0 -> exists x m'', allocate8 m' n = Ok (Some x, m'')) /\
  (exists s M, p_file_size m' = Ok s /\ s = zlen m' /\ p_mmap_size m' = Ok M /\ s <= M) /\ forall y k, In (y, k) B -> rd m' y k = rd m y k.
Proof. exact space_allocate. Qed.
Print Assumptions C51_space_partial.
Example C51_met : allocs near_end [(92, 3976)] /\ exists m', makeSpace true near_end 32 = Ok (true, m') /\ zlen m' = 8192.
Proof.
  split.
  - apply (allocs_block s0 [] 3976 92 near_end); [apply (allocs_start s0 92 s0_pool)|]. vm_compute. reflexivity.
  - eexists. split; vm_compute; reflexivity.
Qed.
(** 28 bytes before the end of the file makeSpace has nothing to do for 28 bytes, and 28 bytes aligned to eight do not fit. *)
Theorem C51_align8_refuted : allocs near_end [(92, 3976)] /\ makeSpace true near_end 28 = Ok (true, near_end) /\ exists m', allocate8 near_end 28 = Ok (None, m').
Proof.
  split; [apply C51_met|]. split; [vm_compute; reflexivity|]. eexists. vm_compute. reflexivity.
Qed.
Print Assumptions C51_align8_refuted.
