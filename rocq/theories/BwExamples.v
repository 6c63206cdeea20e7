(** Histories in a new pool as examples. *)
From Verif Require Import Base Types Sort Xb XbWrite Bw BwSpec BwHist BwSym BwFile.

Definition mem (r : outcome (option Z * list Z)) : list Z := match r with Ok (_, m) => m | _ => [] end.
Definition after m (r : effect) : list Z := match r with Ok (_, tr) => final m tr | _ => [] end.
Definition stores (r : effect) : list (list Z) := match r with Ok (_, tr) => tr | _ => [] end.

(** The file a new plugin makes *)
Definition e0 : list Z := le 4 92 ++ TYPE_INFO ++ zrepeat 0 7 ++ le 4 INITIAL ++ le 4 131072 ++ zrepeat 0 12 ++ le 4 92 ++ le 4 INITIAL ++
  le 4 (-1) ++ zrepeat 0 12 ++ le 4 (-1) ++ zrepeat 0 12 ++ zrepeat 0 16292.
Lemma e0_new : Initialize 1 true false 131072 [] = Some (Ok (true, e0)).
Proof. vm_cast_no_check (eq_refl (Some (Ok (true, e0)))). Qed.
Lemma e0_pool : pool e0 92.
Proof. unfold pool. split; [vm_compute; reflexivity|]. split; [vm_compute; reflexivity|]. split; [vm_compute; reflexivity|]. split; [exists 131072; split; vm_compute; [reflexivity|discriminate]|]. vm_compute. repeat split; discriminate. Qed.
(** The same pool in a file of 4096 bytes, for which the checker needs less time *)
Definition s0 : list Z := le 4 92 ++ TYPE_INFO ++ zrepeat 0 7 ++ le 4 4096 ++ le 4 131072 ++ zrepeat 0 12 ++ le 4 92 ++ le 4 4096 ++
  le 4 (-1) ++ zrepeat 0 12 ++ le 4 (-1) ++ zrepeat 0 12 ++ zrepeat 0 4004.
Lemma s0_pool : pool s0 92.
Proof. unfold pool. split; [vm_compute; reflexivity|]. split; [vm_compute; reflexivity|]. split; [vm_compute; reflexivity|]. split; [exists 131072; split; vm_compute; [reflexivity|discriminate]|]. vm_compute. repeat split; discriminate. Qed.
(** A root, three elements and an attribute *)
Definition e1 := Eval vm_compute in mem (fresh true s0 7 XBT_NULL 0 ELEMENT).
Definition e2 := Eval vm_compute in mem (fresh true e1 1 XBT_INT32 0 ELEMENT).
Definition e3 := Eval vm_compute in mem (fresh true e2 2 XBT_STRING 6 ELEMENT).
Definition e4 := Eval vm_compute in mem (fresh true e3 3 XBT_INT64 8 ELEMENT).
Definition e5 := Eval vm_compute in mem (fresh true e4 4 XBT_INT32 0 ATTR).
Definition kind0 x := negb (x =? 208).
Definition size0 x := if x =? 92 then 24 else if x =? 144 then 31 else if x =? 176 then 32 else 28.
Lemma e1_new : fresh true s0 7 XBT_NULL 0 ELEMENT = Ok (Some 92, e1).
Proof. vm_cast_no_check (eq_refl (Ok (Some 92, e1))). Qed.
Lemma e2_new : fresh true e1 1 XBT_INT32 0 ELEMENT = Ok (Some 116, e2).
Proof. vm_cast_no_check (eq_refl (Ok (Some 116, e2))). Qed.
Lemma e3_new : fresh true e2 2 XBT_STRING 6 ELEMENT = Ok (Some 144, e3).
Proof. vm_cast_no_check (eq_refl (Ok (Some 144, e3))). Qed.
Lemma e4_new : fresh true e3 3 XBT_INT64 8 ELEMENT = Ok (Some 176, e4).
Proof. vm_cast_no_check (eq_refl (Ok (Some 176, e4))). Qed.
Lemma e5_new : fresh true e4 4 XBT_INT32 0 ATTR = Ok (Some 208, e5).
Proof. vm_cast_no_check (eq_refl (Ok (Some 208, e5))). Qed.
Definition F5 : forest := [(None, [208]); (None, [176]); (None, [144]); (None, [116]); (None, [92])].
Lemma e5_built : built kind0 size0 e5 F5.
Proof.
  eapply built_new; [| |exact e5_new| |]; [|unfold ATTR; lia|reflexivity|reflexivity].
  eapply built_new; [| |exact e4_new| |]; [|unfold ELEMENT; lia|reflexivity|reflexivity].
  eapply built_new; [| |exact e3_new| |]; [|unfold ELEMENT; lia|reflexivity|reflexivity].
  eapply built_new; [| |exact e2_new| |]; [|unfold ELEMENT; lia|reflexivity|reflexivity].
  eapply built_new; [| |exact e1_new| |]; [|unfold ELEMENT; lia|reflexivity|reflexivity].
  eapply built_start. exact s0_pool.
Qed.
(** Two children and the attribute are added; the third element is put before the second child. *)
Definition e6 := Eval vm_compute in after e5 (add e5 92 116).
Definition e7 := Eval vm_compute in after e6 (add e6 92 144).
Definition e8 := Eval vm_compute in after e7 (add e7 92 208).
Definition e9 := Eval vm_compute in after e8 (join e8 144 176).
Definition F6 : forest := [(Some (92, true), [116]); (None, [208]); (None, [176]); (None, [144]); (None, [92])].
Definition F7 : forest := [(Some (92, true), [116; 144]); (None, [208]); (None, [176]); (None, [92])].
Definition F8 : forest := [(Some (92, false), [208]); (Some (92, true), [116; 144]); (None, [176]); (None, [92])].
Definition F9 : forest := [(Some (92, true), [116; 176; 144]); (Some (92, false), [208]); (None, [92])].
Lemma perm_pick {A} (x : A) l1 l2 : Permutation (l1 ++ x :: l2) (x :: l1 ++ l2).
Proof. apply Permutation_sym, Permutation_middle. Qed.
Lemma F6_adds : adds kind0 92 116 F5 F6.
Proof. apply (adds_first kind0 92 116 F5 [] []); [apply (perm_pick _ [(None, [208]); (None, [176]); (None, [144])])|]. cbn. intuition congruence. Qed.
Lemma F7_adds : adds kind0 92 144 F6 F7.
Proof.
  apply (adds_last kind0 92 144 F6 [] [] [116] [(None, [208]); (None, [176]); (None, [92])]).
  apply (perm_pick (None, [144]) [(Some (92, true), [116]); (None, [208]); (None, [176])]).
Qed.
Lemma F8_adds : adds kind0 92 208 F7 F8.
Proof. apply (adds_first kind0 92 208 F7 [] []); [apply perm_swap|]. change (kind0 208) with false. cbn. intuition congruence. Qed.
Lemma F9_joins : joins 144 176 F8 F9.
Proof.
  apply (joins_inner 144 176 F8 (Some (92, true)) [116] [] [] [] [(Some (92, false), [208]); (None, [92])]); [discriminate|]. unfold F8.
  eapply Permutation_trans; [apply perm_swap|]. apply perm_skip. apply perm_swap.
Qed.
Lemma e6_add : add e5 92 116 = Ok (true, stores (add e5 92 116)).
Proof. vm_cast_no_check (eq_refl (Ok (true, stores (add e5 92 116)))). Qed.
Lemma e7_add : add e6 92 144 = Ok (true, stores (add e6 92 144)).
Proof. vm_cast_no_check (eq_refl (Ok (true, stores (add e6 92 144)))). Qed.
Lemma e8_add : add e7 92 208 = Ok (true, stores (add e7 92 208)).
Proof. vm_cast_no_check (eq_refl (Ok (true, stores (add e7 92 208)))). Qed.
Lemma e9_join : join e8 144 176 = Ok (true, stores (join e8 144 176)).
Proof. vm_cast_no_check (eq_refl (Ok (true, stores (join e8 144 176)))). Qed.
Lemma after_built kind size m r ok F : r = Ok (ok, stores r) -> built kind size (final m (stores r)) F -> built kind size (after m r) F.
Proof. intros E. unfold after. rewrite E at 2. auto. Qed.
Lemma e6_built : built kind0 size0 e6 F6.
Proof. refine (after_built kind0 size0 e5 (add e5 92 116) true F6 e6_add (built_add _ _ _ _ _ _ _ _ _ e5_built _ F6_adds e6_add)). cbn. tauto. Qed.
Lemma e7_built : built kind0 size0 e7 F7.
Proof. refine (after_built kind0 size0 e6 (add e6 92 144) true F7 e7_add (built_add _ _ _ _ _ _ _ _ _ e6_built _ F7_adds e7_add)). cbn. tauto. Qed.
Lemma e8_built : built kind0 size0 e8 F8.
Proof. refine (after_built kind0 size0 e7 (add e7 92 208) true F8 e8_add (built_add _ _ _ _ _ _ _ _ _ e7_built _ F8_adds e8_add)). cbn. tauto. Qed.
Lemma e9_built : built kind0 size0 e9 F9.
Proof. exact (after_built kind0 size0 e8 (join e8 144 176) true F9 e9_join (built_join _ _ _ _ _ _ _ _ _ e8_built F9_joins e9_join)). Qed.

(** [176] is taken out, and [144] gives its place to [176]. *)
Definition F10 : forest := [(None, [176]); (Some (92, true), [116; 144]); (Some (92, false), [208]); (None, [92])].
Definition F11 : forest := [(Some (92, true), [116; 176]); (None, [144]); (Some (92, false), [208]); (None, [92])].
Lemma F10_removes : removes kind0 92 176 F9 F10.
Proof. apply (removes_one kind0 92 176 F9 [116] [144]); [discriminate|]. apply Permutation_refl. Qed.
Lemma F11_replaces : replaces 92 144 176 true F10 F11.
Proof. apply (replaces_at 92 144 176 true F10 [116] []). apply perm_swap. Qed.

(** An only child is replaced. *)
Definition only := Eval vm_compute in after e6 (replace e6 92 116 144).

(** makeSpace for 28 bytes, 28 bytes before the end of the file *)
Definition near_end := Eval vm_compute in mem (allocate s0 (4096 - 28 - 92)).
Lemma only_loop : NextChild only 92 116 = Ok (Some (116, 116)).
Proof. vm_compute. reflexivity. Qed.
Lemma only_first : NextChild only 92 0 = Ok (Some (144, 144)).
Proof. vm_compute. reflexivity. Qed.
Lemma only_second : NextChild only 92 144 = Ok (Some (116, 116)).
Proof. vm_compute. reflexivity. Qed.
Lemma endless n : forward n only 92 0 = None.
Proof.
  assert (L : forall n, forward n only 92 116 = None).
  { induction n0 as [|k IH]; [reflexivity|]. change (forward (S k) only 92 116) with (rbind (Some (NextChild only 92 116)) (fun r => match r with None => rret [] | Some (e, o) => rbind (forward k only 92 o) (fun l => rret (e :: l)) end)).
    rewrite only_loop. cbn [rbind]. rewrite IH. reflexivity. }
  destruct n as [|n]; [reflexivity|]. change (forward (S n) only 92 0) with (rbind (Some (NextChild only 92 0)) (fun r => match r with None => rret [] | Some (e, o) => rbind (forward n only 92 o) (fun l => rret (e :: l)) end)).
  rewrite only_first. cbn [rbind]. destruct n as [|n]; [reflexivity|].
  change (forward (S n) only 92 144) with (rbind (Some (NextChild only 92 144)) (fun r => match r with None => rret [] | Some (e, o) => rbind (forward n only 92 o) (fun l => rret (e :: l)) end)).
  rewrite only_second. cbn [rbind]. rewrite L. reflexivity.
Qed.
