(** A pool with a root that has children, and two elements that are not in the document yet. *)
From Verif Require Import Base Types Sort Xb XbWrite Bw BwSpec BwHist BwSym BwFile BwReg BwFileSpec BwExamples BwFileExamples BwNamesSpec BwNamesTop BwLifeSpec BwSet BwSetExamples.

Definition x5 := Eval vm_compute in mem (pool_tag true b4 0).
Definition x6 := Eval vm_compute in mem (pool_tag true x5 0).
Definition kx5 := set k4 272 true.
Definition zx5 := set z4 272 24.
Definition kx := set kx5 296 true.
Definition zx := set zx5 296 24.
Definition Fx : forest := [(None, [296]); (None, [272]); (Some (164, true), [188; 216; 244]); (None, [164])].
Lemma x5_life : life kx5 zx5 x5 tags6 [] [(None, [272]); (Some (164, true), [188; 216; 244]); (None, [164])].
Proof. apply (life_new _ _ b4 tags6 [] _ true 0 XBT_NULL 0 0 ELEMENT 272 x5 b4_life); small. Qed.
Lemma x6_life : life kx zx x6 tags6 [] Fx.
Proof. apply (life_new _ _ x5 tags6 [] _ true 0 XBT_NULL 0 0 ELEMENT 296 x6 x5_life); small. Qed.
Definition Fy : forest := [(Some (164, true), [188; 216; 244; 272]); (None, [296]); (None, [164])].
Lemma Fx_adds : adds kx 164 272 Fx Fy.
Proof.
  apply (adds_last kx 164 272 Fx [] [] [188; 216; 244] [(None, [296]); (None, [164])]).
  change Fx with ((None, [296]) :: [(None, [272]); (Some (164, true), [188; 216; 244])] ++ [(None, [164])]). change (kx 272) with true. apply (Permutation_middle [(None, [272]); (Some (164, true), [188; 216; 244])] [(None, [164])] (None, [296])).
Qed.
Lemma Fx_joins : joins 216 272 Fx [(Some (164, true), [188; 272; 216; 244]); (None, [296]); (None, [164])].
Proof.
  apply (joins_inner 216 272 Fx (Some (164, true)) [188] [244] [] [] [(None, [296]); (None, [164])]); [discriminate|]. cbn [app].
  eapply Permutation_trans; [|apply perm_swap]. apply (Permutation_middle [(None, [272]); (Some (164, true), [188; 216; 244])] [(None, [164])] (None, [296])).
Qed.
Lemma Fx_owner : Permutation Fx ((Some (164, true), [188; 216; 244]) :: [(None, [296]); (None, [272])] ++ [(None, [164])]).
Proof. apply Permutation_sym. apply (Permutation_middle [(None, [296]); (None, [272])] [(None, [164])] (Some (164, true), [188; 216; 244])). Qed.
Lemma Fx_two : Permutation Fx ((Some (164, true), [188; 216; 244]) :: (None, [272]) :: (None, [296]) :: [(None, [164])]).
Proof. eapply Permutation_trans; [exact Fx_owner|]. apply perm_skip. apply perm_swap. Qed.
Lemma Fx_removes : removes kx 164 216 Fx [(None, [216]); (Some (164, true), [188; 244]); (None, [296]); (None, [272]); (None, [164])].
Proof. apply (removes_one kx 164 216 Fx [188] [244]); [discriminate|exact Fx_owner]. Qed.
Lemma Fx_replaces : replaces 164 216 272 true Fx [(Some (164, true), [188; 272; 244]); (None, [216]); (None, [296]); (None, [164])].
Proof. apply (replaces_at 164 216 272 true Fx [188] [244]). exact Fx_two. Qed.
