(** A pool with a child that is a SHA-1, as example. *)
From Verif Require Import Base Types Sort Xb XbWrite Bw BwSpec BwHist BwSym BwFile BwReg BwFileSpec BwExamples BwFileExamples BwNamesSpec BwNamesTop BwLifeSpec BwSet BwSetExamples BwSetSha.

Definition d2 := Eval vm_compute in rmem (registerTag 20 a1 (lit "sha") XBT_SHA1).
Definition d3 := Eval vm_compute in rmem (makeTable 20 d2 TAGS).
Definition tags2 : names := [(lit "root", XBT_NULL); (lit "sha", XBT_SHA1)].
Definition d4 := Eval vm_compute in mem (pool_tag true d3 0).
Definition digest : list Z := [1;2;3;4;5;6;7;8;9;10;11;12;13;14;15;16;17;18;19;20].
Definition e4 := Eval vm_compute in mem (pool_tagSHA1 true d4 1 digest).
Definition d5 := Eval vm_compute in rmem (tagSetSHA1 9 true d4 116 1 (Some digest)).
Definition kd4 := set (fun _ : Z => false) 116 true.
Definition zd4 := set (fun _ : Z => 0) 116 24.
Definition kd5 := set kd4 140 true.
Definition zd5 := set zd4 140 48.
Definition Fd5 : forest := [(Some (116, true), [140]); (None, [116])].

Lemma d3_life : life (fun _ => false) (fun _ => 0) d3 tags2 [] [].
Proof.
  apply (life_table _ _ d2 _ _ _ TAGS 20 true); [|auto|vm_compute; reflexivity].
  apply (life_tag _ _ a1 (firstn 1 tags2) [] [] 20 (lit "sha") XBT_SHA1 1); [|split; [repeat constructor; vm_compute; split; discriminate|discriminate]|small|right; small|small].
  apply (life_tag _ _ s0 [] [] [] 20 (lit "root") XBT_NULL 0); [|split; [repeat constructor; vm_compute; split; discriminate|discriminate]|small|right; small|small].
  apply (life_start _ _ s0 92 s0_pool); [vm_compute; reflexivity|]. intros t [-> | ->]; vm_compute; auto.
Qed.
Lemma d4_life : life kd4 zd4 d4 tags2 [] [(None, [116])].
Proof. apply (life_new _ _ d3 tags2 [] [] true 0 XBT_NULL 0 0 ELEMENT 116 d4 d3_life); small. Qed.
Lemma d5_life : life kd5 zd5 d5 tags2 [] Fd5.
Proof.
  apply (child_life kd4 zd4 d4 tags2 [] _ _ 116 1 true XBT_SHA1 0 24 digest 140 e4 (Some 140) d5 d4_life); try small; [left; reflexivity|].
  apply (adds_first kd5 116 140 [(None, [140]); (None, [116])] [] [] [(None, [116])]); [reflexivity|]. intros L [E|[]]. discriminate.
Qed.

(** The same with an unsigned tag. *)
Definition u2 := Eval vm_compute in rmem (registerTag 20 a1 (lit "big") XBT_UINT64).
Definition u3 := Eval vm_compute in rmem (makeTable 20 u2 TAGS).
Definition tagsu : names := [(lit "root", XBT_NULL); (lit "big", XBT_UINT64)].
Definition u4 := Eval vm_compute in mem (pool_tag true u3 0).
Lemma u4_life : life kd4 zd4 u4 tagsu [] [(None, [116])].
Proof.
  assert (L : life (fun _ => false) (fun _ => 0) u3 tagsu [] []).
  { apply (life_table _ _ u2 _ _ _ TAGS 20 true); [|auto|vm_compute; reflexivity].
    apply (life_tag _ _ a1 (firstn 1 tagsu) [] [] 20 (lit "big") XBT_UINT64 1); [|split; [repeat constructor; vm_compute; split; discriminate|discriminate]|small|right; small|small].
    apply (life_tag _ _ s0 [] [] [] 20 (lit "root") XBT_NULL 0); [|split; [repeat constructor; vm_compute; split; discriminate|discriminate]|small|right; small|small].
    apply (life_start _ _ s0 92 s0_pool); [vm_compute; reflexivity|]. intros t [-> | ->]; vm_compute; auto. }
  apply (life_new _ _ u3 tagsu [] [] true 0 XBT_NULL 0 0 ELEMENT 116 u4 L); small.
Qed.
Definition u5 := Eval vm_compute in rmem (tagSetInt64 9 true u4 116 1 7).
