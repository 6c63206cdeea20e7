(** A pool with a root and children as example. *)
From Verif Require Import Base Types Sort Xb XbWrite Bw BwSpec BwHist BwSym BwFile BwReg BwFileSpec BwExamples BwFileExamples BwNamesSpec BwNamesTop BwLifeSpec BwSet.

Definition a1 := Eval vm_compute in rmem (registerTag 20 s0 (lit "root") XBT_NULL).
Definition a2 := Eval vm_compute in rmem (registerTag 20 a1 (lit "int") XBT_INT32).
Definition a3 := Eval vm_compute in rmem (registerTag 20 a2 (lit "uint") XBT_UINT32).
Definition a4 := Eval vm_compute in rmem (registerTag 20 a3 (lit "str") XBT_STRING).
Definition a5 := Eval vm_compute in rmem (registerTag 20 a4 (lit "long") XBT_INT64).
Definition a6 := Eval vm_compute in rmem (registerTag 20 a5 (lit "time") XBT_UNIX_TIME).
Definition a7 := Eval vm_compute in rmem (makeTable 20 a6 TAGS).
Definition tags6 : names := [(lit "root", XBT_NULL); (lit "int", XBT_INT32); (lit "uint", XBT_UINT32); (lit "str", XBT_STRING); (lit "long", XBT_INT64); (lit "time", XBT_UNIX_TIME)].
Definition b1 := Eval vm_compute in mem (pool_tag true a7 0).
Definition c2 := Eval vm_compute in mem (pool_tagInt32 true b1 2 6).
Definition b2 := Eval vm_compute in rmem (tagSetInt32 20 true b1 164 2 6).
Definition c3 := Eval vm_compute in mem (pool_tagTime true b2 5 9).
Definition b3 := Eval vm_compute in rmem (tagSetTime 20 true b2 164 5 9).
Definition c4 := Eval vm_compute in mem (pool_tagString true b3 3 (lit "ab")).
Definition b4 := Eval vm_compute in rmem (tagSetString 20 true b3 164 3 (lit "ab")).
Definition k1 := set (fun _ : Z => false) 164 true.
Definition z1 := set (fun _ : Z => 0) 164 24.
Definition k2 := set k1 188 true.
Definition z2 := set z1 188 28.
Definition k3 := set k2 216 true.
Definition z3 := set z2 216 28.
Definition k4 := set k3 244 true.
Definition z4 := set z3 244 28.
Definition F2 : forest := [(Some (164, true), [188]); (None, [164])].
Definition F4 : forest := [(Some (164, true), [188; 216; 244]); (None, [164])].
Ltac small := first [lia | vm_compute; (reflexivity || (split; (reflexivity || discriminate)) || discriminate)].
Ltac tagged m n ty id := apply (life_tag _ _ m (firstn (Z.to_nat id) tags6) [] [] 20 n ty id); [|split; [repeat constructor; vm_compute; split; discriminate|discriminate]|small|right; small|small].
Lemma a7_life : life (fun _ => false) (fun _ => 0) a7 tags6 [] [].
Proof.
  apply (life_table _ _ a6 _ _ _ TAGS 20 true); [|auto|vm_compute; reflexivity].
  tagged a5 (lit "time") XBT_UNIX_TIME 5. tagged a4 (lit "long") XBT_INT64 4. tagged a3 (lit "str") XBT_STRING 3. tagged a2 (lit "uint") XBT_UINT32 2. tagged a1 (lit "int") XBT_INT32 1. tagged s0 (lit "root") XBT_NULL 0.
  apply (life_start _ _ s0 92 s0_pool); [vm_compute; reflexivity|]. intros t [-> | ->]; vm_compute; auto.
Qed.
Lemma b1_life : life k1 z1 b1 tags6 [] [(None, [164])].
Proof. apply (life_new _ _ a7 tags6 [] [] true 0 XBT_NULL 0 0 ELEMENT 164 b1 a7_life); small. Qed.
Lemma b2_life : life k2 z2 b2 tags6 [] F2.
Proof.
  apply (child_life k1 z1 b1 tags6 [] _ _ 164 2 true XBT_UINT32 0 4 (le 4 6) 188 c2 (Some 188) b2 b1_life); try small; [left; reflexivity|].
  apply (adds_first k2 164 188 [(None, [188]); (None, [164])] [] [] [(None, [164])]); [reflexivity|]. intros L [E|[]]. discriminate.
Qed.
Lemma b3_life : life k3 z3 b3 tags6 [] [(Some (164, true), [188; 216]); (None, [164])].
Proof.
  apply (child_life k2 z2 b2 tags6 [] _ _ 164 5 true XBT_UNIX_TIME 0 4 (le 4 9) 216 c3 (Some 216) b3 b2_life); try small; [right; left; reflexivity|].
  apply (adds_last k3 164 216 [(None, [216]); (Some (164, true), [188]); (None, [164])] [] [] [188] [(None, [164])]). reflexivity.
Qed.
Lemma b4_life : life k4 z4 b4 tags6 [] F4.
Proof.
  apply (child_life k3 z3 b3 tags6 [] _ _ 164 3 true XBT_STRING 3 4 (lit "ab" ++ [0]) 244 c4 (Some 244) b4 b3_life); try small; [right; right; left; reflexivity|].
  apply (adds_last k4 164 244 [(None, [244]); (Some (164, true), [188; 216]); (None, [164])] [] [] [188; 216] [(None, [164])]). reflexivity.
Qed.
