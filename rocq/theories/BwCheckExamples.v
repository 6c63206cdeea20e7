(** Pools with unusual roots as examples. *)
From Verif Require Import Base Types Sort Xb XbWrite Bw BwSpec BwHist BwSym BwNamesSpec BwLifeSpec BwExamples BwFileExamples BwSetExamples BwAny.

(** Roots made by tagAny, which does not check the tag: a built-in one and one that is not registered *)
Definition y0 := Eval vm_compute in mem (fresh true a7 (-2) XBT_NULL 0 ELEMENT).
Definition y1 := Eval vm_compute in match setRoot y0 164 with Ok m => m | _ => [] end.
Definition z0 := Eval vm_compute in mem (fresh true a7 6 XBT_NULL 0 ELEMENT).
Definition z9 := Eval vm_compute in match setRoot z0 164 with Ok m => m | _ => [] end.
Lemma y1_life : life k1 z1 y1 tags6 [] [(None, [164])].
Proof. apply (life_root _ _ y0 _ _ _ 164 y1); [|cbn; tauto|vm_compute; reflexivity]. apply (life_new _ _ a7 tags6 [] [] true (-2) XBT_NULL 0 0 ELEMENT 164 y0 a7_life); small. Qed.
Lemma z9_life : life k1 z1 z9 tags6 [] [(None, [164])].
Proof. apply (life_root _ _ z0 _ _ _ 164 z9); [|cbn; tauto|vm_compute; reflexivity]. apply (life_new _ _ a7 tags6 [] [] true 6 XBT_NULL 0 0 ELEMENT 164 z0 a7_life); small. Qed.
Lemma z0_made fl : tagAny fl true a7 6 XBT_NULL [] 0 = Ok (Some 164, z0).
Proof. vm_compute. reflexivity. Qed.
