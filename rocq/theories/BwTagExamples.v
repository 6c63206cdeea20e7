(** A pool with names of several types as example. *)
From Verif Require Import Base Types Sort Xb XbWrite Bw BwSpec BwHist BwSym BwFile BwReg BwFileSpec BwExamples BwFileExamples BwNamesSpec BwNamesTop BwLifeSpec BwSet BwSetExamples BwAttr BwAttrExamples BwTag BwTagSpec BwTagTop.

Definition g2 := Eval vm_compute in rmem (registerTag 20 a1 (lit "int") XBT_INT32).
Definition g3 := Eval vm_compute in rmem (registerTag 20 g2 (lit "any") XBT_VARIANT).
Definition g4 := Eval vm_compute in rmem (registerTag 20 g3 (lit "text") XBT_BLOB_STRING).
Definition g5 := Eval vm_compute in rmem (makeTable 20 g4 TAGS).
Definition tags4 : names := [(lit "root", XBT_NULL); (lit "int", XBT_INT32); (lit "any", XBT_VARIANT); (lit "text", XBT_BLOB_STRING)].
Definition g6 := Eval vm_compute in mem (pool_tag true g5 0).
Definition kg := set (fun _ : Z => false) 140 true.
Definition sg := set (fun _ : Z => 0) 140 24.
Definition Fg : forest := [(None, [140])].
Ltac named m n ty id := apply (life_tag _ _ m (firstn (Z.to_nat id) tags4) [] [] 20 n ty id); [|split; [repeat constructor; vm_compute; split; discriminate|discriminate]|small|right; small|small].
Lemma g6_life : life kg sg g6 tags4 [] Fg.
Proof.
  apply (life_new _ _ g5 tags4 [] [] true 0 XBT_NULL 0 0 ELEMENT 140 g6); [|small..]. apply (life_table _ _ g4 _ _ _ TAGS 20 true); [|auto|vm_compute; reflexivity].
  named g3 (lit "text") XBT_BLOB_STRING 3. named g2 (lit "any") XBT_VARIANT 2. named a1 (lit "int") XBT_INT32 1. named s0 (lit "root") XBT_NULL 0.
  apply (life_start _ _ s0 92 s0_pool); [vm_compute; reflexivity|]. intros t [-> | ->]; vm_compute; auto.
Qed.
Lemma g6_bytes : bytes g6.
Proof. assert (B : forallb (fun b => (0 <=? b) && (b <? 256)) g6 = true) by (vm_compute; reflexivity). rewrite forallb_forall in B. apply Forall_forall. intros b I. specialize (B b I). unfold is_byte. lia. Qed.
(** The pool after tag() for the name of a number, and after another one. *)
Definition h1 := amem (bw_tag true g6 1).
Definition h2 := amem (bw_tag true h1 1).
Lemma h1_made : bw_tag true g6 1 = Ok (Some 164, h1).
Proof. vm_compute. reflexivity. Qed.
Lemma h2_made : bw_tag true h1 1 = Ok (Some 188, h2).
Proof. vm_compute. reflexivity. Qed.
Lemma h1_first : bw_getInt32 h1 164 = Ok (Some 0).
Proof. vm_compute. reflexivity. Qed.
Lemma h2_first : bw_getInt32 h2 164 = Ok (Some 188).
Proof. vm_compute. reflexivity. Qed.
