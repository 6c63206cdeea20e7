(** Documents whose names are imported, as examples. *)
From Verif Require Import Base Types Sort Xb XbWrite XbBin Bw BwSpec BwHist BwSym BwFile BwReg BwFileSpec BwExamples BwFileExamples BwNamesSpec BwNamesTop BwLifeSpec BwSet BwSetExamples BwAttr BwAttrProofs BwAttrExamples BwSource BwSourceSpec BwSourceExamples BwCopySpec BwCopyExamples BwImport BwImportSpec.

(** A new pool *)
Definition k0 : Z -> bool := fun _ => false.
Definition z0 : Z -> Z := fun _ => 0.
Lemma s0_life : life k0 z0 s0 [] [] [].
Proof. apply (life_start _ _ s0 92 s0_pool); [vm_compute; reflexivity|]. intros t [-> | ->]; vm_compute; auto. Qed.
Lemma doc1_lists : lists doc1 (rd_tags reader1) tags1 /\ lists doc1 (rd_params reader1) params1.
Proof. split; (split; [vm_compute; reflexivity|]); intros [|i] s ty E; [injection E as <- <-; vm_compute; auto|destruct i; discriminate|injection E as <- <-; vm_compute; auto|destruct i; discriminate]. Qed.
Lemma one_listable s ty : proper s -> 0 <= ty < 256 -> listable [(s, ty)].
Proof. intros P T. split; [repeat constructor; intros []|]. constructor; [split; assumption|constructor]. Qed.
Lemma doc1_listable : listable tags1 /\ listable params1.
Proof. split; apply one_listable; try (vm_compute; split; [discriminate|reflexivity]); (split; [repeat constructor; vm_compute; split; discriminate|discriminate]). Qed.

(** Importing nothing into a new pool *)
Definition i1 := Eval vm_compute in match importTags 20 None s0 with Some (Ok m) => m | _ => [] end.
Definition i2 := Eval vm_compute in rmem (registerTag 20 i1 (lit "a") XBT_NULL).
Definition i3 := Eval vm_compute in rmem (registerTag 20 i2 (lit "a") XBT_NULL).
Lemma twice : importTags 20 None s0 = rret i1 /\ registerTag 20 i1 (lit "a") XBT_NULL = rret (0, i2) /\ registerTag 20 i2 (lit "a") XBT_NULL = rret (1, i3).
Proof. vm_compute. auto. Qed.

(** A document with a long name and a short one *)
Definition long := lit "a-long-name-that-has-no-place-any-more".
Definition w1 := Eval vm_compute in rmem (registerTag 20 s0 long XBT_NULL).
Definition w2 := Eval vm_compute in rmem (registerTag 20 w1 (lit "b") XBT_NULL).
Definition w3 := Eval vm_compute in rmem (makeTable 20 w2 TAGS).
Definition doc3 := Eval vm_compute in
  let m1 := mem (pool_tag true w3 1) in let c := fresh_at (pool_tag true w3 1) in let m4 := mem_of (setRoot m1 c) in
  match PoolMake_xb 9 (zrepeat 0 (buffer_size m4)) m4 (lit "a") 0 with Some (Ok m) => m | _ => [] end.
Definition reader3 := Eval vm_compute in match Xb.Initialize 3 doc3 with Some (Ok R) => R | _ => mkreader (mksym 0 0 None 0) (mksym 0 0 None 0) None end.
Definition names3 : names := [(long, XBT_NULL); (lit "b", XBT_NULL)].
Lemma doc3_lists : lists doc3 (rd_tags reader3) names3.
Proof. split; [vm_compute; reflexivity|]. intros [|[|i]] s ty E; [injection E as <- <-; vm_compute; auto|injection E as <- <-; vm_compute; auto|destruct i; discriminate]. Qed.
Lemma names3_listable : listable names3.
Proof.
  split; [constructor; [intros [E|[]]; discriminate|constructor; [intros []|constructor]]|]. constructor; [|constructor; [|constructor]]; (split; [split; [unfold cstring; apply Forall_forall; intros b I; vm_compute in I; repeat (destruct I as [<-|I]; [vm_compute; auto; split; discriminate|]); destruct I|discriminate]|vm_compute; split; [discriminate|reflexivity]]).
Qed.
(** A pool with 28 bytes left *)
Lemma near_life : life k0 z0 near_end [] [] [].
Proof. apply (life_allocate k0 z0 s0 [] [] [] (4096 - 28 - 92) (Some 92)); [exact s0_life|vm_compute; reflexivity]. Qed.
Definition i4 := Eval vm_compute in match importTags 20 (Some (doc3, reader3)) near_end with Some (Ok m) => m | _ => [] end.
Lemma skipped : importTags 20 (Some (doc3, reader3)) near_end = rret i4 /\ getByName 20 i4 TAGS long = rret None /\ getName 20 i4 TAGS 0 = rret (Some (lit "b")) /\ getSymbol doc3 (rd_tags reader3) 1 = Ok (lit "b").
Proof. vm_compute. auto. Qed.
