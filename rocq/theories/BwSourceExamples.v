(** A pool with a root, a child and an attribute as example; the same with an attribute of a built-in name. *)
From Verif Require Import Base Types Sort Xb XbWrite XbBin BinSpec Bw BwSpec BwHist BwSym BwFile BwReg BwFileSpec BwExamples BwFileExamples BwNamesSpec BwNamesTop BwLifeSpec BwSet BwSetExamples BwAttr BwAttrSpec BwAttrProofs BwAttrExamples BwSource BwSourceSpec.

Definition fresh_at (r : outcome (option Z * list Z)) := match r with Ok (Some x, _) => x | _ => 0 end.
Definition mem_of (r : outcome (list Z)) := match r with Ok m => m | _ => [] end.
Definition trace_of {A} m (r : outcome (A * list (list Z))) := match r with Ok (_, tr) => final m tr | _ => [] end.
Definition r1 := Eval vm_compute in amem (fresh true q1 0 XBT_NULL 0 ELEMENT).
Definition kid := Eval vm_compute in fresh_at (fresh true q1 0 XBT_NULL 0 ELEMENT).
Definition r2 := Eval vm_compute in trace_of r1 (add r1 root kid).
Definition r3 := Eval vm_compute in amem (fresh true r2 0 XBT_INT32 0 0).
Definition at1 := Eval vm_compute in fresh_at (fresh true r2 0 XBT_INT32 0 0).
Definition r4 := Eval vm_compute in mem_of (wr r3 (at1 + 24) (le 4 9)).
Definition r5 := Eval vm_compute in trace_of r4 (add r4 kid at1).
Definition r6 := Eval vm_compute in mem_of (setRoot r5 root).
Definition kr2 := set (set kr kid true) at1 false.
Definition sr2 := set (set sr kid 24) at1 28.
Definition Fr2 : forest := [(Some (kid, false), [at1]); (Some (root, true), [kid]); (None, [root])].
Lemma r6_life : life kr2 sr2 r6 tags1 params4 Fr2.
Proof.
  apply (life_root _ _ r5 _ _ _ root); [|right; right; left; reflexivity|vm_compute; reflexivity].
  assert (L1 : life (set kr kid true) (set sr kid 24) r1 tags1 params4 [(None, [kid]); (None, [root])]) by (apply (life_new _ _ q1 tags1 params4 Fr true 0 XBT_NULL 0 0 ELEMENT kid r1 q1_life); small).
  assert (L2 : life (set kr kid true) (set sr kid 24) r2 tags1 params4 [(Some (root, true), [kid]); (None, [root])]).
  { destruct (add r1 root kid) as [[ok tr]| |] eqn:E; try (vm_compute in E; discriminate). replace r2 with (final r1 tr) by (vm_compute in E; injection E as <- <-; vm_compute; reflexivity).
    eapply life_add; [exact L1|right; left; reflexivity| |exact E]. apply (adds_first (set kr kid true) root kid [(None, [kid]); (None, [root])] [] [] [(None, [root])]); [reflexivity|]. intros L [Q|[]]. discriminate. }
  assert (L3 : life kr2 sr2 r3 tags1 params4 [(None, [at1]); (Some (root, true), [kid]); (None, [root])]) by (apply (life_new _ _ r2 tags1 params4 _ true 0 XBT_INT32 0 4 0 at1 r3 L2); small).
  assert (L4 : life kr2 sr2 r4 tags1 params4 [(None, [at1]); (Some (root, true), [kid]); (None, [root])]) by (apply (life_write _ _ r3 _ _ _ at1 (at1 + 24) (le 4 9) _ L3); [left; reflexivity|small|vm_compute; discriminate|vm_compute; reflexivity]).
  destruct (add r4 kid at1) as [[ok tr]| |] eqn:E; try (vm_compute in E; discriminate). replace r5 with (final r4 tr) by (vm_compute in E; injection E as <- <-; vm_compute; reflexivity).
  eapply life_add; [exact L4|right; left; reflexivity| |exact E]. apply (adds_first kr2 kid at1 [(None, [at1]); (Some (root, true), [kid]); (None, [root])] [] [] [(Some (root, true), [kid]); (None, [root])]); [reflexivity|]. intros L [Q|[Q|[]]]; discriminate.
Qed.
Definition tree2 : bnode := BNode (lit "root") XBT_NULL [] [] [BNode (lit "root") XBT_NULL [] [(lit "id", XBT_INT32, [9; 0; 0; 0])] []].
Lemma r6_tree : tree_at kr2 sr2 r6 tags1 params4 Fr2 root tree2.
Proof.
  apply (tree_here _ _ _ _ _ _ root [] [kid]).
  - right; right; left; reflexivity.
  - reflexivity.
  - exists 0%nat, XBT_NULL. repeat split; try (vm_compute; reflexivity). vm_compute; discriminate.
  - right. split; [reflexivity|]. intros L [Q|[Q|[Q|[]]]]; discriminate.
  - left. right. left. reflexivity.
  - constructor.
  - constructor; [|constructor]. apply (tree_here _ _ _ _ _ _ kid [at1] []).
    + right; left; reflexivity.
    + reflexivity.
    + exists 0%nat, XBT_NULL. repeat split; try (vm_compute; reflexivity). vm_compute; discriminate.
    + left. left. reflexivity.
    + right. split; [reflexivity|]. intros L [Q|[Q|[Q|[]]]]; discriminate.
    + constructor; [|constructor]. split; [reflexivity|]. exists 0%nat, XBT_INT32. repeat split; try (vm_compute; reflexivity). vm_compute; discriminate.
    + constructor.
Qed.
Lemma tree2_convertible u : In u (belements tree2) -> convertible u.
Proof.
  assert (C0 : forall v, complete XBT_NULL v) by (intro v; left; vm_compute; tauto). intros [<-|[<-|[]]]; (split; [apply C0|split; [discriminate|split; [vm_compute; discriminate|]]]); [intros n ty v []|]. intros n ty v [E|[]]. injection E as <- <- <-. split; [left; vm_compute; tauto|intro Q; discriminate].
Qed.
Lemma r6_bytes : bytes r6.
Proof. apply Forall_forall. intros x I. assert (Q : forallb (fun b => (0 <=? b) && (b <? 256)) r6 = true) by (vm_compute; reflexivity). rewrite forallb_forall in Q. specialize (Q x I). unfold is_byte. cbv beta in Q. lia. Qed.

(** The attribute "count" *)
Definition b5 := Eval vm_compute in amem (attrInt32 true q1 root XPNR_COUNT 9).
Definition b6 := Eval vm_compute in mem_of (setRoot b5 root).
Definition b7 := Eval vm_compute in match PoolMake_xb 9 (zrepeat 0 (buffer_size b6)) b6 (lit "a") 0 with Some (Ok m) => m | _ => [] end.
