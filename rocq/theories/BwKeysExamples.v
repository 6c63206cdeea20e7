(** Keys and paths of documents and pools as examples; the first document and pool are those of BwCopyExamples. *)
From Verif Require Import Base Types Sort Xb XbWrite XbBin BinSpec Bw BwSpec BwHist BwSym BwFile BwReg BwFileSpec BwExamples BwFileExamples BwNamesSpec BwNamesTop BwLifeSpec BwSet BwSetExamples BwAttr BwAttrSpec BwAttrProofs BwAttrExamples BwSource BwSourceSpec BwSourceExamples BwTag BwCopy BwCopySpec BwCopyExamples BwKeys BwKeysSpec BwKeysTop BwPathProofs.

Definition all_keys (_ : Z) := true.
Definition no_keys (_ : Z) := false.
Definition fl0 := mkfloats (fun _ => 0) (fun _ => []).
Definition kmem (r : run (option Z * list Z)) := match r with Some (Ok (_, m)) => m | _ => [] end.
Definition kres (r : run (option Z * list Z)) := match r with Some (Ok (Some x, _)) => x | _ => 0 end.
Definition id9 : attr := (0, XBT_INT32, [9; 0; 0; 0]).
Lemma item_root key : item key doc1 reader1 tags1 params1 192.
Proof.
  exists 5%nat, (lit "root"), XBT_NULL, [], [], [BNode (lit "root") XBT_NULL [] [(lit "id", XBT_INT32, [9; 0; 0; 0])] []], []. split; [exact doc1_read|]. split; [exact doc1_named|]. split; [exact tree2_copyable|]. split; [intros n ty v []|].
  split; [vm_compute; reflexivity|]. split; [constructor|vm_compute; discriminate].
Qed.
Lemma item_kid key : item key doc1 reader1 tags1 params1 kid1.
Proof.
  exists 5%nat, (lit "root"), XBT_NULL, [], [(lit "id", XBT_INT32, [9; 0; 0; 0])], [], [id9]. split; [vm_compute; reflexivity|]. split; [exact doc1_kid|]. split; [intros u [<-|[]]; apply tree2_copyable; right; left; reflexivity|].
  split; [intros n ty v [E|[]]; injection E as <- <- <-; vm_compute; tauto|]. split; [vm_compute; reflexivity|]. unfold keyed. cbn [filter]. destruct (key (attr_id id9)); [split; [repeat constructor; intros []|vm_compute; discriminate]|split; [constructor|vm_compute; discriminate]].
Qed.
(** The keys of the child copied into the only element of the pool *)
Definition w1 := Eval vm_compute in match CopyKeys all_keys fl0 doc1 u4 top kid1 with Ok (_, m) => m | _ => [] end.
Lemma w1_made fl : CopyKeys all_keys fl doc1 u4 top kid1 = Ok (true, w1).
Proof. vm_compute. reflexivity. Qed.
Lemma w1_life : exists k s F A, life k s w1 tags1 params1 F /\ In top (members F) /\ owned F top false A /\ Forall2 (attr_at s w1) A [id9].
Proof.
  destruct (keys_copied all_keys fl0 doc1 reader1 tags1 params1 ku su u4 Fu top kid1 true w1 doc1_bytes ltac:(vm_compute; discriminate) doc1_params (item_kid _) u4_life ltac:(vm_compute; discriminate) ltac:(vm_compute; discriminate) ltac:(left; reflexivity) u4_none u4_no_kids (w1_made _)) as (k & s & F & LI & GR & H).
  destruct (H eq_refl) as ((A & U & OW & IA & FA) & _). vm_compute in IA. injection IA as <-. exists k, s, F, A. split; [exact LI|]. split; [apply GR; left; reflexivity|]. split; [exact OW|exact FA].
Qed.
Lemma kid_attrs : item_attrs doc1 kid1 = Ok [id9].
Proof. vm_compute. reflexivity. Qed.
Lemma id9_comparable : comparable [id9] [id9].
Proof. intros id ty v ty' v' [E|[]] [E'|[]]. injection E as <- <- <-. injection E' as <- <-. tauto. Qed.
(** Without a root and without attributes *)
Lemma u4_sound : sound su u4 Fu.
Proof. intros p A a [J|[-> _]] I; [|destruct I]. destruct J as [J|[]]. discriminate. Qed.
(** The path of the child, copied into this pool *)
Definition w2 := Eval vm_compute in kmem (CopyPath all_keys 9 true fl0 true doc1 reader1 u4 (Some 192) [kid1]).
Definition w2_at := Eval vm_compute in kres (CopyPath all_keys 9 true fl0 true doc1 reader1 u4 (Some 192) [kid1]).
Lemma w2_made fl : CopyPath all_keys 9 true fl true doc1 reader1 u4 (Some 192) [kid1] = rret (Some w2_at, w2).
Proof. vm_compute. reflexivity. Qed.
Lemma w2_id fl : w2_at <> 0 /\ attrGet 9 w2 w2_at 0 <> rret None /\ EqualKeys all_keys 9 fl doc1 w2 w2_at kid1 = rret true.
Proof. vm_compute. split; [discriminate|split; [discriminate|reflexivity]]. Qed.

(** A full disk *)
Lemma u3_full fl key whole : p_root u3 = Ok 0 /\ CopyPath key 9 whole fl false doc1 reader1 u3 (Some 192) [kid1] = Some Ub.
Proof. split; [vm_compute; reflexivity|]. destruct whole; vm_compute; reflexivity. Qed.
(** No keys, and first only the way, then everything: the attribute is not copied. *)
Definition w3 := Eval vm_compute in kmem (CopyPath no_keys 9 false fl0 true doc1 reader1 u4 (Some 192) [kid1]).
Definition w3_at := Eval vm_compute in kres (CopyPath no_keys 9 false fl0 true doc1 reader1 u4 (Some 192) [kid1]).
Lemma w3_made fl : CopyPath no_keys 9 false fl true doc1 reader1 u4 (Some 192) [kid1] = rret (Some w3_at, w3).
Proof. vm_compute. reflexivity. Qed.
Lemma w3_again fl : CopyPath no_keys 9 true fl true doc1 reader1 w3 (Some 192) [kid1] = rret (Some w3_at, w3) /\ el_attr w3 w3_at = Ok 0.
Proof. vm_compute. split; reflexivity. Qed.
(** A pool with a root and a child of another name *)
Definition z1 := Eval vm_compute in rmem (registerTag 20 u1 (lit "zz") XBT_NULL).
Definition z2 := Eval vm_compute in rmem (makeTable 20 z1 TAGS).
Definition z3 := Eval vm_compute in rmem (makeTable 20 z2 PARAMS).
Definition z4 := Eval vm_compute in amem (fresh true z3 0 XBT_NULL 0 ELEMENT).
Definition ztop := Eval vm_compute in fresh_at (fresh true z3 0 XBT_NULL 0 ELEMENT).
Definition z5 := Eval vm_compute in amem (fresh true z4 1 XBT_NULL 0 ELEMENT).
Definition zkid := Eval vm_compute in fresh_at (fresh true z4 1 XBT_NULL 0 ELEMENT).
Definition z6 := Eval vm_compute in trace_of z5 (add z5 ztop zkid).
Definition z7 := Eval vm_compute in mem_of (setRoot z6 ztop).
Lemma z7_other fl : getNodeName z7 zkid = Ok (lit "zz") /\ it_name doc1 kid1 = Ok 0 /\ getSymbol doc1 (rd_tags reader1) 0 = Ok (lit "root") /\ CopyPath no_keys 9 true fl true doc1 reader1 z7 (Some 192) [kid1] = rret (Some zkid, z7).
Proof. vm_compute. repeat split; reflexivity. Qed.

(** Seventeen attributes *)
Definition letters : list Z := [97; 98; 99; 100; 101; 102; 103; 104; 105; 106; 107; 108; 109; 110; 111; 112; 113].
Definition j1 := Eval vm_compute in fold_left (fun m c => rmem (registerParam 40 m [c] XBT_INT32)) letters a1.
Definition j2 := Eval vm_compute in rmem (makeTable 20 (rmem (makeTable 20 j1 TAGS)) PARAMS).
Definition j3 := Eval vm_compute in amem (fresh true j2 0 XBT_NULL 0 ELEMENT).
Definition jtop := Eval vm_compute in fresh_at (fresh true j2 0 XBT_NULL 0 ELEMENT).
Definition j4 := Eval vm_compute in fold_left (fun m c => amem (attrInt32 true m jtop (c - 97) c)) letters j3.
Definition j5 := Eval vm_compute in mem_of (setRoot j4 jtop).
Definition doc3 := Eval vm_compute in match PoolMake_xb 20 (zrepeat 0 (buffer_size j5)) j5 (lit "a") 0 with Some (Ok m) => m | _ => [] end.
Definition reader3 := Eval vm_compute in match Xb.Initialize 20 doc3 with Some (Ok R) => R | _ => mkreader (mksym 0 0 None 0) (mksym 0 0 None 0) None end.
Definition item3 := Eval vm_compute in match rd_root reader3 with Some y => y | None => 0 end.
Definition int_attr c : attr := (c - 97, XBT_INT32, [c; 0; 0; 0]).
Lemma doc3_attrs : zlen doc3 < 4096 /\ rd_root reader3 = Some item3 /\ item_attrs doc3 item3 = Ok (map int_attr letters).
Proof. vm_compute. split; [reflexivity|]. split; reflexivity. Qed.
Lemma j5_attrs : map (fun c => rbind (attrGet 20 j5 jtop (c - 97)) (fun a => match a with None => Some Fail | Some a => Some (obind (bw_getData j5 a) (fun '(ty, v, _) => Ok (c - 97, ty, v))) end)) letters = map (fun c => rret (int_attr c)) letters.
Proof. vm_compute. reflexivity. Qed.
Lemma j5_not_equal fl : EqualKeys all_keys 20 fl doc3 j5 jtop item3 = rret false.
Proof. vm_compute. reflexivity. Qed.
