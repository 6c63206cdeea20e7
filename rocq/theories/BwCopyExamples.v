(** A document and a pool it is copied to as example; the document is the converted pool of BwSourceExamples. *)
From Verif Require Import Base Types Sort Xb XbWrite XbBin BinSpec Bw BwSpec BwHist BwSym BwFile BwReg BwFileSpec BwExamples BwFileExamples BwNamesSpec BwNamesTop BwLifeSpec BwSet BwSetExamples BwAttr BwAttrSpec BwAttrProofs BwAttrExamples BwSource BwSourceSpec BwSourceExamples BwCopy BwCopySpec.

Definition u1 := Eval vm_compute in rmem (registerParam 20 a1 (lit "id") XBT_INT32).
Definition u2 := Eval vm_compute in rmem (makeTable 20 u1 TAGS).
Definition u3 := Eval vm_compute in rmem (makeTable 20 u2 PARAMS).
Definition u4 := Eval vm_compute in mem (pool_tag true u3 0).
Definition top := Eval vm_compute in match pool_tag true u3 0 with Ok (Some x, _) => x | _ => 0 end.
Definition params1 : names := [(lit "id", XBT_INT32)].
Definition ku := set (fun _ : Z => false) top true.
Definition su := set (fun _ : Z => 0) top 24.
Definition Fu : forest := [(None, [top])].
Lemma u4_life : life ku su u4 tags1 params1 Fu.
Proof.
  apply (life_new _ _ u3 tags1 params1 [] true 0 XBT_NULL 0 0 ELEMENT top u4); [|small..]. apply (life_table _ _ u2 _ _ _ PARAMS 20 true); [|auto|vm_compute; reflexivity]. apply (life_table _ _ u1 _ _ _ TAGS 20 true); [|auto|vm_compute; reflexivity].
  apply (life_param _ _ a1 tags1 [] [] 20 (lit "id") XBT_INT32 0); [|split; [repeat constructor; vm_compute; split; discriminate|discriminate]|small|right; small|small].
  apply (life_tag _ _ s0 [] [] [] 20 (lit "root") XBT_NULL 0); [|split; [repeat constructor; vm_compute; split; discriminate|discriminate]|small|right; small|small].
  apply (life_start _ _ s0 92 s0_pool); [vm_compute; reflexivity|]. intros t [-> | ->]; vm_compute; auto.
Qed.
(** The document: a root with a child with an attribute, made in this pool and converted. *)
Definition doc1 := Eval vm_compute in
  let m1 := amem (fresh true u4 0 XBT_NULL 0 ELEMENT) in let c := fresh_at (fresh true u4 0 XBT_NULL 0 ELEMENT) in let m2 := trace_of m1 (add m1 top c) in let m3 := amem (attrInt32 true m2 c 0 9) in let m4 := mem_of (setRoot m3 top) in
  match PoolMake_xb 9 (zrepeat 0 (buffer_size m4)) m4 (lit "a") 0 with Some (Ok m) => m | _ => [] end.
Definition reader1 := Eval vm_compute in match Xb.Initialize 3 doc1 with Some (Ok R) => R | _ => mkreader (mksym 0 0 None 0) (mksym 0 0 None 0) None end.
Lemma doc1_read : read_bin_node 5 doc1 reader1 192 = rret tree2.
Proof. vm_compute. reflexivity. Qed.
Lemma doc1_bytes : bytes doc1.
Proof. assert (B : forallb (fun b => (0 <=? b) && (b <? 256)) doc1 = true) by (vm_compute; reflexivity). rewrite forallb_forall in B. apply Forall_forall. intros b I. specialize (B b I). unfold is_byte. lia. Qed.
Lemma u4_bytes : bytes u4.
Proof. assert (B : forallb (fun b => (0 <=? b) && (b <? 256)) u4 = true) by (vm_compute; reflexivity). rewrite forallb_forall in B. apply Forall_forall. intros b I. specialize (B b I). unfold is_byte. lia. Qed.
Lemma doc1_tags : agrees doc1 (rd_tags reader1) tags1.
Proof. intros i nm R E. change (0 <= i < 1) in R. assert (i = 0) as -> by lia. vm_compute in E. injection E as <-. exists XBT_NULL. split; [discriminate|reflexivity]. Qed.
Lemma doc1_params : agrees doc1 (rd_params reader1) params1.
Proof.
  intros i nm R E. change (0 <= i < 1) in R. assert (i = 0) as -> by lia. vm_compute in E. injection E as <-. exists XBT_INT32. split; [discriminate|reflexivity].
Qed.
Definition kid1 := Eval vm_compute in match getChildByIndex doc1 (Some 192) 0 with Ok (Some c) => c | _ => 0 end.
Lemma doc1_kid : named doc1 reader1 kid1.
Proof.
  constructor.
  - intros id E. vm_compute in E. injection E as <-. split; [discriminate|reflexivity].
  - intros i q id E1 E2. unfold getParamByIndex in E1. destruct (i <? 0) eqn:I0; [discriminate|]. assert (PC : it_paramcount doc1 kid1 = Ok 1) by (vm_compute; reflexivity). rewrite PC in E1. cbn [obind] in E1. destruct (1 <=? i) eqn:I1; [discriminate|]. assert (i = 0) as -> by lia. injection E1 as <-. vm_compute in E2. injection E2 as <-. split; [discriminate|reflexivity].
  - intros i c E. unfold getChildByIndex in E. assert (CC : it_childcount doc1 kid1 = Ok 0) by (vm_compute; reflexivity). rewrite CC in E. cbn [obind] in E. destruct ((i <? 0) || (0 <=? i)) eqn:I0; [discriminate|]. lia.
Qed.
Lemma doc1_named : named doc1 reader1 192.
Proof.
  constructor.
  - intros id E. vm_compute in E. injection E as <-. split; [discriminate|reflexivity].
  - intros i q id E1 E2. unfold getParamByIndex in E1. destruct (i <? 0) eqn:I0; [discriminate|]. assert (PC : it_paramcount doc1 192 = Ok 0) by (vm_compute; reflexivity). rewrite PC in E1. cbn [obind] in E1. destruct (0 <=? i) eqn:I1; [discriminate|]. lia.
  - intros i c E. unfold getChildByIndex in E. assert (CC : it_childcount doc1 192 = Ok 1) by (vm_compute; reflexivity). rewrite CC in E. cbn [obind] in E. destruct ((i <? 0) || (1 <=? i)) eqn:I0; [discriminate|]. assert (i = 0) as -> by lia. vm_compute in E. injection E as <-. exact doc1_kid.
Qed.
Lemma u4_none : owned Fu top false [].
Proof. right. split; [reflexivity|]. intros L [E|[]]. discriminate. Qed.
Lemma u4_no_kids : owned Fu top true [].
Proof. right. split; [reflexivity|]. intros L [E|[]]. discriminate. Qed.
Lemma tree2_fitting u : In u (belements tree2) -> fitting tags1 params1 u.
Proof.
  assert (HN : forall v, holdable XBT_NULL v) by (intro v; split; [discriminate|intros [Q|Q]; discriminate]). assert (KN : In XBT_NULL known_types) by (vm_compute; tauto).
  intros [<-|[<-|[]]]; (split; [apply HN|split; [exact KN|split; [left; reflexivity|]]]); [intros n ty v []|]. intros n ty v [E|[]]. injection E as <- <- <-. split; [split; [discriminate|intros [Q|Q]; discriminate]|]. split; [vm_compute; tauto|].
  intros ty' [Q|[]]. injection Q as <-. reflexivity.
Qed.
Lemma tree2_copyable u : In u (belements tree2) -> copyable tags1 params1 u.
Proof. intro J. apply tree2_fitting in J. destruct u as [n ty v attrs kids]. destruct J as (HO & KN & TT & AA). split; [exact HO|]. split; [|intros n0 ty0 v0 J; destruct (AA _ _ _ J) as (H1 & _ & H3); split; [exact H1|]; intros -> ty' J'; apply H3, J']. intros -> ty' J. destruct TT as [TT|TT]; [discriminate|]. apply TT, J. Qed.
(** Without room on the disk: the child is missing. *)
Lemma u4_lost fl : CopyAll 5 fl false doc1 u4 (Some top) 192 = rret (Some top, u4).
Proof. vm_compute. reflexivity. Qed.
(** A pool whose file is nearly full, with much room in the mapping. *)
Definition u4f := Eval vm_compute in amem (fresh true u4 0 XBT_BLOB 3924 ELEMENT).
Lemma u4f_life : life (set ku 140 true) (set su 140 3952) u4f tags1 params1 [(None, [140]); (None, [top])].
Proof. apply (life_new _ _ u4 tags1 params1 Fu true 0 XBT_BLOB 3924 3928 ELEMENT 140 u4f u4_life); small. Qed.
Lemma u4f_refused fl : exists m', CopyAll 5 fl true doc1 u4f (Some top) kid1 = rret (None, m').
Proof. eexists. vm_compute. reflexivity. Qed.
(** A document with a number under the name of an element without value *)
Definition doc2 := Eval vm_compute in
  let m1 := amem (fresh true u4 0 XBT_INT32 0 ELEMENT) in let c := fresh_at (fresh true u4 0 XBT_INT32 0 ELEMENT) in let m2 := trace_of m1 (add m1 top c) in let m3 := mem_of (wr m2 (c + 24) (le 4 5)) in let m4 := mem_of (setRoot m3 top) in
  match PoolMake_xb 9 (zrepeat 0 (buffer_size m4)) m4 (lit "a") 0 with Some (Ok m) => m | _ => [] end.
Definition reader2 := Eval vm_compute in match Xb.Initialize 3 doc2 with Some (Ok R) => R | _ => mkreader (mksym 0 0 None 0) (mksym 0 0 None 0) None end.
Lemma doc2_read : rd_root reader2 = Some 192 /\ read_bin_node 5 doc2 reader2 192 = rret (BNode (lit "root") XBT_NULL [] [] [BNode (lit "root") XBT_INT32 [5; 0; 0; 0] [] []]).
Proof. vm_compute. split; reflexivity. Qed.
Definition u5 := Eval vm_compute in match CopyAll 5 (mkfloats (fun _ => 0) (fun _ => [])) true doc2 u4 (Some top) 192 with Some (Ok (_, m)) => m | _ => [] end.
Lemma doc2_copied fl : CopyAll 5 fl true doc2 u4 (Some top) 192 = rret (Some top, u5).
Proof. vm_compute. reflexivity. Qed.
Lemma u5_empty : el_child u5 top = Ok 0.
Proof. vm_compute. reflexivity. Qed.
