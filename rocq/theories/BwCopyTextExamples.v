(** A document of texts that is copied into a pool of numbers. *)
From Verif Require Import Base Types Sort Xb XbWrite XbBin BinSpec DocExamples Bw BwSpec BwHist BwSym BwFile BwReg BwFileSpec BwExamples BwFileExamples BwNamesSpec BwNamesTop BwLifeSpec BwSet BwSetExamples BwAttr BwAttrSpec BwAttrProofs BwAttrExamples BwSource BwSourceSpec BwSourceExamples BwCopy BwCopySpec BwCopyExamples BwCopyTextSpec.

Definition no_floats := mkfloats (fun _ => 0) (fun _ => []).
(** <root id="x"><root id="12"/></root>: both values of "id" are stored as texts. *)
Definition doc3 := Eval vm_compute in
  match Make_xb no_floats (zrepeat 0 800) (lit "a") 0 (xml "root" None [("id", "x")%string] [xml "root" None [("id", "12")%string] []]) with Some (Ok m) => m | _ => [] end.
Definition reader3 := Eval vm_compute in match Xb.Initialize 3 doc3 with Some (Ok R) => R | _ => mkreader (mksym 0 0 None 0) (mksym 0 0 None 0) None end.
Definition root3 := Eval vm_compute in match rd_root reader3 with Some x => x | None => 0 end.
Definition tree3 := BNode (lit "root") XBT_NULL [] [(lit "id", XBT_STRING, lit "x" ++ [0])] [BNode (lit "root") XBT_NULL [] [(lit "id", XBT_STRING, lit "12" ++ [0])] []].
Lemma doc3_read : read_bin_node 5 doc3 reader3 root3 = rret tree3.
Proof. vm_compute. reflexivity. Qed.
Lemma doc3_bytes : bytes doc3.
Proof. assert (B : forallb (fun b => (0 <=? b) && (b <? 256)) doc3 = true) by (vm_compute; reflexivity). rewrite forallb_forall in B. apply Forall_forall. intros b I. specialize (B b I). unfold is_byte. lia. Qed.
Lemma doc3_tags : agrees doc3 (rd_tags reader3) tags1.
Proof. intros i nm R E. change (0 <= i < 1) in R. assert (i = 0) as -> by lia. vm_compute in E. injection E as <-. exists XBT_NULL. split; [discriminate|reflexivity]. Qed.
Lemma doc3_params : agrees doc3 (rd_params reader3) params1.
Proof. intros i nm R E. change (0 <= i < 1) in R. assert (i = 0) as -> by lia. vm_compute in E. injection E as <-. exists XBT_INT32. split; [discriminate|reflexivity]. Qed.
Definition kid3 := Eval vm_compute in match getChildByIndex doc3 (Some root3) 0 with Ok (Some c) => c | _ => 0 end.
Lemma doc3_named : named doc3 reader3 root3.
Proof.
  assert (A : forall y, it_paramcount doc3 y = Ok 1 -> rd_s16 doc3 (y + 12) = Ok 0 -> forall i q id, getParamByIndex doc3 (Some y) i = Ok (Some q) -> pd_name doc3 q = Ok id -> 0 <= id < sy_count (rd_params reader3)).
  { intros y PC PN i q id E1 E2. unfold getParamByIndex in E1. destruct (i <? 0) eqn:I0; [discriminate|]. rewrite PC in E1. cbn [obind] in E1. destruct (1 <=? i) eqn:I1; [discriminate|]. assert (i = 0) as -> by lia. injection E1 as <-. unfold pd_name in E2. replace (y + 12 + 8 * 0) with (y + 12) in E2 by lia. rewrite PN in E2. injection E2 as <-. split; [discriminate|reflexivity]. }
  constructor.
  - intros id E. vm_compute in E. injection E as <-. split; [discriminate|reflexivity].
  - apply A; vm_compute; reflexivity.
  - intros i c E. unfold getChildByIndex in E. assert (CC : it_childcount doc3 root3 = Ok 1) by (vm_compute; reflexivity). rewrite CC in E. cbn [obind] in E. destruct ((i <? 0) || (1 <=? i)) eqn:I0; [discriminate|]. assert (i = 0) as -> by lia. vm_compute in E. injection E as <-. change (named doc3 reader3 kid3). constructor.
    + intros id E. vm_compute in E. injection E as <-. split; [discriminate|reflexivity].
    + apply A; vm_compute; reflexivity.
    + intros i c E. unfold getChildByIndex in E. assert (C2 : it_childcount doc3 kid3 = Ok 0) by (vm_compute; reflexivity). rewrite C2 in E. cbn [obind] in E. destruct ((i <? 0) || (0 <=? i)) eqn:I1; [discriminate|]. lia.
Qed.
Lemma tree3_can u : In u (belements tree3) -> can_hold tags1 params1 u.
Proof.
  assert (HN : forall v, holdable XBT_NULL v) by (intro v; split; [discriminate|intros [Q|Q]; discriminate]). assert (HS : forall v, holdable XBT_STRING v) by (intro v; split; [discriminate|intros [Q|Q]; discriminate]).
  intros [<-|[<-|[]]]; (split; [apply HN|split; [discriminate|]]); (intros n ty v [E|[]]; injection E as <- <- <-; split; [apply HS|]; intros _ [Q|[]]; discriminate Q).
Qed.
(** What is in the pool then *)
Definition u6 := Eval vm_compute in match CopyAll 5 no_floats true doc3 u4 (Some top) root3 with Some (Ok (_, m)) => m | _ => [] end.
Lemma doc3_copied fl : CopyAll 5 fl true doc3 u4 (Some top) root3 = rret (Some top, u6).
Proof. vm_compute. reflexivity. Qed.
(** The type and the number of the first attribute of an element *)
Definition first_attr m x : outcome (Z * Z) := obind (el_attr m x) (fun a => obind (el_type m a) (fun ty => obind (rd_s32 m (a + 24)) (fun v => Ok (ty, v)))).
Lemma doc3_values : first_attr u6 top = Ok (XBT_INT32, 0) /\ obind (el_child u6 top) (first_attr u6) = Ok (XBT_INT32, 12).
Proof. vm_compute. split; reflexivity. Qed.
