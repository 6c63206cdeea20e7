(** A pool with a root and attributes as example. *)
From Verif Require Import Base Types Sort Xb XbWrite Bw BwSpec BwHist BwSym BwFile BwReg BwFileSpec BwExamples BwFileExamples BwNamesSpec BwNamesTop BwLifeSpec BwSet BwSetExamples BwAttr BwAttrSpec BwAttrProofs.

Definition p1 := Eval vm_compute in rmem (registerParam 20 a1 (lit "id") XBT_INT32).
Definition p2 := Eval vm_compute in rmem (registerParam 20 p1 (lit "name") XBT_STRING).
Definition p3 := Eval vm_compute in rmem (registerParam 20 p2 (lit "raw") XBT_BLOB).
Definition p4 := Eval vm_compute in rmem (registerParam 20 p3 (lit "at") XBT_UNIX_TIME).
Definition p5 := Eval vm_compute in rmem (makeTable 20 p4 TAGS).
Definition p6 := Eval vm_compute in rmem (makeTable 20 p5 PARAMS).
Definition tags1 : names := [(lit "root", XBT_NULL)].
Definition params4 : names := [(lit "id", XBT_INT32); (lit "name", XBT_STRING); (lit "raw", XBT_BLOB); (lit "at", XBT_UNIX_TIME)].
Definition q1 := Eval vm_compute in mem (pool_tag true p6 0).
Definition root := Eval vm_compute in match pool_tag true p6 0 with Ok (Some x, _) => x | _ => 0 end.
Definition amem (r : outcome (option Z * list Z)) := match r with Ok (_, m) => m | _ => [] end.
Definition q2 := Eval vm_compute in amem (attrStr true q1 root 1 (Some (lit "ab"))).
Definition q3 := Eval vm_compute in amem (attrTime true q2 root 3 7).
Definition q4 := Eval vm_compute in amem (attrInt32 true q3 root 0 9).
Ltac parammed m n ty id := apply (life_param _ _ m tags1 (firstn (Z.to_nat id) params4) [] 20 n ty id); [|split; [repeat constructor; vm_compute; split; discriminate|discriminate]|small|right; small|small].
Lemma p6_life : life (fun _ => false) (fun _ => 0) p6 tags1 params4 [].
Proof.
  apply (life_table _ _ p5 _ _ _ PARAMS 20 true); [|auto|vm_compute; reflexivity]. apply (life_table _ _ p4 _ _ _ TAGS 20 true); [|auto|vm_compute; reflexivity].
  parammed p3 (lit "at") XBT_UNIX_TIME 3. parammed p2 (lit "raw") XBT_BLOB 2. parammed p1 (lit "name") XBT_STRING 1. parammed a1 (lit "id") XBT_INT32 0.
  apply (life_tag _ _ s0 [] [] [] 20 (lit "root") XBT_NULL 0); [|split; [repeat constructor; vm_compute; split; discriminate|discriminate]|small|right; small|small].
  apply (life_start _ _ s0 92 s0_pool); [vm_compute; reflexivity|]. intros t [-> | ->]; vm_compute; auto.
Qed.
Definition kr := set (fun _ : Z => false) root true.
Definition sr := set (fun _ : Z => 0) root 24.
Definition Fr : forest := [(None, [root])].
Lemma q1_life : life kr sr q1 tags1 params4 Fr.
Proof. apply (life_new _ _ p6 tags1 params4 [] true 0 XBT_NULL 0 0 ELEMENT root q1 p6_life); small. Qed.
Lemma root_in : In root (members Fr).
Proof. left. reflexivity. Qed.
Lemma q1_none : owned Fr root false [].
Proof. right. split; [reflexivity|]. intros L [E|[]]. discriminate. Qed.
From Verif Require Import BwAttrTop.
Lemma q2_life : exists k s F, life k s q2 tags1 params4 F /\ In root (members F) /\ owned F root false [176].
Proof.
  destruct (attr_adds (CStr (lit "ab")) kr sr q1 tags1 params4 Fr root [] 1 (lit "name") XBT_STRING true (Some root) q2 q1_life root_in q1_none) as [(Q & _)|(_ & n & data & AD & _ & _ & _ & _ & FO)]; auto; try (vm_compute; (reflexivity || discriminate)).
  - repeat constructor; vm_compute; split; discriminate.
  - left. reflexivity.
  - assert (n = 176). { specialize (FO 9%nat ltac:(cbn; lia) ltac:(intros e [])). assert (attrGet 9 q2 root (Z.of_nat 1) = rret (Some 176)) as X by (vm_compute; reflexivity). rewrite X in FO. unfold rret in FO. congruence. } subst n.
    destruct AD as (k & s & F & LI & _ & OW & _). exists k, s, F. split; [exact LI|]. split; [|exact OW]. apply BwLife.life_whole in LI as (B & a & _ & (h & a2 & PL & RP & SH) & _). destruct OW as [O|[E _]]; [|discriminate]. apply (BwProofs.sh_head _ _ SH _ _ _ O).
Qed.
Lemma q1_bytes : bytes q1.
Proof. assert (B : forallb (fun b => (0 <=? b) && (b <? 256)) q1 = true) by (vm_compute; reflexivity). rewrite forallb_forall in B. apply Forall_forall. intros b I. specialize (B b I). unfold is_byte. lia. Qed.
