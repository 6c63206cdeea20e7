(** A pool with names as example. *)
From Verif Require Import Base Types Sort Xb XbWrite Bw BwSpec BwHist BwSym BwFile BwReg BwFileSpec BwExamples.

Definition rmem {A} (r : run (A * list Z)) : list Z := match r with Some (Ok (_, m)) => m | _ => [] end.
Definition n1 := Eval vm_compute in rmem (registerTag 10 s0 (lit "a") XBT_NULL).
Definition n2 := Eval vm_compute in rmem (registerParam 10 n1 (lit "b") XBT_INT32).
Definition n4 := Eval vm_compute in rmem (makeTable 10 n2 TAGS).
Lemma n4_grows : pool n4 112 /\ placed n4 TAGS /\ placed n4 PARAMS /\ opens_as n4 n4 /\ t_max_id n4 TAGS = Ok 0 /\ t_names n4 TAGS = Ok 92 /\ t_index n4 TAGS = Ok 108 /\ exists tr, makeSpace_steps true n4 8192 = Ok (true, tr) /\ tr <> [].
Proof.
  split. { unfold pool. split; [vm_compute; reflexivity|]. split; [vm_compute; reflexivity|]. split; [vm_compute; reflexivity|]. split; [exists 131072; split; vm_compute; [reflexivity|discriminate]|]. vm_compute. repeat split; discriminate. }
  split. { exists 92, 108. split; [vm_compute; reflexivity|]. split; [vm_compute; reflexivity|]. unfold HEADER. lia. }
  split. { exists 100, 0. split; [vm_compute; reflexivity|]. split; [vm_compute; reflexivity|]. unfold HEADER. lia. }
  split. { exists 10%nat. intro max. vm_compute. reflexivity. }
  split; [vm_compute; reflexivity|]. split; [vm_compute; reflexivity|]. split; [vm_compute; reflexivity|]. eexists. split; [vm_compute; reflexivity|discriminate].
Qed.
