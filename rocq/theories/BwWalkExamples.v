(** Pools to walk through, as examples. *)
From Verif Require Import Base Types Sort Xb XbWrite Bw BwSpec BwHist BwSym BwNamesSpec BwLifeSpec BwAlter BwExamples BwFileExamples BwSet BwSetExamples BwAttr BwAttrExamples WalkSpec BwWalk BwWalkSpec.

Definition t4 := At 164 [At 188 []; At 216 []; At 244 []].
Lemma t4_hangs : hangs F4 t4.
Proof.
  assert (N : forall x, In x [188; 216; 244] -> hangs F4 (At x [])). { intros x J. constructor; [cbn in J |- *; tauto| |constructor]. right. split; [reflexivity|]. intros L [E|[E|[]]]; [injection E as <- _; cbn in J; destruct J as [J|[J|[J|[]]]]; discriminate|discriminate]. }
  constructor; [cbn; tauto|left; left; reflexivity|apply Forall_forall; intros t [<-|[<-|[<-|[]]]]; apply N; cbn; tauto].
Qed.
(** The pool with its root, and the type of the second tag altered when an element of this tag is there *)
Definition w1 := Eval vm_compute in match setRoot b4 164 with Ok m => m | _ => [] end.
Definition w2 := Eval vm_compute in rmem (alterTag 20 w1 2 XBT_STRING).
Lemma w1_life : life k4 z4 w1 tags6 [] F4.
Proof. apply (life_root _ _ b4 _ _ _ 164 w1 b4_life); [cbn; tauto|vm_compute; reflexivity]. Qed.
Definition tags6' := Eval vm_compute in altered 2 XBT_STRING tags6.
Lemma w2_life : life k4 z4 w2 tags6' [] F4.
Proof. apply (life_alter_tag _ _ w1 tags6 [] F4 20 2 XBT_STRING true w2 w1_life). vm_compute. reflexivity. Qed.
Lemma w1_typed : well_typed w1 tags6 t4.
Proof.
  intros x J. cbn [all_of flat_map app t4] in J. destruct J as [<-|[<-|[<-|[<-|[]]]]].
  - exists 0%nat, (lit "root"), XBT_NULL. vm_compute. auto.
  - exists 2%nat, (lit "uint"), XBT_UINT32. vm_compute. auto.
  - exists 5%nat, (lit "time"), XBT_UNIX_TIME. vm_compute. auto.
  - exists 3%nat, (lit "str"), XBT_STRING. vm_compute. auto.
Qed.
Lemma w2_wrong : ~ well_typed w2 tags6' t4.
Proof.
  intro W. destruct (W 188) as (i & n & ty & E & N & TY); [cbn; tauto|]. assert (E2 : el_id w2 188 = Ok 2) by (vm_compute; reflexivity). rewrite E in E2. injection E2 as E2. assert (i = 2%nat) as -> by lia. assert (T2 : el_type w2 188 = Ok XBT_UINT32) by (vm_compute; reflexivity). rewrite TY in T2. injection T2 as ->. vm_compute in N. discriminate.
Qed.
Lemma w2_passes : CheckAndUpdateTypes 2 9 w2 false = rret true.
Proof. vm_compute. reflexivity. Qed.
(** A new pool *)
Lemma s0_life : life (fun _ => false) (fun _ => 0) s0 [] [] [].
Proof. apply (life_start _ _ s0 92 s0_pool); [vm_compute; reflexivity|]. intros t [-> | ->]; vm_compute; auto. Qed.
