(** Pools with names as examples. *)
From Verif Require Import Base Types Sort Xb XbWrite Bw BwSpec BwHist BwSym BwFile BwReg BwFileSpec BwExamples BwFileExamples BwNamesSpec BwNamesTop.

Definition n5 := Eval vm_compute in rmem (registerTag 10 n2 (lit "c") XBT_STRING).
Definition n6 := Eval vm_compute in rmem (registerTag 10 n5 (lit "d") XBT_STRING).
Lemma n2_dicts : dicts n2 [(lit "a", XBT_NULL)] [(lit "b", XBT_INT32)] [].
Proof.
  refine (dicts_param n1 [(lit "a", XBT_NULL)] [] [] 10 (lit "b") XBT_INT32 0 n2 (dicts_tag s0 [] [] [] 10 (lit "a") XBT_NULL 0 n1 s0_start _ _ _ _) _ _ _ _).
  all: try (split; [repeat constructor; vm_compute; split; discriminate|discriminate]). all: try (right; reflexivity). all: try (vm_compute; reflexivity). all: vm_compute; split; [discriminate|reflexivity].
Qed.
Lemma n6_dicts : dicts n6 [(lit "a", XBT_NULL); (lit "c", XBT_STRING); (lit "d", XBT_STRING)] [(lit "b", XBT_INT32)] [].
Proof.
  refine (dicts_tag n5 [(lit "a", XBT_NULL); (lit "c", XBT_STRING)] _ [] 10 (lit "d") XBT_STRING 2 n6 (dicts_tag n2 [(lit "a", XBT_NULL)] _ [] 10 (lit "c") XBT_STRING 1 n5 n2_dicts _ _ _ _) _ _ _ _).
  all: try (split; [repeat constructor; vm_compute; split; discriminate|discriminate]). all: try (right; reflexivity). all: try (vm_compute; reflexivity). all: vm_compute; split; [discriminate|reflexivity].
Qed.
Lemma n2_clears : exists m', Clear 20 n2 = rret (true, m').
Proof. eexists. vm_compute. reflexivity. Qed.
Lemma n6_clear_loses : exists m', Clear 20 n6 = rret (false, m') /\ forall s, In s [lit "a"; lit "c"] -> getByName 20 n6 TAGS s <> rret None /\ getByName 20 m' TAGS s = rret None.
Proof. eexists. split; [vm_compute; reflexivity|]. intros s [<-|[<-|[]]]; vm_compute; (split; [discriminate|reflexivity]). Qed.
Lemma n6_lost : exists m T P B fuel m', dicts m T P B /\ Clear fuel m = rret (false, m') /\
  forall s, In s [lit "a"; lit "c"] -> In s (map fst T) /\ getByName fuel m TAGS s <> rret None /\ getByName fuel m' TAGS s = rret None.
Proof.
  destruct n6_clear_loses as (m' & E & H). exists n6. eexists. eexists. eexists. exists 20%nat, m'. split; [exact n6_dicts|]. split; [exact E|]. intros s I. split; [destruct I as [<-|[<-|[]]]; cbn; auto|exact (H s I)].
Qed.
