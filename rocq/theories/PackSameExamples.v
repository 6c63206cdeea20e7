(** Examples for documents whose texts do not come back as they were. *)
From Verif Require Import Base NumSpec Types CalSpec RingProofs RoundtripProofs SymtabSpec Sort Sha1Spec Xb XbWrite DocSpec ReadSpec NavSpec CheckSpec DocExamples Packer PackSpec PackExamples PackSameSpec.

(** The tree read from an image *)
Definition tree_of fl (img : run (list Z)) : run node :=
  rbind img (fun img => rbind (Initialize 3 img) (fun R => match rd_root R with None => Some Fail | Some x => rbind (read_node 10 fl img R x [] ring0) (fun '(t, _) => rret t) end)).
(** Leading zeros, an address, a number in a column of fractions. *)
Definition worn := xml "r" None [] [xml "b" (Some "007"%string) [("a", "1")%string] []; xml "c" (Some "10.0.0.1"%string) [("a", "2.5")%string] [xml "b" (Some "007"%string) [("a", "1")%string] []]; xml "b" (Some "007"%string) [("a", "1")%string] []].
Lemma worn_movable : movable worn.
Proof.
  intros u Hu. cbn in Hu. repeat (destruct Hu as [<-|Hu]; [split; [intros v Hv; cbn in Hv; try discriminate Hv; injection Hv as <-; unfold movable_value; vm_compute; intuition discriminate|]; intros a Ha; cbn in Ha; repeat (destruct Ha as [<-|Ha]; [split; vm_compute; discriminate|]); contradiction|]); contradiction.
Qed.
Lemma worn_no_hex : no_hex worn.
Proof. intros u Hu n v Hv; cbn in Hu; repeat (destruct Hu as [<-|Hu]; [cbn in Hv; repeat (destruct Hv as [Hv|Hv]; [injection Hv as <- <-; vm_compute; discriminate|]); contradiction|]); contradiction. Qed.
