(** Small documents to be traversed. *)
From Verif Require Import Base Types Sort SymtabSpec Xb XbSpec XbWrite DocSpec NavSpec DocExamples Walk WalkSpec BwKeysExamples.

Definition rack : node := xml "rack" None [("id", "7")%string] [xml "book" (Some "12"%string) [("title", "Don Quijote")%string] [xml "page" None [] []]; xml "empty" None [] []].
Lemma rack_no_hex : no_hex rack.
Proof. intros u Hu n v Hv; cbn in Hu; repeat (destruct Hu as [<-|Hu]; [cbn in Hv; repeat (destruct Hv as [Hv|Hv]; [injection Hv as <- <-; vm_compute; discriminate|]); contradiction|]); contradiction. Qed.
Lemma rack_made : exists img, Make_xb fl0 (zrepeat 0 800) (lit "f.xml") 0 rack = rret img.
Proof. eexists. vm_compute. reflexivity. Qed.
Definition two_items : list Z := [0; 0; 0; 0; 1; 0; 0; 0; 28; 0; 0; 0; 16; 0; 0; 0; 0; 0; 0; 0; 0; 0; 0; 0; 12; 0; 0; 0].
Lemma two_items_deep : laid two_items (At 0 [At 16 []]) /\ ForAllChildrenRecursively_PostOrderA 2 two_items (Some 0) 1024 (Some (zrepeat (-1) 1024)) = rret ([(16, 1024, Some (zrepeat (-1) 1024))], Some (zrepeat (-1) 1024)).
Proof.
  split; [|vm_compute; reflexivity]. constructor; [reflexivity|intros [|[|i]] t E; [injection E as <-; vm_compute; reflexivity|discriminate|discriminate]|]. constructor; [|constructor]. constructor; [reflexivity|intros [|i]; discriminate|constructor].
Qed.
Definition own_child : list Z := [0; 0; 0; 0; 1; 0; 0; 0; 16; 0; 0; 0; 0; 0; 0; 0].
Lemma own_child_endless : forall fuel, ForAllChildrenRecursively fuel own_child (Some 0) 0 = None \/ ForAllChildrenRecursively fuel own_child (Some 0) 0 = rub.
Proof.
  intros fuel. cbn [ForAllChildrenRecursively]. enough (H : forall d, visit fuel own_child 0 d = None \/ visit fuel own_child 0 d = rub) by apply H. induction fuel as [|f IH]; intros d; [left; reflexivity|]. cbn [visit]. change (it_childcount own_child 0) with (@Ok Z 1). cbn [rbind]. change (Z.to_nat 1) with 1%nat. cbn [each_kid].
  change (kid_at own_child 0 0) with (@Ok Z 0). cbn [rbind]. unfold int_ok. destruct (int32b (d + 1)); [|right; reflexivity]. cbn [rbind rret]. destruct (IH (d + 1)) as [-> | ->]; [left|right]; reflexivity.
Qed.
