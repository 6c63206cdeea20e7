(** Traversals of documents. *)
From Coq Require Import Permutation.
From Verif Require Import Base Types Sort SymtabSpec Xb XbSpec XbWrite DocSpec NavSpec NavProofs DocExamples CheckSpec Walk WalkSpec WalkProofs BwKeysExamples WalkExamples.

(** C72: the client's function is called exactly for the items below the given one, each with its depth, parents before their children. *)
Theorem C72_before : forall m t fuel deep, laid m t -> (levels t <= fuel)%nat -> 0 <= deep -> deep + Z.of_nat (levels t) <= INT_MAX ->
  ForAllChildrenRecursively fuel m (Some (place t)) deep = rret (parents_first deep t).
Proof. exact visited. Qed.
Print Assumptions C72_before.
(** The other order: children before their parents; the calls are the same. *)
Theorem C72_after : forall m t fuel deep, laid m t -> (levels t <= fuel)%nat -> 0 <= deep -> deep + Z.of_nat (levels t) <= INT_MAX ->
  ForAllChildrenRecursively_PostOrder fuel m (Some (place t)) deep = rret (children_first deep t) /\ Permutation (parents_first deep t) (children_first deep t).
Proof. intros. split; [apply visited_post; assumption|apply same_visits]. Qed.
Print Assumptions C72_after.
(** Visited is what can be reached over children, and nothing else. *)
Theorem C72_all : forall m t deep y, laid m t -> (In y (map fst (parents_first deep t)) <-> exists z, child m (place t) z /\ reach m z y).
Proof. exact visited_all. Qed.
Print Assumptions C72_all.
(** With an array for the way: at each call it has the items from the start down to the current one, and nothing is written behind its end. *)
Theorem C72_ways_partial : forall m t fuel deep R, laid m t -> (levels t <= fuel)%nat -> 0 <= deep -> deep + Z.of_nat (levels t) <= INT_MAX -> zlen R = 1024 ->
  exists l R', ForAllChildrenRecursively_PostOrderA fuel m (Some (place t)) deep (Some R) = rret (l, Some R') /\ Forall2 (with_way deep) l (ways [place t] t) /\
    map (fun w => (fst w, deep + zlen (snd w) - 2)) (ways [place t] t) = children_first deep t.
Proof.
  intros m t fuel deep R L LV D0 DB ZR. destruct (visited_ways m t fuel deep R L LV D0 DB ZR) as (l & R' & E & F). exists l, R'. split; [exact E|]. split; [exact F|].
  rewrite <- (ways_order t deep [place t]). apply map_ext. intros w. f_equal. change (zlen [place t]) with 1. lia.
Qed.
Print Assumptions C72_ways_partial.
(** All this holds for every converted document: the names are met in the order of the source. *)
Theorem C72_converted : forall fl m filename modified root img k fuel, zlen m <= INT_MAX -> cstring filename -> document_fits root -> no_hex root -> Make_xb fl m filename modified root = rret img ->
  (depth root <= fuel)%nat -> Z.of_nat (depth root) <= INT_MAX ->
  exists R l, Initialize (S k) img = rret R /\ ForAllChildrenRecursively fuel img (rd_root R) 0 = rret l /\ Forall2 (fun e u => named img (rd_tags R) (fst e) (name_of u)) l (tl (elements root)).
Proof. exact converted_visits. Qed.
Print Assumptions C72_converted.
Theorem C72_converted_laid : forall fl m filename modified root img k, zlen m <= INT_MAX -> cstring filename -> document_fits root -> no_hex root -> Make_xb fl m filename modified root = rret img ->
  exists R it, Initialize (S k) img = rret R /\ rd_root R = Some (place it) /\ laid img it /\ levels it = depth root /\ same_items img (rd_tags R) it root.
Proof. exact converted_items. Qed.
Print Assumptions C72_converted_laid.
Example C72_converted_met : zlen (zrepeat 0 800) <= INT_MAX /\ cstring (lit "f.xml") /\ document_fits rack /\ no_hex rack /\ (exists img, Make_xb fl0 (zrepeat 0 800) (lit "f.xml") 0 rack = rret img) /\ (depth rack <= 9)%nat.
Proof. split; [vm_compute; discriminate|]. split; [apply cstringb_ok; reflexivity|]. split; [apply document_fitsb_ok; reflexivity|]. split; [exact rack_no_hex|]. split; [exact rack_made|vm_compute; lia]. Qed.
Example C72_met : exists m t, laid m t /\ (1 < levels t <= 9)%nat /\ 0 + Z.of_nat (levels t) <= INT_MAX /\ zlen (zrepeat 0 1024) = 1024.
Proof.
  destruct C72_converted_met as (H1 & H2 & H3 & H4 & (img & H5) & H6). destruct (C72_converted_laid fl0 _ _ _ _ _ 0 H1 H2 H3 H4 H5) as (R & it & _ & _ & L & LV & _). exists img, it. split; [exact L|]. rewrite LV. split; [vm_compute; lia|]. split; [vm_compute; discriminate|reflexivity].
Qed.
(** Items more than 1024 levels down are not in the array: the item at 16 is given without its parent at 0. *)
Theorem C72_deep_refuted : laid two_items (At 0 [At 16 []]) /\ ForAllChildrenRecursively_PostOrderA 2 two_items (Some 0) 1024 (Some (zrepeat (-1) 1024)) = rret ([(16, 1024, Some (zrepeat (-1) 1024))], Some (zrepeat (-1) 1024)).
Proof. exact two_items_deep. Qed.
Print Assumptions C72_deep_refuted.
(** An item that is its own child is visited for ever: the recursion never ends, unless the depth overflows. *)
Theorem C72_cycle_refuted : forall fuel, ForAllChildrenRecursively fuel own_child (Some 0) 0 = None \/ ForAllChildrenRecursively fuel own_child (Some 0) 0 = rub.
Proof. exact own_child_endless. Qed.
Print Assumptions C72_cycle_refuted.
