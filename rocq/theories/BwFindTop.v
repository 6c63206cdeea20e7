(** Looking for a child or an attribute by its name. *)
From Verif Require Import Base Types Sort Xb XbWrite XbBin BinSpec Bw BwFacts BwRing BwSpec BwHist BwProofs BwNamesSpec BwLifeSpec BwLife BwSet BwFileProofs BwAttrProofs BwSourceProofs BwCopyTop BwKeysSpec BwFind BwFindSpec BwFindProofs.

Lemma first_ok m p fd L id fuel : lists m p fd L -> (forall e, In e L -> has_id m e) -> (List.length L <= fuel)%nat -> exists r, get_el fuel m p fd id = rret r /\ first_with (fun e => el_id m e = Ok id) L r.
Proof.
  intros LS HI FU. destruct (first_one m id L HI) as [NO|(l1 & t & l2 & -> & ET & NO)].
  - exists None. split; [apply (get_none m p fd L); auto|exact NO].
  - exists (Some t). split; [apply (get_found m p fd l1 t l2); auto|]. exists l1, l2. auto.
Qed.
Lemma named_ok k s m T P F x id fuel : life k s m T P F -> In x (members F) ->
  (forall L, owned F x true L -> (List.length L <= fuel)%nat -> exists r, findChildByTag fuel m x id = rret r /\ first_with (fun e => el_id m e = Ok id) L r) /\
  (forall A, owned F x false A -> (List.length A <= fuel)%nat -> exists r, findAttr fuel m x id = rret r /\ first_with (fun e => el_id m e = Ok id) A r).
Proof.
  intros LI IX. split; intros L OW FU; (eapply first_ok; [exact (list_of k s m T P F LI x _ L IX OW)| |exact FU]); intros e J; apply (id_of k s m T P F LI); exact (owned_members _ _ _ _ _ OW J).
Qed.
