(** Names and lists of a pool together. *)
From Verif Require Import Base BaseFacts Types ListFacts Sort Xb XbSpec XbFacts XbWrite WriteProofs Bw BwFacts BwRing BwSpec BwHist BwAlloc BwProofs BwRead BwTop BwSym BwReg BwNamesSpec BwNamesFacts BwNamesInv BwNamesReg BwNamesOps BwNamesIndex BwNamesProofs BwNamesTop BwLifeSpec BwLife BwOnly.

Lemma life_known k s m T P F : life k s m T P F -> known m TAGS T /\ known m PARAMS P /\ (zlen T <= 128 /\ zlen P <= 128) /\
  forall p L n, In p (members F) -> owned F p true L -> (List.length L < n)%nat -> forward n m p 0 = rret L /\ backward n m p 0 = rret (rev L).
Proof.
  intro LI. apply life_whole in LI as (B & a & I & EL & _). destruct (inv_known _ _ _ _ _ _ _ I) as [K1 L1]. apply inv_swap in I. destruct (inv_known _ _ _ _ _ _ _ I) as [K2 L2]. split; [exact K1|]. split; [exact K2|]. split; [auto|].
  intros p L n IP OW N. split; [apply forward_ok; [eapply inv_shows; eauto|exact N]|]. apply backward_ok; [eapply inv_shows_back; eauto|exact N].
Qed.
Lemma life_register k s m T P F fuel name type id m' : life k s m T P F -> proper name -> 0 <= type < 256 ->
  (place name T <> None \/ zlen T < 128) /\ registerTag fuel m name type = rret (id, m') \/ (place name P <> None \/ zlen P < 128) /\ registerParam fuel m name type = rret (id, m') ->
  forall e, In e (members F) -> rd m' e (s e) = rd m e (s e).
Proof.
  intros LI PS TY C e J. apply life_whole in LI as (B & a & I & EL & IB & _). destruct C as [[RM E]|[RM E]].
  - destruct (inv_register _ _ _ _ _ _ _ _ _ _ _ _ tags_first I PS TY RM E) as (_ & KK & _). apply KK, IB, J.
  - apply inv_swap in I. destruct (inv_register _ _ _ _ _ _ _ _ _ _ _ _ (two_swap _ _ tags_first) I PS TY RM E) as (_ & KK & _). apply KK, IB, J.
Qed.
Lemma life_indexed k s m T P F fuel disk check failures ok m' : life k s m T P F -> allRegistered fuel disk check failures m = rret (ok, m') -> forall e, In e (members F) -> rd m' e (s e) = rd m e (s e).
Proof. intros LI E e J. apply life_whole in LI as (B & a & I & EL & IB & _). destruct (inv_all _ _ _ _ _ _ _ _ _ _ _ I E) as (_ & _ & KK & _). apply KK, IB, J. Qed.
(** Replacing an only child *)
Lemma only_child_endless kind size m F p t x : built kind size m F -> In (Some (p, true), [t]) F -> In (None, [x]) F -> exists tr, replace m p t x = Ok (true, tr) /\ forall n, forward n (final m tr) p 0 = None.
Proof. intros B O N. apply built_inv in B. exact (only_endless kind size m F p t x B O N). Qed.
