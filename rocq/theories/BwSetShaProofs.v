(** Proofs about setting a child that is a SHA-1. *)
From Verif Require Import Base BaseFacts Types ListFacts Sort Xb XbSpec XbFacts XbWrite WriteProofs Bw BwFacts BwRing BwSpec BwHist BwAlloc BwProofs BwRead BwTop BwSym BwReg BwFileSpec BwFileProofs BwNamesSpec BwNamesFacts BwNamesInv BwNamesReg BwNamesOps BwNamesIndex BwNamesProofs BwLifeSpec BwLife BwOnly JsonSource BwSet BwSetSha.

Lemma set_sha1 k s m T P F p L i nm v fuel disk t m' : life k s m T P F -> In p (members F) -> owned F p true L -> (forall e, In e L -> k e = true) ->
  nth_error T i = Some (nm, XBT_SHA1) -> t_index m TAGS <> Ok 0 -> zlen v = 20 -> (List.length L <= fuel)%nat ->
  tagSetSHA1 fuel disk m p (Z.of_nat i) (Some v) = rret (Some t, m') ->
  set_done k s m T P F p L (Z.of_nat i) t t 20 m' /\ t_index m' TAGS = t_index m TAGS /\ el_type m' t = Ok XBT_SHA1 /\ rd m' (t + 24) 20 = Ok v /\
  forall fuel', (List.length L < fuel')%nat -> tagGet fuel' m' p (Z.of_nat i) = rret (Some t).
Proof.
  intros LI IP OW KK NT IX LV FU E. destruct (set_ready _ _ _ _ _ _ _ _ _ _ _ LI IP OW IX NT) as (GT & TY & IB & RD). specialize (RD fuel FU).
  assert (RV : rd v 0 20 = Ok v). { unfold rd. rewrite LV. change ((0 <=? 0) && (0 + 20 <=? 20)) with true. cbv iota. f_equal. unfold slice, ztake, zskip. cbn [skipn Z.to_nat]. apply firstn_all2. unfold zlen in LV. lia. }
  assert (FIN : forall n, n = t -> set_done k s m T P F p L (Z.of_nat i) t n (zlen v) m' -> el_type m' n = Ok XBT_SHA1 -> rd m' (n + 24) (zlen v) = Ok v -> el_id m' n = Ok (Z.of_nat i) -> rd m' TAGS 16 = rd m TAGS 16 ->
    set_done k s m T P F p L (Z.of_nat i) t t 20 m' /\ t_index m' TAGS = t_index m TAGS /\ el_type m' t = Ok XBT_SHA1 /\ rd m' (t + 24) 20 = Ok v /\ forall fuel', (List.length L < fuel')%nat -> tagGet fuel' m' p (Z.of_nat i) = rret (Some t)).
  { intros n -> SD ET VV EN TG. rewrite LV in *. destruct (set_found _ _ _ _ _ _ _ _ _ _ _ _ _ LI OW SD EN TG) as (FO & _ & TI). auto. }
  unfold tagSetSHA1 in E. destruct RD as [(NO & TA)|(l1 & t0 & l2 & EL & ET & NO & TA)]; rewrite TA, rbind_rret in E; apply some_outcome in E.
  - rewrite RV in E. cbn [obind] in E. apply obind_inv in E as ([x m1] & PT & E). unfold pool_tagSHA1 in PT. rewrite GT in PT. cbn [obind] in PT. rewrite Z.eqb_refl in PT. cbn [negb] in PT. destruct x as [x|]; [|discriminate].
    destruct (set_adds k s m T P F p L (Z.of_nat i) disk XBT_SHA1 0 24 v x m1 (Some t) m' LI IP OW NO PT TY eq_refl) as (EX & SD & ET & VV & EN & TG); [rewrite LV; lia|lia|exact E|]. injection EX as ->. apply (FIN x); auto.
  - apply obind_inv in E as (et & TE & E). subst L. destruct (Z.eqb_spec et XBT_SHA1) as [->|NE]; [|discriminate]. cbn [negb] in E. rewrite RV in E. cbn [obind] in E.
    apply obind_inv in E as (m1 & W & E). injection E as -> ->. assert (IT : In t (members F)) by (eapply owned_in; [exact OW|apply in_or_app; right; left; reflexivity]).
    pose proof (life_whole _ _ _ _ _ _ LI) as (_ & _ & _ & _ & _ & SZ). destruct (SZ t IT) as (ty' & n' & z & T1 & _ & T2 & T3 & T4). rewrite TE in T1. injection T1 as <-. assert (z = 24). { revert T2. unfold XBT_Size2. cbn. destruct ((n' =? 0) || (n' =? 20)); intro Q; injection Q as <-; lia. }
    destruct (set_in_place k s m T P F p l1 t l2 (Z.of_nat i) v m' LI OW (KK t (in_elt t l1 l2)) ET NO ltac:(rewrite LV; lia) W) as (SD & TT & VV & EN & TG). rewrite TE in TT. apply (FIN t); auto.
Qed.

(** Null clears the value of a child that is there. *)
Lemma clear_sha1 k s m T P F p l1 t l2 id fuel disk r m' : life k s m T P F -> In p (members F) -> owned F p true (l1 ++ t :: l2) -> (forall e, In e (l1 ++ t :: l2) -> k e = true) -> (List.length (l1 ++ t :: l2) <= fuel)%nat ->
  el_id m t = Ok id -> (forall e, In e l1 -> el_id m e <> Ok id) -> tagSetSHA1 fuel disk m p id None = rret (Some r, m') -> r = t /\ set_done k s m T P F p (l1 ++ t :: l2) id t t 20 m' /\ rd m' (t + 24) 20 = Ok (zrepeat 0 20).
Proof.
  intros LI IP OW KK FU ET NO E. pose proof (life_whole _ _ _ _ _ _ LI) as W. assert (BI : BwProofs.inv k s m F) by (destruct W as (B & a & I & BI & _); exact BI).
  assert (SH : shows m p (l1 ++ t :: l2)) by (eapply inv_shows; eauto).
  assert (HI : forall e, In e (l1 ++ t :: l2) -> has_id m e) by (intros e J; eapply inv_has_id; [exact BI|eapply owned_in; eauto]).
  unfold tagSetSHA1 in E. rewrite (tagGet_found m p l1 t l2 id fuel SH HI ET NO FU), rbind_rret in E. apply some_outcome in E.
  apply obind_inv in E as (et & TE & E). destruct (Z.eqb_spec et XBT_SHA1) as [->|NE]; [|discriminate]. cbn [negb obind] in E.
  apply obind_inv in E as (m1 & Wm & E). injection E as <- <-. assert (IT : In t (members F)) by (eapply owned_in; [exact OW|apply in_or_app; right; left; reflexivity]).
  pose proof W as (_ & _ & _ & _ & _ & SZ). destruct (SZ t IT) as (ty' & n' & z & T1 & _ & T2 & T3 & T4). rewrite TE in T1. injection T1 as <-. assert (z = 24). { revert T2. unfold XBT_Size2. cbn. destruct ((n' =? 0) || (n' =? 20)); intro Q; injection Q as <-; lia. }
  destruct (set_in_place k s m T P F p l1 t l2 id (zrepeat 0 20) m1 LI OW (KK t (in_elt t l1 l2)) ET NO ltac:(change (zlen (zrepeat 0 20)) with 20; lia) Wm) as (SD & TT & VV & EN & TG). auto.
Qed.

(** Null for a child that is not there yet: the null pointer is read. *)
Lemma null_sha1 k s m T P F p L i nm fuel disk m1 x : life k s m T P F -> In p (members F) -> owned F p true L -> nth_error T i = Some (nm, XBT_SHA1) -> t_index m TAGS <> Ok 0 -> (List.length L <= fuel)%nat ->
  (forall e, In e L -> el_id m e <> Ok (Z.of_nat i)) -> pool_tagSHA1 disk m (Z.of_nat i) (zrepeat 0 20) = Ok (Some x, m1) -> tagSetSHA1 fuel disk m p (Z.of_nat i) None = Some Ub.
Proof.
  intros LI IP OW NT IX FU NO PT. destruct (set_ready _ _ _ _ _ _ _ _ _ _ _ LI IP OW IX NT) as (GT & TY & IB & RD). specialize (RD fuel FU).
  destruct RD as [(_ & TA)|(l1 & t0 & l2 & EL & ET & _ & _)]; [|exfalso; subst L; apply (NO t0); [apply in_elt|exact ET]].
  unfold tagSetSHA1. rewrite TA, rbind_rret. rewrite PT. reflexivity.
Qed.

(** Unsigned and floating tags accept tagSetInt64, but getInt64 does not read them. *)
Lemma long_unread k s m T P F p L i nm ty v fuel disk t m' : life k s m T P F -> In p (members F) -> owned F p true L -> (forall e, In e L -> el_id m e <> Ok (Z.of_nat i)) ->
  nth_error T i = Some (nm, ty) -> ty = XBT_UINT64 \/ ty = XBT_DOUBLE -> t_index m TAGS <> Ok 0 -> (List.length L <= fuel)%nat ->
  tagSetInt64 fuel disk m p (Z.of_nat i) v = rret (Some t, m') ->
  set_done k s m T P F p L (Z.of_nat i) t t 8 m' /\ rd m' (t + 24) 8 = Ok (le 8 v) /\ bw_getInt64 m' t = Ok None.
Proof.
  intros LI IP OW NO NT TT IX FU E. destruct (set_ready _ _ _ _ _ _ _ _ _ _ _ LI IP OW IX NT) as (GT & TY & IB & RD). specialize (RD fuel FU). assert (I8 : XBT_IS_8 ty = true) by (destruct TT as [-> | ->]; reflexivity).
  destruct RD as [(_ & TA)|(l1 & t0 & l2 & EL & ET & _ & _)]; [|exfalso; subst L; apply (NO t0); [apply in_elt|exact ET]].
  unfold tagSetInt64 in E. rewrite TA, rbind_rret in E. apply some_outcome in E.
  apply obind_inv in E as ([x m1] & PT & E). unfold pool_tagInt64 in PT. rewrite GT in PT. cbn [obind] in PT. rewrite I8 in PT. cbn [negb] in PT. destruct x as [x|]; [|discriminate].
  destruct (set_adds k s m T P F p L (Z.of_nat i) disk ty 8 8 (le 8 v) x m1 (Some t) m' LI IP OW NO PT TY (size_8 _ I8)) as (EX & SD & ET & VV & EN & TG); [change (zlen (le 8 v)) with 8; lia|lia|exact E|]. injection EX as ->.
  change (zlen (le 8 v)) with 8 in *. split; [exact SD|]. split; [exact VV|].
  unfold bw_getInt64. rewrite (get_type _ _ _ _ _ _ _ _ _ _ _ _ _ _ _ _ LI OW SD EN TG IX NT eq_refl). cbn [obind]. rewrite ET. cbn [obind]. destruct TT as [-> | ->]; reflexivity.
Qed.
