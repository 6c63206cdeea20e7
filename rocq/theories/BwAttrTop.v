(** Adding attributes: what it does to the pool. *)
From Verif Require Import Base BaseFacts Types ListFacts Sort Xb XbSpec XbFacts XbWrite WriteProofs Bw BwFacts BwRing BwSpec BwHist BwAlloc BwProofs BwRead BwTop BwSym BwReg BwFileSpec BwFileProofs BwNamesSpec BwNamesFacts BwNamesInv BwNamesReg BwNamesOps BwNamesIndex BwNamesProofs BwLifeSpec BwLife BwOnly JsonSource BwSet BwNamesTop BwAttr BwAttrSpec BwAttrProofs.

Lemma attr_ids k s m T P F p A : life k s m T P F -> owned F p false A -> forall e, In e A -> has_id m e.
Proof. intros LI OW e I. apply life_whole in LI as (B & a & _ & EL & _). eapply inv_has_id; [exact EL|]. eapply owned_in; eauto. Qed.
Lemma attr_finds k s m T P F p A i fuel : life k s m T P F -> In p (members F) -> owned F p false A -> (List.length A <= fuel)%nat ->
  (forall l1 t l2, A = l1 ++ t :: l2 -> el_id m t = Ok i -> (forall e, In e l1 -> el_id m e <> Ok i) -> attrGet fuel m p i = rret (Some t)) /\
  ((forall e, In e A -> el_id m e <> Ok i) -> attrGet fuel m p i = rret None).
Proof.
  intros LI IP OW FU. pose proof (attr_ids _ _ _ _ _ _ _ _ LI OW) as HI. apply life_whole in LI as (B & a & _ & EL & _). pose proof (inv_lists _ _ _ _ _ _ EL IP OW) as LS. split.
  - intros l1 t l2 -> ET NO. apply (get_found m p (p + 20) l1 t l2); auto.
  - intro NO. apply (get_none m p (p + 20) A); auto.
Qed.
(** The new last attribute *)
Lemma done_found k s m T P F p A i n m' : In p (members F) -> owned F p false A -> attr_done k s m T P F p A i n m' -> forall fuel, (List.length A < fuel)%nat ->
  ((forall e, In e A -> el_id m e <> Ok i) -> attrGet fuel m' p i = rret (Some n)) /\
  (forall l1 t l2, A = l1 ++ t :: l2 -> el_id m t = Ok i -> (forall e, In e l1 -> el_id m e <> Ok i) -> attrGet fuel m' p i = rret (Some t)).
Proof.
  intros IP OW (k' & s' & F' & LI' & AG & OW' & NI & KN & EN & SD & OT) fuel FU.
  assert (SI : forall e, In e A -> el_id m' e = el_id m e) by (intros e I; apply SD; eapply owned_in; eauto).
  assert (IP' : In p (members F')). { apply life_whole in LI' as (B & a & _ & (h & a2 & PL & RP & SH) & _). destruct OW' as [O|[E _]]; [|destruct A; discriminate]. apply (sh_head _ _ SH p false _ O). }
  assert (FU' : (List.length (A ++ [n]) <= fuel)%nat) by (rewrite app_length; cbn [List.length]; lia). destruct (attr_finds _ _ _ _ _ _ _ _ i fuel LI' IP' OW' FU') as [FO _]. split.
  - intro NO. apply (FO A n []); [reflexivity|exact EN|]. intros e I. rewrite (SI e I). apply NO, I.
  - intros l1 t l2 -> ET NO. apply (FO l1 t (l2 ++ [n])); [rewrite <- app_assoc; reflexivity| |].
    + rewrite SI; [exact ET|]. apply in_or_app. right. left. reflexivity.
    + intros e I. rewrite SI; [apply NO, I|]. apply in_or_app. left. exact I.
Qed.
Lemma done_type k s m T P F p A i n m' nm ty : attr_done k s m T P F p A (Z.of_nat i) n m' -> rd m' TAGS 32 = rd m TAGS 32 -> 92 <= zlen m -> t_index m PARAMS <> Ok 0 -> nth_error P i = Some (nm, ty) ->
  getSymbolType m' n = Ok ty /\ t_index m' PARAMS = t_index m PARAMS /\ t_index m' TAGS = t_index m TAGS.
Proof.
  intros (k' & s' & F' & LI' & AG & OW' & NI & KN & EN & SD & OT) TG ZL IX NP. assert (TI : t_index m' PARAMS = t_index m PARAMS /\ t_index m' TAGS = t_index m TAGS) by (unfold t_index, rd_s32; rewrite !(rd_within m m' TAGS 32) by (auto; unfold TAGS, PARAMS; lia); auto).
  split; [|exact TI]. destruct TI as [TI _]. apply life_whole in LI' as (B & a & I & (h & a2 & PL & RP & SH) & _). assert (IN : In n (members F')) by (destruct OW' as [O|[E _]]; [|destruct A; discriminate]; eapply members_in; [exact O|apply in_or_app; right; left; reflexivity]).
  unfold getSymbolType. rewrite (rep_off _ _ _ RP n IN). cbn [obind]. rewrite Z.eqb_refl. cbn [negb]. destruct (pl_kind _ _ _ _ _ PL n IN) as (f & -> & KF). cbn [obind]. rewrite EN. cbn [obind]. rewrite KF, KN.
  apply (param_type m' T P B a i nm ty I); [congruence|exact NP].
Qed.
Lemma pool_short k s m T P F : life k s m T P F -> 92 <= zlen m /\ zlen P <= 128.
Proof.
  intro LI. split; [|exact (attr_known _ _ _ _ _ _ LI)]. apply life_whole in LI as (B & a & I & _). destruct (names_pool _ _ _ _ _ _ _ I) as [PO _]. pose proof PO as (_ & _ & _ & _ & BB & _). unfold HEADER in BB. lia.
Qed.
Lemma ok_third {A B C} (a a' : A) (b b' : B) (c c' : C) : Ok (a, b, c) = Ok (a', b', c') -> c = c'.
Proof. congruence. Qed.
Lemma getters c ty m n data : getSymbolType m n = Ok ty -> In ty (attr_types c) -> attr_args c -> el_type m n = Ok ty -> bw_getData m n = Ok (ty, data, attr_value c) -> attr_getter c m n.
Proof.
  intros ST I AR ET GD. destruct c; cbn [attr_getter attr_types attr_args attr_value] in *; auto; cbn [In] in I; try match type of I with _ \/ False => destruct I as [<-|[]] end; unfold bw_getData in GD; rewrite ET in GD; cbn [obind] in GD.
  - unfold bw_getStr. rewrite ET. cbn [obind]. change (XBT_STRING =? XBT_STRING) with true in *. cbv iota in *. apply obind_inv in GD as (s & RS & GD). rewrite RS. cbn [obind]. injection GD as _ GD. apply app_inj_tail in GD as [-> _]. rewrite cstr_id by auto. reflexivity.
  - unfold bw_getStr. rewrite ET. cbn [obind]. change (XBT_STRING =? XBT_STRING) with true in *. cbv iota in *. apply obind_inv in GD as (s & RS & GD). rewrite RS. cbn [obind]. injection GD as _ GD. apply app_inj_tail in GD as [-> _]. reflexivity.
  - intro IV. unfold bw_getInt32. rewrite ST. cbn [obind]. change (XBT_IS_4 XBT_INT32) with true in *. change (XBT_INT32 =? XBT_STRING) with false in GD. cbv iota in *. apply obind_inv in GD as (b & RB & GD). apply ok_third in GD. subst b. unfold rd_s32. rewrite RB. cbn [obind]. rewrite s32_le by exact IV. reflexivity.
  - intro IV. unfold bw_getInt32. rewrite ST. cbn [obind]. change (XBT_IS_4 XBT_UINT32) with true in *. change (XBT_UINT32 =? XBT_STRING) with false in GD. cbv iota in *. apply obind_inv in GD as (b & RB & GD). apply ok_third in GD. subst b. unfold rd_s32. rewrite RB. cbn [obind]. rewrite unle_le_small by (cbn; lia). reflexivity.
  - unfold bw_getFloat, bw_get. rewrite ST. cbn [obind]. change (XBT_FLOAT =? XBT_FLOAT) with true. change (XBT_IS_4 XBT_FLOAT) with true in *. change (XBT_FLOAT =? XBT_STRING) with false in GD. cbv iota in *. apply obind_inv in GD as (b & RB & GD). apply ok_third in GD. subst b. rewrite RB. reflexivity.
  - intros IV TT. specialize (TT ty ET). unfold bw_getInt64. rewrite ST, ET. cbn [obind]. assert (RB : rd m (n + 24) 8 = Ok (le 8 v)). { destruct TT as [-> | ->]; apply obind_inv in GD as (b & RB & GD); apply ok_third in GD; subst b; exact RB. }
    rewrite RB. cbn [obind]. rewrite s64_le by exact IV. destruct TT as [-> | ->]; reflexivity.
  - unfold bw_getUInt64, bw_get. rewrite ST. cbn [obind]. change (XBT_UINT64 =? XBT_UINT64) with true. cbv iota. apply obind_inv in GD as (b & RB & GD). apply ok_third in GD. subst b. change (XBT_FIXEDSIZE XBT_UINT64) with 8 in RB. rewrite RB. reflexivity.
  - intros IV _. unfold bw_getInt64. rewrite ST, ET. cbn [obind]. apply obind_inv in GD as (b & RB & GD). apply ok_third in GD. subst b. change (XBT_FIXEDSIZE XBT_UNIX_TIME64_MSEC) with 8 in RB. rewrite RB. cbn [obind]. rewrite s64_le by exact IV. reflexivity.
  - unfold bw_getGUID, bw_get. rewrite ST. cbn [obind]. change (XBT_GUID =? XBT_GUID) with true. cbv iota. apply obind_inv in GD as (b & RB & GD). apply ok_third in GD. subst b. change (XBT_FIXEDSIZE XBT_GUID) with 16 in RB. rewrite RB. reflexivity.
Qed.
Lemma attr_adds c k s m T P F p A i nm ty disk r m' : life k s m T P F -> In p (members F) -> owned F p false A -> nth_error P i = Some (nm, ty) -> t_index m PARAMS <> Ok 0 -> attr_args c -> In ty (attr_types c) ->
  attr_run c disk m p (Z.of_nat i) = Ok (r, m') ->
  r = None /\ life k s m' T P F /\ (forall e, In e (members F) -> rd m' e (s e) = rd m e (s e)) \/
  r = Some p /\ exists n data, attr_done k s m T P F p A (Z.of_nat i) n m' /\ bw_getData m' n = Ok (ty, data, attr_value c) /\ attr_getter c m' n /\ t_index m' PARAMS = t_index m PARAMS /\ t_index m' TAGS = t_index m TAGS /\
    forall fuel, (List.length A < fuel)%nat -> (forall e, In e A -> el_id m e <> Ok (Z.of_nat i)) -> attrGet fuel m' p (Z.of_nat i) = rret (Some n).
Proof.
  intros LI IP OW NP IX AR TT E. destruct (shape_of c ty disk m p (Z.of_nat i) TT AR) as (wanted & n & d & bs & z & R & W & _ & SZ & D & BS & GD). rewrite R in E. destruct (pool_short _ _ _ _ _ _ LI) as [ZL P128]. assert (IL : (i < List.length P)%nat) by (apply nth_error_Some; congruence).
  pose proof (life_whole _ _ _ _ _ _ LI) as (B & a & I & _). destruct (param_type m T P B a i nm ty I IX NP) as [GT TY].
  destruct (attr_done_ok k s m T P F p A (Z.of_nat i) disk ty wanted n z bs d r m' LI IP OW GT W TY SZ D BS ltac:(unfold zlen in *; lia) E) as [(-> & L1 & KK & _)|(-> & x & AD & ET & XV & TG & XS & Z0 & X0 & XL)]; [left; auto|right]. split; [reflexivity|].
  destruct (GD m' x ET XV XS X0 XL) as [data DD]. exists x, data. destruct (done_type _ _ _ _ _ _ _ _ _ _ _ _ _ AD TG ZL IX NP) as (ST & T1 & T2). split; [exact AD|]. split; [exact DD|]. split; [eapply getters; eauto|]. split; [exact T1|]. split; [exact T2|].
  intros fuel FU NO. apply (done_found _ _ _ _ _ _ _ _ _ _ _ IP OW AD fuel FU), NO.
Qed.
(** An attribute with this name that is there already is the one that is found. *)
Lemma attr_hidden c k s m T P F p l1 t l2 i nm ty disk m' fuel : life k s m T P F -> In p (members F) -> owned F p false (l1 ++ t :: l2) -> nth_error P i = Some (nm, ty) -> t_index m PARAMS <> Ok 0 -> attr_args c -> In ty (attr_types c) ->
  el_id m t = Ok (Z.of_nat i) -> (forall e, In e l1 -> el_id m e <> Ok (Z.of_nat i)) -> attr_run c disk m p (Z.of_nat i) = Ok (Some p, m') -> (List.length (l1 ++ t :: l2) < fuel)%nat ->
  attrGet fuel m' p (Z.of_nat i) = rret (Some t) /\ same_data s m m' t.
Proof.
  intros LI IP OW NP IX AR TT ET NO E FU. destruct (attr_adds c k s m T P F p _ i nm ty disk _ m' LI IP OW NP IX AR TT E) as [(Q & _)|(_ & n & data & AD & _)]; [discriminate|]. split.
  - apply (done_found _ _ _ _ _ _ _ _ _ _ _ IP OW AD fuel FU) with (l1 := l1) (l2 := l2); auto.
  - destruct AD as (k' & s' & F' & _ & _ & _ & _ & _ & _ & SD & _). apply SD. eapply owned_in; [exact OW|]. apply in_or_app. right. left. reflexivity.
Qed.
Lemma attr_refuses c k s m T P F p i nm ty disk : life k s m T P F -> In p (members F) -> nth_error P i = Some (nm, ty) -> t_index m PARAMS <> Ok 0 -> attr_args c -> ~ In ty (attr_types c) ->
  attr_run c disk m p (Z.of_nat i) = Ok (None, m).
Proof.
  intros LI IP NP IX AR TT. pose proof (life_whole _ _ _ _ _ _ LI) as (B & a & I & (h & a2 & PL & RP & SH) & _). destruct (param_type m T P B a i nm ty I IX NP) as [GT TY]. apply (refused c ty); auto. apply (rep_off _ _ _ RP p IP).
Qed.
