(** Making elements: what it does to the pool. *)
From Verif Require Import Base BaseFacts Types ListFacts SizeProofs Sort Xb XbSpec XbFacts XbWrite WriteProofs Bw BwFacts BwRing BwSpec BwHist BwAlloc BwProofs BwRead BwTop BwSym BwReg BwFileSpec BwFileProofs BwNamesSpec BwNamesFacts BwNamesInv BwNamesReg BwNamesOps BwNamesIndex BwNamesProofs BwLifeSpec BwLife BwOnly JsonSource BwSet BwNamesTop BwAttr BwAttrSpec BwAttrProofs BwAttrTop BwTag BwTagSpec BwTagProofs.

Lemma tags_few k s m T P F : life k s m T P F -> zlen T <= 128.
Proof. intro LI. apply life_whole in LI as (B & a & I & _). destruct (inv_known _ _ _ _ _ _ _ I) as [_ H]. exact H. Qed.
Lemma made_type c ty t : In (ty, t) (tag_types c) -> 0 <= t < 256.
Proof. destruct c; cbn [tag_types map In]; intro I; repeat (destruct I as [E|I]; [injection E as <- <-; split; (discriminate || reflexivity)|]); destruct I. Qed.
Lemma done_symbol k s m T P F i t x m' nm ty : tag_done k s m T P F (Z.of_nat i) t x m' -> rd m' TAGS 32 = rd m TAGS 32 -> 92 <= zlen m -> t_index m TAGS <> Ok 0 -> nth_error T i = Some (nm, ty) ->
  getSymbolType m' x = Ok ty /\ t_index m' PARAMS = t_index m PARAMS /\ t_index m' TAGS = t_index m TAGS.
Proof.
  intros (k' & s' & LI' & AG & NI & KN & EN & _ & SD) TG ZL IX NP. assert (TI : t_index m' PARAMS = t_index m PARAMS /\ t_index m' TAGS = t_index m TAGS) by (unfold t_index, rd_s32; rewrite !(rd_within m m' TAGS 32) by (auto; unfold TAGS, PARAMS; lia); auto).
  split; [|exact TI]. destruct TI as [_ TI]. apply life_whole in LI' as (B & a & I & (h & a2 & PL & RP & SH) & _). assert (IN : In x (members ((None, [x]) :: F))) by (left; reflexivity).
  unfold getSymbolType. rewrite (rep_off _ _ _ RP x IN). cbn [obind]. rewrite Z.eqb_refl. cbn [negb]. destruct (pl_kind _ _ _ _ _ PL x IN) as (f & -> & KF). cbn [obind]. rewrite EN. cbn [obind]. rewrite KF, KN.
  apply (tag_type m' T P B a i nm ty I); [congruence|exact NP].
Qed.
Lemma tag_makes c k s m T P F i nm ty t disk r m' : life k s m T P F -> nth_error T i = Some (nm, ty) -> t_index m TAGS <> Ok 0 -> tag_args c -> In (ty, t) (tag_types c) ->
  tag_run c disk m (Z.of_nat i) = Ok (r, m') ->
  r = None /\ life k s m' T P F /\ (forall e, In e (members F) -> rd m' e (s e) = rd m e (s e)) \/
  exists x data content, r = Some x /\ tag_done k s m T P F (Z.of_nat i) t x m' /\ bw_getData m' x = Ok (t, data, content) /\ tag_content c t content /\ tag_getter c ty m' x /\ t_index m' PARAMS = t_index m PARAMS /\ t_index m' TAGS = t_index m TAGS.
Proof.
  intros LI NT IX AR TT E. destruct (tshape_of c ty t disk m (Z.of_nat i) TT AR) as (n & d & bs & z & R & SZ & Z0 & VZ & _ & _ & D & BS & ST). pose proof (life_whole _ _ _ _ _ _ LI) as (B & a & I & _). destruct (tag_type m T P B a i nm ty I IX NT) as [GT TY]. rewrite (R GT) in E.
  destruct (pool_short _ _ _ _ _ _ LI) as [ZL _]. pose proof (tags_few _ _ _ _ _ _ LI) as T128. assert (IL : (i < List.length T)%nat) by (apply nth_error_Some; congruence). pose proof (made_type _ _ _ TT) as TB.
  destruct (make_ok k s m T P F disk (Z.of_nat i) t _ n z d bs r m' LI TB SZ D BS ltac:(unfold zlen in *; lia) E) as [H|(x & -> & TD & XV & TG & XS & _ & X0 & XL)]; [left; exact H|right].
  destruct (done_symbol _ _ _ _ _ _ _ _ _ _ _ _ TD TG ZL IX NT) as (SY & T1 & T2). assert (ET : el_type m' x = Ok t) by (destruct TD as (? & ? & ? & ? & ? & ? & ? & ? & ?); assumption). destruct (ST m' x ET XV XS X0 XL) as (data & content & GD & TC).
  exists x, data, content. split; [reflexivity|]. split; [exact TD|]. split; [exact GD|]. split; [exact TC|]. split; [eapply tag_gets; eauto|]. auto.
Qed.
(** With enough room it succeeds. *)
Lemma tag_succeeds c k s m T P F i nm ty t a M : life k s m T P F -> nth_error T i = Some (nm, ty) -> t_index m TAGS <> Ok 0 -> tag_args c -> In (ty, t) (tag_types c) ->
  bytes m -> p_allocator m = Ok a -> p_mmap_size m = Ok M -> a + 4095 + tag_space c <= M -> exists x m', tag_run c true m (Z.of_nat i) = Ok (Some x, m').
Proof.
  intros LI NT IX AR TT BM PA MM RO. destruct (tshape_of c ty t true m (Z.of_nat i) TT AR) as (n & d & bs & z & R & SZ & Z0 & VZ & ZE & SE & D & BS & _). pose proof (life_whole _ _ _ _ _ _ LI) as (B & a' & I & _). destruct (tag_type m T P B a' i nm ty I IX NT) as [GT TY]. rewrite (R GT).
  destruct (names_pool _ _ _ _ _ _ _ I) as [PO _]. assert (a' = a) as -> by (destruct PO as (A & _); congruence). apply (make_some m a M _ _ _ n z d bs); auto; unfold BW2_INITIAL_FILE_SIZE; lia.
Qed.
(** Other types are refused, but for tag() and numbers of names for anything. *)
Lemma tag_refuses c k s m T P F i nm ty disk : life k s m T P F -> nth_error T i = Some (nm, ty) -> t_index m TAGS <> Ok 0 -> tag_args c -> (forall t, ~ In (ty, t) (tag_types c)) -> c <> TNone -> (forall v, c = TInt32 v -> ty <> XBT_VARIANT) ->
  tag_run c disk m (Z.of_nat i) = Ok (None, m).
Proof.
  intros LI NT IX AR TT N1 N2. pose proof (life_whole _ _ _ _ _ _ LI) as (B & a & I & _). destruct (tag_type m T P B a i nm ty I IX NT) as [GT TY].
  assert (OV : forall t, (forall u, ~ In (ty, u) [(t, t); (XBT_VARIANT, t)]) -> or_variant t ty = None).
  { intros t H. unfold or_variant. destruct (Z.eqb_spec ty t) as [->|]; [exfalso; apply (H t); left; reflexivity|]. destruct (Z.eqb_spec ty XBT_VARIANT) as [->|]; [exfalso; apply (H t); right; left; reflexivity|]. reflexivity. }
  assert (JU : forall t, (forall u, ~ In (ty, u) [(t, t)]) -> just t ty = None).
  { intros t H. unfold just. destruct (Z.eqb_spec ty t) as [->|]; [exfalso; apply (H t); left; reflexivity|]. reflexivity. }
  destruct c; try congruence; cbn [tag_run tag_types tag_args] in *; unfold bw_tagStr, bw_tagBLOB, bw_tagHEX, bw_tagVar, bw_tagInt32, bw_tagInt64, bw_tagFloat, bw_tagGUID, bw_tagSHA1, bw_tagTime, bw_tagTime64, tag_; try (rewrite GT; cbn [obind]; rewrite ?OV, ?JU by exact TT; reflexivity).
  - rewrite GT. cbn [obind]. destruct (Z.eqb_spec ty XBT_BLOB_STRING) as [->|]; [exfalso; apply (TT XBT_BLOB_STRING); right; right; left; reflexivity|]. rewrite OV; [reflexivity|]. intros u [E|[E|[]]]; injection E as E <-; apply (TT XBT_STRING); rewrite <- E; [left|right; left]; reflexivity.
  - rewrite GT. cbn [obind]. replace (ty =? XBT_VARIANT) with false by (symmetry; apply Z.eqb_neq; apply (N2 v eq_refl)). destruct (XBT_IS_4 ty) eqn:I4; [|reflexivity]. exfalso. apply (TT ty). apply in_map_iff. exists ty. split; [reflexivity|]. unfold XBT_IS_4, isin in I4. apply existsb_exists in I4 as (y & J & Q). apply Z.eqb_eq in Q. subst y. exact J.
  - destruct AR as [_ L]. destruct (rd_some v 0 16) as [bs ->]; [lia..|]. cbn [obind]. rewrite GT. cbn [obind]. rewrite JU by exact TT. reflexivity.
  - destruct AR as [_ L]. destruct (rd_some v 0 20) as [bs ->]; [lia..|]. cbn [obind]. rewrite GT. cbn [obind]. rewrite JU by exact TT. reflexivity.
Qed.
(** Numbers of 32 bits for names of any type are never stored. *)
Lemma tag_variant v k s m T P F i nm disk r m' : life k s m T P F -> nth_error T i = Some (nm, XBT_VARIANT) -> t_index m TAGS <> Ok 0 -> tag_run (TInt32 v) disk m (Z.of_nat i) = Ok (r, m') -> r = None.
Proof.
  intros LI NT IX E. pose proof (life_whole _ _ _ _ _ _ LI) as (B & a & I & _). destruct (tag_type m T P B a i nm _ I IX NT) as [GT TY]. cbn [tag_run] in E. unfold bw_tagInt32, tag_ in E. rewrite GT in E. cbn [obind] in E. change (XBT_IS_4 XBT_VARIANT || (XBT_VARIANT =? XBT_VARIANT)) with true in E. cbv iota beta in E.
  unfold make in E. apply int_inv in E as [_ E]. apply obind_inv in E as ([ok m1] & SP & E). destruct ok; cbn [negb] in E; [|congruence]. assert (FN : fresh disk m1 (Z.of_nat i) XBT_VARIANT 0 ELEMENT = Ok (@None Z, m1)) by reflexivity. rewrite FN in E. cbn [obind] in E. congruence.
Qed.
(** A time for such a name is stored, and not delivered. *)
Lemma tag_time v k s m T P F i nm disk x m' : life k s m T P F -> nth_error T i = Some (nm, XBT_VARIANT) -> t_index m TAGS <> Ok 0 -> tag_run (TTime v) disk m (Z.of_nat i) = Ok (Some x, m') -> el_type m' x = Ok XBT_UNIX_TIME /\ bw_getTime m' x = Ok None.
Proof.
  intros LI NT IX E. destruct (pool_short _ _ _ _ _ _ LI) as [ZL _]. pose proof (tags_few _ _ _ _ _ _ LI) as T128. assert (IL : (i < List.length T)%nat) by (apply nth_error_Some; congruence).
  pose proof (life_whole _ _ _ _ _ _ LI) as (B & a & I & _). destruct (tag_type m T P B a i nm _ I IX NT) as [GT TY]. cbn [tag_run] in E. unfold bw_tagTime, tag_ in E. rewrite GT in E. cbn [obind] in E. change (or_variant XBT_UNIX_TIME XBT_VARIANT) with (Some XBT_UNIX_TIME) in E. cbv iota beta in E.
  assert (ID : -32768 <= Z.of_nat i < 32768) by (unfold zlen in *; lia). assert (T0 : 0 <= XBT_UNIX_TIME < 256) by (split; [discriminate|reflexivity]).
  destruct (make_ok k s m T P F disk (Z.of_nat i) XBT_UNIX_TIME 4 0 4 24 (le 4 v) (Some x) m' LI T0 eq_refl ltac:(lia) ltac:(change (zlen (le 4 v)) with 4; lia) ID E) as [(Q & _)|(y & Q & TD & _ & TG & _)]; [discriminate|]. injection Q as <-.
  destruct (done_symbol _ _ _ _ _ _ _ _ _ _ _ _ TD TG ZL IX NT) as (SY & _). split; [destruct TD as (? & ? & ? & ? & ? & ? & ? & ? & ?); assumption|]. unfold bw_getTime. rewrite SY. reflexivity.
Qed.
