(** Pools whose program is killed while it makes an element. *)
From Verif Require Import Base BaseFacts Types ListFacts Sort Xb XbSpec XbFacts XbWrite WriteProofs Bw BwFacts BwSpec BwHist BwAlloc BwSym BwFile BwReg BwFileSpec BwFileProofs BwNamesSpec BwNamesFacts BwNamesInv BwNamesReg BwNamesOps BwNamesIndex BwNamesProofs BwNamesTop BwLifeSpec BwLife BwTitle BwOpenProofs BwRegSteps BwRegKill BwRegAgree BwRegKillTop BwNewSteps BwNewKill JsonSource.

(** ** Making an element is the stores it is made of *)
Lemma allocate8_split m n r m' : allocate8 m n = Ok (r, m') -> exists tr, allocate8_steps m n = Ok (r, tr) /\ final m tr = m'.
Proof.
  unfold allocate8_steps, allocate8. destruct (n <=? 0); [intro E; injection E as <- <-; exists []; auto|]. intro E. apply obind_inv in E as (a & A & E). rewrite A. cbn [obind]. apply int_inv in E as [I E]. rewrite (int_intro _ _ I). cbv zeta in *. apply obind_inv in E as (m1 & W1 & E). rewrite W1. cbn [obind]. apply int_inv in E as [I1 E]. rewrite (int_intro _ _ I1). apply obind_inv in E as (l & LI & E). rewrite LI. cbn [obind]. apply int_inv in E as [I2 E]. rewrite (int_intro _ _ I2).
  destruct (l <? _); [injection E as <- <-; exists [m1]; auto|]. apply obind_inv in E as (m2 & W2 & E). apply obind_inv in E as (m3 & W3 & E). injection E as <- <-. apply wr_steps in W3 as (r & W3 & <-). unfold bytes_store, store. cbn [obind]. change (final m [m1]) with m1. rewrite W2. cbn [obind app]. change (final m [m1; m2]) with m2. rewrite W3. cbn [obind]. exists ([m1; m2] ++ r). split; [reflexivity|]. rewrite final_app. reflexivity.
Qed.
Lemma take_split e m n r m' : (if e : bool then allocate8 m n else allocate m n) = Ok (r, m') -> exists tr, take_steps e m n = Ok (r, tr) /\ final m tr = m'.
Proof. destruct e; [apply allocate8_split|apply allocate_split]. Qed.
Lemma space_split disk m n ok m' : makeSpace disk m n = Ok (ok, m') -> exists tr, makeSpace_steps disk m n = Ok (ok, tr) /\ final m tr = m'.
Proof.
  unfold makeSpace_steps, makeSpace. intro E. apply obind_inv in E as (a & A & E). rewrite A. cbn [obind]. apply int_inv in E as [I E]. rewrite (int_intro _ _ I). apply int_inv in E as [I1 E]. rewrite (int_intro _ _ I1). cbv zeta in *. apply obind_inv in E as (mm & MM & E). rewrite MM. cbn [obind]. destruct (mm <? _); [injection E as <- <-; exists []; auto|]. apply obind_inv in E as (fs & FS & E). rewrite FS. cbn [obind]. destruct (_ <=? fs); [injection E as <- <-; exists []; auto|]. destruct (negb disk); [injection E as <- <-; exists []; auto|].
  apply obind_inv in E as (m1 & W1 & E). apply obind_inv in E as (m2 & W2 & E). injection E as <- <-. unfold store. cbn [obind]. unfold final. cbn [last app]. rewrite W1. cbn [obind last app]. rewrite W2. cbn [obind app]. eexists. split; [reflexivity|]. reflexivity.
Qed.
Lemma store_to m tr p v m1 : wr32 (final m tr) p v = Ok m1 -> store m (Ok tr) p v = Ok (tr ++ [m1]) /\ final m (tr ++ [m1]) = m1.
Proof. intro W. unfold store. cbn [obind]. rewrite W. cbn [obind]. split; [reflexivity|]. rewrite final_app. reflexivity. Qed.
Lemma new_element_split disk m ty n r m' : new_element disk m ty n = Ok (r, m') -> exists tr, new_element_steps disk m ty n = Ok (r, tr) /\ final m tr = m'.
Proof.
  unfold new_element_steps, new_element. intro E. apply obind_inv in E as (s2 & S2 & E). rewrite S2. cbn [obind]. destruct (s2 <? 0); [injection E as <- <-; exists []; auto|]. apply int_inv in E as [I E]. rewrite (int_intro _ _ I). cbv zeta in *. apply obind_inv in E as ([x m1] & T & E). apply take_split in T as (tr1 & T & F1). rewrite T. cbn [obind]. apply obind_inv in E as ([y m2] & T2 & E).
  assert (G : exists tr2, match x with Some x => Ok (Some x, tr1) | None => obind (makeSpace_steps disk (final m tr1) (24 + s2)) (fun r => let '(ok, tr2) := r in if negb ok then Ok (None, tr1 ++ tr2) else obind (take_steps (XBT_Align ty =? 8) (final m (tr1 ++ tr2)) (24 + s2)) (fun r => let '(x, tr3) := r in Ok (x, (tr1 ++ tr2) ++ tr3))) end = Ok (y, tr2) /\ final m tr2 = m2).
  { destruct x as [x|]; [injection T2 as <- <-; exists tr1; auto|]. apply obind_inv in T2 as ([ok m3] & SP & T2). apply space_split in SP as (tr3 & SP & F3). rewrite F1, SP. cbn [obind]. destruct ok; cbn [negb]; [|injection T2 as <- <-; exists (tr1 ++ tr3); rewrite final_app, F1; auto]. apply take_split in T2 as (tr4 & T3 & F4). rewrite final_app, F1, F3, T3. cbn [obind]. exists ((tr1 ++ tr3) ++ tr4). split; [reflexivity|]. rewrite !final_app, F1, F3. exact F4. }
  destruct G as (tr2 & G & F2). rewrite G. cbn [obind]. destruct y as [y|]; [|injection E as <- <-; exists tr2; auto]. apply obind_inv in E as (m3 & W & E). apply wr_steps in W as (b & W & F3). unfold bytes_store at 1. cbn [obind]. rewrite F2, W. cbn [obind]. assert (F4 : final m (tr2 ++ b) = m3) by (rewrite final_app, F2; exact F3).
  apply obind_inv in E as (m4 & W1 & E). apply obind_inv in E as (m5 & W2 & E). apply obind_inv in E as (m6 & W3 & E). rewrite <- F4 in W1. apply store_to in W1 as [Q1 F5]. rewrite Q1. rewrite <- F5 in W2. apply store_to in W2 as [Q2 F6]. rewrite Q2. rewrite <- F6 in W3. apply store_to in W3 as [Q3 F7]. rewrite Q3. cbn [obind].
  apply obind_inv in E as (m7 & W4 & E). injection E as <- <-. destruct (XBT_IS_VARSIZE ty).
  - rewrite <- F7 in W4. apply store_to in W4 as [Q4 F8]. rewrite Q4. cbn [obind]. eexists. split; [reflexivity|exact F8].
  - injection W4 as <-. cbn [obind]. eexists. split; [reflexivity|exact F7].
Qed.
Lemma init_split m x id ty fl m' : init m x id ty fl = Ok m' -> exists tr, init_steps m x id ty fl = Ok tr /\ final m tr = m'.
Proof.
  intro E. assert (S : exists tr, init_steps m x id ty fl = Ok tr).
  { unfold init, init_steps in *. apply obind_inv in E as (b & R & E). rewrite R. cbn [obind]. destruct ((0 <? x) && (x + 24 <=? unle b)) eqn:C; [|discriminate]. assert (B : 0 < x /\ x + 24 <= zlen m).
    { split; [lia|]. destruct (wr_kept _ _ _ _ E) as (_ & Q & _). rewrite !zlen_app, !zlen_le4 in Q. replace (zlen (le 2 id)) with 2 in Q by (symmetry; apply le_zlen). change (zlen [fl; ty]) with 2 in Q. lia. }
    assert (ST : forall c p bs, zlen c = zlen m -> 0 <= p -> p + zlen bs <= zlen m -> exists c', wr c p bs = Ok c' /\ zlen c' = zlen m).
    { intros c p bs L P Q. destruct (wr_some c p bs P) as (c' & W); [lia|]. exists c'. split; [exact W|]. destruct (wr_kept _ _ _ _ W) as (_ & _ & [K _] & _). lia. }
    assert (L2 : zlen (le 2 id) = 2) by apply le_zlen.
    destruct (ST m x (le 4 x)) as (m1 & W1 & Z1); [lia|lia|rewrite zlen_le4; lia|]. destruct (ST m1 (x + 4) (le 2 id)) as (m2 & W2 & Z2); [lia|lia|lia|]. destruct (ST m2 (x + 7) [ty]) as (m3 & W3 & Z3); [lia|lia|change (zlen [ty]) with 1; lia|]. destruct (ST m3 (x + 6) [fl]) as (m4 & W4 & Z4); [lia|lia|change (zlen [fl]) with 1; lia|].
    destruct (ST m4 (x + 8) (le 4 x)) as (m5 & W5 & Z5); [lia|lia|rewrite zlen_le4; lia|]. destruct (ST m5 (x + 12) (le 4 x)) as (m6 & W6 & Z6); [lia|lia|rewrite zlen_le4; lia|]. destruct (ST m6 (x + 16) (le 4 0)) as (m7 & W7 & Z7); [lia|lia|rewrite zlen_le4; lia|]. destruct (ST m7 (x + 20) (le 4 0)) as (m8 & W8 & Z8); [lia|lia|rewrite zlen_le4; lia|].
    rewrite W1. cbn [obind]. rewrite W2. cbn [obind]. rewrite W3. cbn [obind]. rewrite W4. cbn [obind]. rewrite W5. cbn [obind]. rewrite W6. cbn [obind]. rewrite W7. cbn [obind]. rewrite W8. cbn [obind]. eauto. }
  destruct S as (tr & S). exists tr. split; [exact S|]. apply init_same in S. congruence.
Qed.
Lemma made_split disk m id ty n fl bs r m' : bs <> [] -> (fresh_with disk m id ty n fl bs = Ok (r, m') <-> exists tr, fresh_steps disk m id ty n fl bs = Ok (r, tr) /\ final m tr = m').
Proof.
  intro NE. split; [|intros (tr & E & <-); apply fresh_same; assumption]. unfold fresh_with, fresh, fresh_steps. intro E. apply obind_inv in E as ([x m1] & E1 & E). apply obind_inv in E1 as ([y m2] & E2 & E1). apply new_element_split in E2 as (tr1 & E2 & F1). rewrite E2. cbn [obind]. destruct y as [y|].
  - apply obind_inv in E1 as (m3 & E3 & E1). injection E1 as <- <-. apply init_split in E3 as (tr2 & E3 & F2). rewrite F1, E3. cbn [obind]. apply obind_inv in E as (m4 & W & E). injection E as <- <-. apply wr_steps in W as (b & W & F3). rewrite F2, W. cbn [obind]. eexists. split; [reflexivity|]. rewrite !final_app, F1, F2. exact F3.
  - injection E1 as <- <-. injection E as <- <-. exists tr1. auto.
Qed.
Lemma bare_split disk m id ty n fl r m' : fresh disk m id ty n fl = Ok (r, m') <-> exists tr, fresh_steps disk m id ty n fl [] = Ok (r, tr) /\ final m tr = m'.
Proof.
  split; [|intros (tr & E & <-); apply fresh_same_empty; assumption]. unfold fresh, fresh_steps. intro E1. apply obind_inv in E1 as ([y m2] & E2 & E1). apply new_element_split in E2 as (tr1 & E2 & F1). rewrite E2. cbn [obind]. destruct y as [y|].
  - apply obind_inv in E1 as (m3 & E3 & E1). injection E1 as <- <-. apply init_split in E3 as (tr2 & E3 & F2). rewrite F1, E3. cbn [obind wr_bytes]. eexists. split; [reflexivity|]. rewrite !final_app, F1, F2. reflexivity.
  - injection E1 as <- <-. exists tr1. auto.
Qed.

(** ** The next program *)
Lemma take_len e m a n r tr : pool m a -> take_steps e m n = Ok (r, tr) -> zlen (final m tr) = zlen m.
Proof.
  intros PO E. apply take_same in E. destruct e.
  - apply (allocate8_ok _ a) in E; [|exact PO]. destruct r; [destruct E as (_ & _ & _ & _ & L & _)|destruct E as (_ & _ & L & _)]; exact L.
  - apply (allocate_ok _ a) in E; [|exact PO]. destruct r; [destruct E as (_ & _ & _ & _ & L & _); exact L|destruct E as [-> _]; reflexivity].
Qed.
Lemma store_len m tr p v tr' : store m (Ok tr) p v = Ok tr' -> zlen (final m tr') = zlen (final m tr) /\ exists r, tr' = tr ++ r.
Proof. intro E. apply store_one in E as (m1 & W & -> & F). rewrite F. apply kept_wr32 in W as [L _]. split; [lia|eauto]. Qed.
Lemma bytes_len c p bs r : wr_bytes c p bs = Ok r -> zlen (final c r) = zlen c.
Proof. intro E. destruct r as [|x r]; [reflexivity|]. destruct (wr_bytes_states _ _ _ _ E (final c (x :: r))) as [L _]; [apply final_in; discriminate|lia]. Qed.
Lemma wr_len c p bs c' : wr c p bs = Ok c' -> zlen c' = zlen c.
Proof. intro W. apply wr_kept in W as (_ & _ & [L _] & _). lia. Qed.
(** Two neighbouring states of the list that no program opens *)
Definition lost (tr : list (list Z)) : Prop := exists l r c1 c2, tr = l ++ c1 :: c2 :: r /\ never_opens c1 /\ never_opens c2.
Lemma lost_app tr r : lost tr -> lost (tr ++ r).
Proof. intros (l & r' & c1 & c2 & -> & N). exists l, (r' ++ r), c1, c2. split; [rewrite <- app_assoc; reflexivity|exact N]. Qed.
Lemma new_element_lost disk m a ty n r tr : pool m a -> titled m -> new_element_steps disk m ty n = Ok (r, tr) -> zlen (final m tr) <> zlen m -> lost tr.
Proof.
  intros PO TI E. unfold new_element_steps in E. apply obind_inv in E as (s2 & S2 & E). destruct (s2 <? 0); [injection E as <- <-; intro NZ; contradiction NZ; reflexivity|]. apply int_inv in E as [_ E]. cbv zeta in E. apply obind_inv in E as ([x tr1] & T & E). pose proof (take_len _ _ _ _ _ _ PO T) as L1. destruct (take_states _ _ _ _ _ _ PO T) as (_ & (a' & A' & P1 & X1) & _). apply obind_inv in E as ([y tr2] & T2 & E).
  assert (G : zlen (final m tr2) <> zlen m -> lost tr2).
  { destruct x as [x|]; [injection T2 as <- <-; intro; contradiction|]. apply obind_inv in T2 as ([ok tr3] & SP & T2).
    assert (TI1 : titled (final m tr1)) by (unfold titled in *; destruct X1 as [_ X1]; rewrite X1 by lia; exact TI).
    assert (G : zlen (final m (tr1 ++ tr3)) <> zlen m -> lost (tr1 ++ tr3)).
    { rewrite final_app. intro NZ. destruct (space_cut _ _ _ _ _ _ P1 TI1 SP) as [->|(c1 & c2 & EQ & [N1 _] & [N2 _])]; [contradiction|]. exists tr1, [final (final m tr1) tr3], c1, c2. split; [|auto]. f_equal. exact EQ. }
    destruct ok; cbn [negb] in T2; [|injection T2 as <- <-; exact G]. apply obind_inv in T2 as ([z tr4] & T3 & T2). injection T2 as <- <-. intro NZ. apply lost_app, G. rewrite final_app in NZ. destruct (space_states _ _ _ _ _ _ P1 TI1 SP) as [_ (a2 & _ & P2 & _)]. rewrite <- final_app in P2. rewrite (take_len _ _ _ _ _ _ P2 T3) in NZ. exact NZ. }
  destruct y as [y|]; [|injection E as <- <-; exact G]. apply obind_inv in E as (tr3 & W & E). unfold bytes_store in W. cbn [obind] in W. apply obind_inv in W as (b & W & X). injection X as <-. apply bytes_len in W. rewrite <- final_app in W.
  apply obind_inv in E as (tr4 & E1 & E). apply store_inv in E1 as (tr5 & E2 & E1). apply store_inv in E2 as (tr6 & E3 & E2). apply store_len in E3 as (Z3 & r3 & ->). apply store_len in E2 as (Z2 & r2 & ->). apply store_len in E1 as (Z1 & r1 & ->).
  apply obind_inv in E as (tr7 & E4 & E). injection E as <- <-. intro NZ. destruct (XBT_IS_VARSIZE ty); [apply store_len in E4 as (Z4 & r4 & ->)|injection E4 as <-]; repeat apply lost_app; apply G; congruence.
Qed.
Lemma fresh_lost disk m a id ty n fl bs r tr : pool m a -> titled m -> fresh_steps disk m id ty n fl bs = Ok (r, tr) -> zlen (final m tr) <> zlen m -> lost tr.
Proof.
  intros PO TI E NZ. unfold fresh_steps in E. apply obind_inv in E as ([x tr1] & E1 & E). pose proof (new_element_lost _ _ _ _ _ _ _ PO TI E1) as G. destruct x as [x|]; [|injection E as <- <-; auto]. apply obind_inv in E as (tr2 & E2 & E). apply obind_inv in E as (tr3 & E3 & E). injection E as <- <-. apply lost_app, G. rewrite !final_app in NZ. apply bytes_len in E3. apply init_same in E2. unfold init in E2. apply obind_inv in E2 as (b & _ & E2). destruct (_ && _); [|discriminate]. apply wr_len in E2. congruence.
Qed.

Section Top.
Context (k : Z -> bool) (s : Z -> Z) (m : list Z) (T P : names) (F : forest) (LI : life k s m T P F).
Lemma made_killed disk id ty n fl bs r tr : fresh_steps disk m id ty n fl bs = Ok (r, tr) -> forall mi, In mi (m :: tr) ->
  (opens_as mi mi /\ known mi TAGS T /\ known mi PARAMS P /\ p_root mi = p_root m /\ forall e, In e (members F) -> rd mi e (s e) = rd m e (s e)) \/ (never_opens mi /\ zlen m < zlen mi).
Proof.
  intros E mi J. destruct (life_holds k s m T P F LI TAGS (or_introl eq_refl)) as (B & a & TW & H & M). pose proof (holds_pool _ _ _ _ _ _ _ _ H) as PO.
  assert (FI : fine m a mi \/ cut m mi). { destruct J as [<-|J]; [left; apply fine_refl, PO|]. apply (fresh_states _ _ _ _ _ _ _ _ _ _ PO (life_titled _ _ _ _ _ _ LI) E), J. }
  destruct FI as [FI|C]; [left|right; exact C]. destruct FI as (a' & A & P' & X). pose proof (holds_ext _ _ _ _ _ _ TW _ _ _ _ H P' A X) as H'. destruct (held_opens _ _ _ _ _ _ _ _ (life_titled _ _ _ _ _ _ LI) TW H') as (O & K1 & K2). unfold of_table, the_other in *. cbn in K1, K2. split; [exact O|]. split; [exact K1|]. split; [exact K2|]. split.
  - unfold p_root, rd_s32. destruct X as [_ X]. rewrite X by lia. reflexivity.
  - intros e IE. apply H'. apply M, IE.
Qed.
Lemma made_end disk id ty n fl bs r tr : fresh_steps disk m id ty n fl bs = Ok (r, tr) ->
  opens_as (final m tr) (final m tr) /\ known (final m tr) TAGS T /\ known (final m tr) PARAMS P /\ p_root (final m tr) = p_root m /\ forall e, In e (members F) -> rd (final m tr) e (s e) = rd m e (s e).
Proof.
  intro E. destruct (made_killed _ _ _ _ _ _ _ _ E (final m tr)) as [G|[N _]]; [|exact G|].
  - destruct tr; [left; reflexivity|]. right. apply final_in. discriminate.
  - exfalso. destruct (life_holds k s m T P F LI TAGS (or_introl eq_refl)) as (B & a & TW & H & M). destruct (fresh_states _ _ _ _ _ _ _ _ _ _ (holds_pool _ _ _ _ _ _ _ _ H) (life_titled _ _ _ _ _ _ LI) E) as [_ (a' & A & P' & X)]. destruct (held_opens _ _ _ _ _ _ _ _ (life_titled _ _ _ _ _ _ LI) TW (holds_ext _ _ _ _ _ _ TW _ _ _ _ H P' A X)) as ((fuel & O) & _). specialize (O 0). rewrite N in O. discriminate O.
Qed.
Lemma made_lost disk id ty n fl bs r tr : fresh_steps disk m id ty n fl bs = Ok (r, tr) -> zlen (final m tr) <> zlen m -> exists l c1 c2 u, tr = l ++ c1 :: c2 :: u /\ never_opens c1 /\ never_opens c2.
Proof.
  intros E NZ. destruct (life_holds k s m T P F LI TAGS (or_introl eq_refl)) as (B & a & TW & H & M). destruct (fresh_lost _ _ _ _ _ _ _ _ _ _ (holds_pool _ _ _ _ _ _ _ _ H) (life_titled _ _ _ _ _ _ LI) E NZ) as (l & u & c1 & c2 & Q). exists l, c1, c2, u. exact Q.
Qed.
End Top.
(** ** The calls *)
Lemma le_some n v : n <> O -> le n v <> [].
Proof. destruct n; [congruence|]. discriminate. Qed.
Lemma calls_split disk m id x m' ty : getTagType m id = Ok ty ->
  (pool_tag disk m id = Ok (Some x, m') -> exists tr, fresh_steps disk m id ty 0 ELEMENT [] = Ok (Some x, tr) /\ final m tr = m') /\
  (forall v, pool_tagInt32 disk m id v = Ok (Some x, m') -> exists tr, fresh_steps disk m id ty 0 ELEMENT (le 4 v) = Ok (Some x, tr) /\ final m tr = m') /\
  (forall v, pool_tagInt64 disk m id v = Ok (Some x, m') -> exists tr, fresh_steps disk m id ty 8 ELEMENT (le 8 v) = Ok (Some x, tr) /\ final m tr = m') /\
  (forall v, pool_tagString disk m id v = Ok (Some x, m') -> exists tr, fresh_steps disk m id ty (zlen v + 1) ELEMENT (v ++ [0]) = Ok (Some x, tr) /\ final m tr = m') /\
  (forall v, pool_tagTime disk m id v = Ok (Some x, m') -> exists tr, fresh_steps disk m id ty 0 ELEMENT (le 4 v) = Ok (Some x, tr) /\ final m tr = m') /\
  (forall v, v <> [] -> pool_tagSHA1 disk m id v = Ok (Some x, m') -> exists tr, fresh_steps disk m id ty 0 ELEMENT v = Ok (Some x, tr) /\ final m tr = m').
Proof.
  intro G. unfold pool_tag, pool_tagInt32, pool_tagInt64, pool_tagString, pool_tagTime, pool_tagSHA1. rewrite G. cbn [obind]. repeat split.
  - destruct (Z.eqb_spec ty XBT_NULL) as [->|]; cbn [negb]; [apply bare_split|discriminate].
  - intro v. destruct (XBT_IS_4 ty); cbn [negb]; [apply made_split, le_some; discriminate|discriminate].
  - intro v. destruct (XBT_IS_8 ty); cbn [negb]; [apply made_split, le_some; discriminate|discriminate].
  - intro v. destruct (Z.eqb_spec ty XBT_STRING) as [->|]; cbn [negb]; [apply made_split; intro N; apply app_eq_nil in N as [_ N]; discriminate|discriminate].
  - intro v. destruct (Z.eqb_spec ty XBT_UNIX_TIME) as [->|]; cbn [negb]; [apply made_split, le_some; discriminate|discriminate].
  - intros v NE. destruct (Z.eqb_spec ty XBT_SHA1) as [->|]; cbn [negb]; [apply made_split, NE|discriminate].
Qed.
