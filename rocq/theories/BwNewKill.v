(** What a kill between the stores of making an element leaves. *)
From Verif Require Import Base BaseFacts Types ListFacts Sort Xb XbSpec XbFacts XbWrite WriteProofs Bw BwFacts BwSpec BwHist BwAlloc BwProofs BwSym BwFile BwReg BwFileSpec BwFileProofs BwNamesSpec BwNamesFacts BwNamesInv BwNamesReg BwNamesOps BwNamesIndex BwNamesProofs BwNamesTop BwLifeSpec BwLife BwTitle BwOpenProofs BwRegSteps BwRegKill BwRegKillTop BwNewSteps JsonSource.

(** ** The stores together make the element *)
Lemma kept_wr32 m p v m' : wr32 m p v = Ok m' -> kept m m' p 4.
Proof. unfold wr32. intro W. apply wr_kept in W as (_ & _ & K & _). rewrite zlen_le4 in K. exact K. Qed.
Lemma wr_two m p a b m1 m2 : wr m p a = Ok m1 -> wr m1 (p + zlen a) b = Ok m2 -> wr m p (a ++ b) = Ok m2.
Proof.
  intros W1 W2. destruct (wr_kept _ _ _ _ W1) as (P1 & B1 & [L1 K1] & G1). destruct (wr_kept _ _ _ _ W2) as (P2 & B2 & [L2 K2] & G2). pose proof (zlen_nonneg a). pose proof (zlen_nonneg b). destruct (wr_some m p (a ++ b)) as (m' & W); [lia|rewrite zlen_app; lia|]. rewrite W. f_equal. destruct (wr_kept _ _ _ _ W) as (_ & _ & K & G).
  apply (kept_unique m m' m2 p (zlen (a ++ b))); auto; try (rewrite zlen_app; lia); [split; [lia|]; intros q k Q D; rewrite zlen_app in D; rewrite K2, K1 by lia; reflexivity|]. rewrite G. rewrite zlen_app, rd_split by lia. rewrite K2, G1, G2 by lia. reflexivity.
Qed.
Lemma wr_swap m p a b m1 m2 : wr m (p + zlen a) b = Ok m1 -> wr m1 p a = Ok m2 -> wr m p (a ++ b) = Ok m2.
Proof.
  intros W1 W2. destruct (wr_kept _ _ _ _ W1) as (P1 & B1 & [L1 K1] & G1). destruct (wr_kept _ _ _ _ W2) as (P2 & B2 & [L2 K2] & G2). pose proof (zlen_nonneg a). pose proof (zlen_nonneg b). destruct (wr_some m p (a ++ b)) as (m' & W); [lia|rewrite zlen_app; lia|]. rewrite W. f_equal. destruct (wr_kept _ _ _ _ W) as (_ & _ & K & G).
  apply (kept_unique m m' m2 p (zlen (a ++ b))); auto; try (rewrite zlen_app; lia); [split; [lia|]; intros q k Q D; rewrite zlen_app in D; rewrite K2, K1 by lia; reflexivity|]. rewrite G. rewrite zlen_app, rd_split by lia. rewrite G2, K2, G1 by lia. reflexivity.
Qed.
Lemma init_same m x id ty fl tr : init_steps m x id ty fl = Ok tr -> init m x id ty fl = Ok (final m tr).
Proof.
  unfold init_steps, init. intro E. apply obind_inv in E as (b & R & E). rewrite R. cbn [obind]. destruct (_ && _); [|discriminate].
  apply obind_inv in E as (m1 & W1 & E). apply obind_inv in E as (m2 & W2 & E). apply obind_inv in E as (m3 & W3 & E). apply obind_inv in E as (m4 & W4 & E). apply obind_inv in E as (m5 & W5 & E). apply obind_inv in E as (m6 & W6 & E). apply obind_inv in E as (m7 & W7 & E). apply obind_inv in E as (m8 & W8 & E). injection E as <-. change (final m [m1; m2; m3; m4; m5; m6; m7; m8]) with m8.
  assert (A : wr m2 (x + 6) [fl; ty] = Ok m4). { apply (wr_swap m2 (x + 6) [fl] [ty] m3); [|exact W4]. change (zlen [fl]) with 1. replace (x + 6 + 1) with (x + 7) by lia. exact W3. }
  assert (A7 : wr m6 (x + 16) (le 4 0 ++ le 4 0) = Ok m8). { apply (wr_two _ _ _ _ m7); [exact W7|]. rewrite zlen_le4. replace (x + 16 + 4) with (x + 20) by lia. exact W8. }
  assert (L2 : zlen (le 2 id) = 2) by apply le_zlen.
  assert (C7 : wr m5 (x + 12) (le 4 x ++ le 4 0 ++ le 4 0) = Ok m8). { apply (wr_two _ _ _ _ m6); [exact W6|]. rewrite zlen_le4. replace (x + 12 + 4) with (x + 16) by lia. exact A7. }
  assert (C5 : wr m4 (x + 8) (le 4 x ++ le 4 x ++ le 4 0 ++ le 4 0) = Ok m8). { apply (wr_two _ _ _ _ m5); [exact W5|]. rewrite zlen_le4. replace (x + 8 + 4) with (x + 12) by lia. exact C7. }
  assert (C4 : wr m2 (x + 6) ([fl; ty] ++ le 4 x ++ le 4 x ++ le 4 0 ++ le 4 0) = Ok m8). { apply (wr_two _ _ _ _ m4); [exact A|]. change (zlen [fl; ty]) with 2. replace (x + 6 + 2) with (x + 8) by lia. exact C5. }
  assert (C2 : wr m1 (x + 4) (le 2 id ++ [fl; ty] ++ le 4 x ++ le 4 x ++ le 4 0 ++ le 4 0) = Ok m8). { apply (wr_two _ _ _ _ m2); [exact W2|]. rewrite L2. replace (x + 4 + 2) with (x + 6) by lia. exact C4. }
  apply (wr_two _ _ _ _ m1); [exact W1|]. rewrite zlen_le4. exact C2.
Qed.
Lemma allocate8_same m n r tr : allocate8_steps m n = Ok (r, tr) -> allocate8 m n = Ok (r, final m tr).
Proof.
  unfold allocate8_steps, allocate8. destruct (n <=? 0) eqn:N0; [intro E; injection E as <- <-; reflexivity|]. intro E. apply obind_inv in E as (a & A & E). rewrite A. cbn [obind]. apply int_inv in E as [I E]. rewrite (int_intro _ _ I). cbv zeta in *. apply obind_inv in E as (m1 & W1 & E). rewrite W1. cbn [obind]. apply int_inv in E as [I1 E]. rewrite (int_intro _ _ I1). apply obind_inv in E as (l & LI & E). rewrite LI. cbn [obind]. apply int_inv in E as [I2 E]. rewrite (int_intro _ _ I2).
  destruct (l <? _); [injection E as <- <-; reflexivity|]. apply obind_inv in E as (tr1 & E1 & E). injection E as <- <-. unfold bytes_store, store in E1. apply obind_inv in E1 as (tr2 & E2 & E1). cbn [obind] in E2. apply obind_inv in E2 as (m2 & W2 & E2). injection E2 as <-. apply obind_inv in E1 as (r & W3 & E1). injection E1 as <-.
  change (final m [m1]) with m1 in W2. rewrite W2. cbn [obind]. change (final m [m1; m2]) with m2 in W3. rewrite (wr_bytes_wr _ _ _ _ W3) by (apply zrepeat_some; pose proof (align8_ge n); lia). cbn [obind app]. rewrite !final_one. reflexivity.
Qed.
Lemma take_same e m n r tr : take_steps e m n = Ok (r, tr) -> (if e then allocate8 m n else allocate m n) = Ok (r, final m tr).
Proof. destruct e; [apply allocate8_same|apply allocate_same]. Qed.
Lemma space_same disk m n ok tr : makeSpace_steps disk m n = Ok (ok, tr) -> makeSpace disk m n = Ok (ok, final m tr).
Proof.
  unfold makeSpace_steps, makeSpace. intro E. apply obind_inv in E as (a & A & E). rewrite A. cbn [obind]. apply int_inv in E as [I E]. rewrite (int_intro _ _ I). apply int_inv in E as [I1 E]. rewrite (int_intro _ _ I1). cbv zeta in *. apply obind_inv in E as (mm & MM & E). rewrite MM. cbn [obind]. destruct (mm <? _); [injection E as <- <-; reflexivity|]. apply obind_inv in E as (fs & FS & E). rewrite FS. cbn [obind]. destruct (_ <=? fs); [injection E as <- <-; reflexivity|]. destruct (negb disk); [injection E as <- <-; reflexivity|].
  apply obind_inv in E as (tr1 & E1 & E). injection E as <- <-. unfold store in E1. apply obind_inv in E1 as (tr2 & E2 & E1). cbn [obind] in E2. apply obind_inv in E2 as (m1 & W1 & E2). injection E2 as <-. apply obind_inv in E1 as (m2 & W2 & E1). injection E1 as <-. unfold final in *. cbn [last app] in *. rewrite W1. cbn [obind]. rewrite W2. reflexivity.
Qed.
Lemma store_one m tr p v tr' : store m (Ok tr) p v = Ok tr' -> exists m1, wr32 (final m tr) p v = Ok m1 /\ tr' = tr ++ [m1] /\ final m tr' = m1.
Proof. unfold store. cbn [obind]. intro E. apply obind_inv in E as (m1 & W & E). injection E as <-. exists m1. split; [exact W|]. split; [reflexivity|]. rewrite final_app. reflexivity. Qed.
Lemma store_inv m o p v tr' : store m o p v = Ok tr' -> exists tr, o = Ok tr /\ store m (Ok tr) p v = Ok tr'.
Proof. unfold store. intro E. apply obind_inv in E as (tr & -> & E). exists tr. auto. Qed.
Lemma new_element_same disk m ty n r tr : new_element_steps disk m ty n = Ok (r, tr) -> new_element disk m ty n = Ok (r, final m tr).
Proof.
  unfold new_element_steps, new_element. intro E. apply obind_inv in E as (s2 & S2 & E). rewrite S2. cbn [obind]. destruct (s2 <? 0); [injection E as <- <-; reflexivity|]. apply int_inv in E as [I E]. rewrite (int_intro _ _ I). cbv zeta in *. apply obind_inv in E as ([x tr1] & T & E). rewrite (take_same _ _ _ _ _ T). cbn [obind].
  apply obind_inv in E as ([y tr2] & T2 & E).
  assert (G : match x with Some x => Ok (Some x, final m tr1) | None => obind (makeSpace disk (final m tr1) (24 + s2)) (fun '(ok, m) => if ok then if XBT_Align ty =? 8 then allocate8 m (24 + s2) else allocate m (24 + s2) else Ok (None, m)) end = Ok (y, final m tr2)).
  { destruct x as [x|]; [injection T2 as <- <-; reflexivity|]. apply obind_inv in T2 as ([ok tr3] & SP & T2). rewrite (space_same _ _ _ _ _ SP). cbn [obind]. destruct ok; cbn [negb] in T2; [|injection T2 as <- <-; rewrite final_app; reflexivity]. apply obind_inv in T2 as ([z tr4] & T3 & T2). injection T2 as <- <-. apply take_same in T3. rewrite !final_app in *. exact T3. }
  rewrite G. cbn [obind]. destruct y as [y|]; [|injection E as <- <-; reflexivity]. apply obind_inv in E as (tr3 & W & E). unfold bytes_store in W. cbn [obind] in W. apply obind_inv in W as (b & W & X). injection X as <-. apply wr_bytes_wr in W; [|discriminate]. rewrite W. cbn [obind]. rewrite <- final_app.
  apply obind_inv in E as (tr4 & E1 & E). apply store_inv in E1 as (tr5 & E2 & E1). apply store_inv in E2 as (tr6 & E3 & E2). apply store_one in E3 as (m1 & W1 & -> & F1). apply store_one in E2 as (m2 & W2 & -> & F2). apply store_one in E1 as (m3 & W3 & -> & F3). rewrite W1. cbn [obind]. rewrite F1 in W2. rewrite W2. cbn [obind]. rewrite F2 in W3. rewrite W3. cbn [obind].
  apply obind_inv in E as (tr7 & E1 & E). injection E as <- <-. destruct (XBT_IS_VARSIZE ty); [apply store_one in E1 as (m4 & W4 & -> & F4); rewrite F3 in W4; rewrite W4; cbn [obind]; rewrite F4; reflexivity|]. injection E1 as <-. cbn [obind]. rewrite F3. reflexivity.
Qed.
Lemma wr_nil m p m' : wr m p [] = Ok m' -> m' = m.
Proof. intro W. destruct (wr_kept _ _ _ _ W) as (P & B & K & G). change (zlen (@nil Z)) with 0 in *. apply (kept_unique m m' m p 0); auto; try lia; [split; auto|]. rewrite G, rd_none by lia. reflexivity. Qed.
Lemma fresh_same disk m id ty n fl bs r tr : bs <> [] -> fresh_steps disk m id ty n fl bs = Ok (r, tr) -> fresh_with disk m id ty n fl bs = Ok (r, final m tr).
Proof.
  unfold fresh_steps, fresh_with, fresh. intros NE E. apply obind_inv in E as ([x tr1] & E1 & E). rewrite (new_element_same _ _ _ _ _ _ E1). cbn [obind]. destruct x as [x|]; [|injection E as <- <-; reflexivity]. apply obind_inv in E as (tr2 & E2 & E). rewrite (init_same _ _ _ _ _ _ E2). cbn [obind]. apply obind_inv in E as (tr3 & E3 & E). injection E as <- <-. rewrite (wr_bytes_wr _ _ _ _ E3 NE). cbn [obind]. rewrite !final_app. reflexivity.
Qed.
Lemma fresh_same_empty disk m id ty n fl r tr : fresh_steps disk m id ty n fl [] = Ok (r, tr) -> fresh disk m id ty n fl = Ok (r, final m tr).
Proof.
  unfold fresh_steps, fresh. intros E. apply obind_inv in E as ([x tr1] & E1 & E). rewrite (new_element_same _ _ _ _ _ _ E1). cbn [obind]. destruct x as [x|]; [|injection E as <- <-; reflexivity]. apply obind_inv in E as (tr2 & E2 & E). rewrite (init_same _ _ _ _ _ _ E2). cbn [obind wr_bytes] in *. injection E as <- <-. rewrite app_nil_r, final_app. reflexivity.
Qed.

(** ** Every state between two stores *)
Definition fine m a mi : Prop := exists a', a <= a' /\ pool mi a' /\ extends m a mi.
Definition sized mi : Prop := p_file_size mi = Ok (zlen mi) /\ p_limit mi = Ok (zlen mi).
Lemma fine_refl m a : pool m a -> fine m a m.
Proof. intro P. exists a. split; [lia|]. split; [exact P|apply extends_refl]. Qed.
Lemma fine_trans m a mi a1 mj : a <= a1 -> extends m a mi -> fine mi a1 mj -> fine m a mj.
Proof. intros A X (a' & A' & P & X'). exists a'. split; [lia|]. split; [exact P|]. exact (extends_trans _ _ _ _ _ X X' A). Qed.
Lemma fine_kept m a mi mj p n : 60 <= a -> a <= p -> fine m a mi -> kept mi mj p n -> fine m a mj.
Proof.
  intros A AP (a' & A' & P & L & X) K. exists a'. split; [exact A'|]. split; [apply (pool_kept mi mj a' p n P K); lia|]. destruct K as [KL KK]. split; [lia|]. intros q k Q D. rewrite KK, X by lia. reflexivity.
Qed.
Lemma allocate8_states m a n r tr : pool m a -> allocate8_steps m n = Ok (r, tr) -> forall mi, In mi tr -> fine m a mi.
Proof.
  intros PO E mi I. assert (AS := allocate8_same _ _ _ _ E). unfold allocate8_steps in E. destruct (n <=? 0) eqn:N0; [injection E as <- <-; contradiction|]. pose proof PO as (A & LI & _ & _ & BB & A4 & _). rewrite A in E. cbn [obind] in E. apply int_inv in E as [_ E]. cbv zeta in E. apply obind_inv in E as (m1 & W1 & E). destruct (round_allocator _ _ _ PO W1) as (P1 & X1 & L1). pose proof (align8_ge a) as AG. assert (F1 : fine m a m1) by (exists (align_up 8 a); split; [lia|auto]).
  apply int_inv in E as [_ E]. apply obind_inv in E as (l & LL & E). apply int_inv in E as [I2 E]. destruct (l <? _); [injection E as <- <-; destruct I as [<-|[]]; exact F1|]. apply obind_inv in E as (tr1 & E1 & E). injection E as <- <-. apply (allocate8_ok _ a) in AS; [|exact PO]. destruct AS as (_ & _ & POF & _ & LF & _). unfold bytes_store in E1. apply obind_inv in E1 as (tr2 & E2 & E1). apply store_one in E2 as (m2 & W2 & -> & F2). change (final m [m1]) with m1 in W2. apply obind_inv in E1 as (b & W3 & E1). injection E1 as <-. rewrite F2 in W3. pose proof (align8_ge n) as AN. unfold HEADER in BB.
  apply wr32_kept in W2 as (_ & _ & K1 & G1); [|exact I2].
  assert (F2' : fine m1 (align_up 8 a) m2).
  { exists (align_up 8 a + align_up 8 n). split; [lia|]. split; [|destruct K1 as [KL KK]; split; [lia|]; intros q k Q D; apply KK; lia]. destruct POF as (_ & _ & _ & _ & B2 & A2 & _). unfold pool, p_allocator, p_limit, p_file_size, p_mmap_size in *. pose proof (kept_len _ _ _ _ K1) as KL. destruct P1 as (_ & Q2 & Q3 & Q4 & _ & _ & Q7). split; [exact G1|]. rewrite !(kept_s32 _ _ _ _ _ K1) by lia. rewrite KL. unfold HEADER in *. repeat (split; [assumption || lia|]). assumption. }
  apply (fine_trans m a m1 (align_up 8 a)); [lia|exact X1|]. cbn [app] in I. destruct I as [<-|[<-|I]]; [apply fine_refl, P1|exact F2'|]. eapply fine_kept; [| |exact F2'|exact (wr_bytes_states _ _ _ _ W3 mi I)]; lia.
Qed.
Lemma take_states e m a n r tr : pool m a -> take_steps e m n = Ok (r, tr) -> (forall mi, In mi tr -> fine m a mi) /\ fine m a (final m tr) /\ (forall x, r = Some x -> a <= x).
Proof.
  intros PO E. assert (F : forall mi, In mi tr -> fine m a mi).
  { intros mi I. destruct e; [exact (allocate8_states _ _ _ _ _ PO E mi I)|]. destruct (allocate_states _ _ _ _ _ PO E mi I) as (_ & N & P & X). exists (a + align_up 4 n). pose proof (align4_ge n). split; [lia|auto]. }
  split; [exact F|]. split.
  - destruct tr as [|c tr]; [apply fine_refl, PO|]. apply F. apply final_in. discriminate.
  - intros x ->. apply take_same in E. destruct e; [apply (allocate8_ok _ a) in E; [|exact PO]; destruct E as (_ & -> & _); pose proof (align8_ge a); lia|apply (allocate_ok _ a) in E; [|exact PO]; destruct E as (_ & -> & _); lia].
Qed.
Lemma never_sized c : titled c -> HEADER <= zlen c -> (exists v, p_mmap_size c = Ok v) -> (exists v, p_allocator c = Ok v) -> (exists v, p_limit c = Ok v) -> (exists v, p_file_size c = Ok v) -> ~ sized c -> never_opens c.
Proof.
  intros TI LH (mm & MM) (a & A) (l & LI) (fs & FS) NS fuel max. unfold Initialize. replace (zlen c <? HEADER) with false by lia. rewrite MM, rbind_ok. destruct (mm <? zlen c); [reflexivity|].
  unfold titled in TI. rewrite (rd_split c 4 24 4 ltac:(lia) ltac:(lia) : rd c 4 28 = _) in TI. change (4 + 24) with 28 in TI. apply obind_inv in TI as (b1 & R1 & TI). apply obind_inv in TI as (b2 & R2 & TI). assert (TI2 : b1 ++ b2 = (TYPE_INFO ++ [0; 0; 0]) ++ [0; 0; 0; 0]) by (change (Ok (b1 ++ b2) = Ok ((TYPE_INFO ++ [0; 0; 0]) ++ [0; 0; 0; 0])) in TI; congruence). clear TI. rename TI2 into TI.
  assert (LB : zlen b1 = zlen (TYPE_INFO ++ [0; 0; 0])) by (change (zlen (TYPE_INFO ++ [0; 0; 0])) with 24; apply rd_inv in R1 as (_ & _ & _ & R1); [exact R1|lia]). apply app_inj_len in TI as [-> ->]; [|exact LB].
  unfold CheckExistingFile. rewrite (type_info_str _ R1), R2, FS, MM, LI, A. cbn [obind]. assert (X : (fs =? zlen c) && (l =? fs) = false). { destruct (Z.eqb_spec fs (zlen c)) as [->|]; [|reflexivity]. destruct (Z.eqb_spec l (zlen c)) as [->|]; [|reflexivity]. exfalso. apply NS. split; assumption. }
  match goal with |- rbind (Some (Ok ?b)) _ = _ => replace b with false end; [rewrite rbind_ok; reflexivity|]. destruct (list_eq_dec Z.eq_dec TYPE_INFO TYPE_INFO), (unle [0; 0; 0; 0] =? 0), (fs =? zlen c), (mm =? mm), (l =? fs), (HEADER <=? a), (a <=? l); cbn in *; congruence.
Qed.
Definition cut (m mi : list Z) : Prop := never_opens mi /\ zlen m < zlen mi.
Lemma space_cut disk m a n ok tr : pool m a -> titled m -> makeSpace_steps disk m n = Ok (ok, tr) -> tr = [] \/ exists c1 c2, tr = [c1; c2; final m tr] /\ cut m c1 /\ cut m c2.
Proof.
  intros PO TI E. pose proof PO as (A & LI & FS & (M & MM & _) & BB & _). assert (H60 : HEADER <= zlen m) by lia.
  unfold makeSpace_steps in E. apply obind_inv in E as (a' & _ & E). apply int_inv in E as [_ E]. apply int_inv in E as [_ E]. cbv zeta in E. apply obind_inv in E as (mm & _ & E). destruct (mm <? _); [injection E as <- <-; auto|]. apply obind_inv in E as (fs & FS' & E). assert (fs = zlen m) as -> by congruence. destruct (Z.leb_spec ((a' + 4095 + n) / 4096 * 4096) (zlen m)); [injection E as <- <-; auto|]. destruct (negb disk); [injection E as <- <-; auto|].
  apply obind_inv in E as (tr1 & E1 & E). injection E as _ <-. apply store_inv in E1 as (tr2 & E2 & E1). apply store_one in E2 as (m1 & W1 & -> & F1). apply store_one in E1 as (m2 & W2 & -> & F2). set (ns := (a' + 4095 + n) / 4096 * 4096) in *. change (final m [resize m ns]) with (resize m ns) in W1. destruct (resize_grow m ns) as [RL RR]; [lia|]. cbn [app]. right. exists (resize m ns), m1. split; [reflexivity|].
  unfold HEADER in H60. unfold p_file_size, p_limit, p_mmap_size, p_allocator, sized, titled, rd_s32 in *. assert (IN : int32 ns \/ ~ int32 ns) by (unfold int32; lia). pose proof W1 as W1'. apply kept_wr32 in W1' as [KL KK].
  split; (split; [apply never_sized|]); unfold p_file_size, p_limit, p_mmap_size, p_allocator, sized, titled, HEADER, rd_s32; try lia.
  - rewrite RR by lia. exact TI.
  - rewrite RR by lia. eauto.
  - rewrite RR by lia. eauto.
  - rewrite RR by lia. eauto.
  - rewrite RR by lia. eauto.
  - unfold p_file_size, rd_s32. rewrite RR by lia. intros [Q _]. rewrite FS in Q. injection Q. lia.
  - rewrite KK, RR by lia. exact TI.
  - rewrite KK, RR by lia. eauto.
  - rewrite KK, RR by lia. eauto.
  - rewrite KK, RR by lia. eauto.
  - unfold wr32 in W1. apply wr_kept in W1 as (_ & _ & _ & G). rewrite zlen_le4 in G. rewrite G. cbn [obind]. eauto.
  - unfold p_limit, rd_s32. intros [_ Q]. rewrite KK, RR in Q by lia. rewrite LI in Q. injection Q. lia.
Qed.
Lemma space_states disk m a n ok tr : pool m a -> titled m -> makeSpace_steps disk m n = Ok (ok, tr) -> (forall mi, In mi tr -> fine m a mi \/ cut m mi) /\ fine m a (final m tr).
Proof.
  intros PO TI E. pose proof (space_same _ _ _ _ _ E) as S. apply (makeSpace_ok _ _ a) in S as (PF & XF & _); [|exact PO]. assert (FF : fine m a (final m tr)) by (exists a; split; [lia|auto]). split; [|exact FF]. intros mi I. destruct (space_cut _ _ _ _ _ _ PO TI E) as [->|(c1 & c2 & EQ & C1 & C2)]; [contradiction|]. rewrite EQ in I. destruct I as [<-|[<-|[<-|[]]]]; auto.
Qed.
Definition safe m a tr : Prop := (forall mi, In mi tr -> fine m a mi \/ cut m mi) /\ fine m a (final m tr).
Lemma fine_titled m a mi : 60 <= a -> titled m -> fine m a mi -> titled mi.
Proof. unfold titled. intros A T (a' & _ & _ & _ & X). rewrite X by lia. exact T. Qed.
Lemma safe_app m a tr1 tr2 : safe m a tr1 -> (forall a', a <= a' -> pool (final m tr1) a' -> safe (final m tr1) a' tr2) -> safe m a (tr1 ++ tr2).
Proof.
  intros [S1 F1] S2. destruct F1 as (a' & A & P & X). destruct (S2 a' A P) as [S3 F3]. split; [|rewrite final_app; exact (fine_trans _ _ _ _ _ A X F3)]. intros mi I. apply in_app_or in I as [I|I]; [auto|]. destruct (S3 mi I) as [F|[N Z1]]; [left; exact (fine_trans _ _ _ _ _ A X F)|]. right. split; [exact N|]. destruct X as [X _]. lia.
Qed.
Lemma safe_more m a tr tr2 : safe m a tr -> (forall mi, In mi tr2 -> fine m a mi) -> safe m a (tr ++ tr2).
Proof.
  intros [S F] S2. split; [intros mi I; apply in_app_or in I as [I|I]; auto|]. destruct tr2 as [|c r] using rev_ind; [rewrite app_nil_r; exact F|]. rewrite app_assoc. rewrite final_app. apply S2, in_or_app. right. left. reflexivity.
Qed.
Lemma safe_store m a tr p v tr' : 60 <= a -> a <= p -> safe m a tr -> store m (Ok tr) p v = Ok tr' -> safe m a tr'.
Proof. intros A P [S F] E. apply store_one in E as (m1 & W & -> & _). apply safe_more; [split; auto|]. intros mi [<-|[]]. exact (fine_kept _ _ _ _ _ _ A P F (kept_wr32 _ _ _ _ W)). Qed.
Lemma new_element_states disk m a ty n r tr : pool m a -> titled m -> new_element_steps disk m ty n = Ok (r, tr) -> safe m a tr /\ forall x, r = Some x -> a <= x.
Proof.
  intros PO TI E. assert (NIL : safe m a []) by (split; [intros mi []|apply fine_refl, PO]). assert (A60 : 60 <= a) by (destruct PO as (_ & _ & _ & _ & BB & _); unfold HEADER in BB; lia).
  unfold new_element_steps in E. apply obind_inv in E as (s2 & S2 & E). destruct (s2 <? 0); [injection E as <- <-; split; [exact NIL|discriminate]|]. apply int_inv in E as [_ E]. cbv zeta in E. apply obind_inv in E as ([x tr1] & T & E). destruct (take_states _ _ _ _ _ _ PO T) as (G1 & G2 & G3). assert (S1 : safe m a tr1) by (split; auto). apply obind_inv in E as ([y tr2] & T2 & E).
  assert (G : safe m a tr2 /\ forall z, y = Some z -> a <= z).
  { destruct x as [x|]; [injection T2 as <- <-; auto|]. apply obind_inv in T2 as ([ok tr3] & SP & T2). assert (S3 : safe m a (tr1 ++ tr3)) by (apply safe_app; [exact S1|]; intros a' A P; apply (space_states _ _ _ _ _ _ P (fine_titled _ _ _ A60 TI G2) SP)). destruct ok; cbn [negb] in T2; [|injection T2 as <- <-; split; [exact S3|discriminate]]. apply obind_inv in T2 as ([z tr4] & T3 & T2). injection T2 as <- <-. split.
    - apply safe_app; [exact S3|]. intros a' A P. destruct (take_states _ _ _ _ _ _ P T3) as (H1 & H2 & _). split; auto.
    - intros w ->. destruct S3 as [_ (a' & A & P & _)]. destruct (take_states _ _ _ _ _ _ P T3) as (_ & _ & H3). specialize (H3 w eq_refl). lia. }
  destruct G as [S4 G]. destruct y as [y|]; [|injection E as <- <-; split; [exact S4|discriminate]]. specialize (G y eq_refl). apply obind_inv in E as (tr3 & W & E). unfold bytes_store in W. cbn [obind] in W. apply obind_inv in W as (b & W & X). injection X as <-.
  assert (S5 : safe m a (tr2 ++ b)). { apply safe_more; [exact S4|]. intros mi I. destruct S4 as [_ F4]. eapply fine_kept; [| |exact F4|exact (wr_bytes_states _ _ _ _ W mi I)]; lia. }
  apply obind_inv in E as (tr4 & E1 & E). apply store_inv in E1 as (tr5 & E2 & E1). apply store_inv in E2 as (tr6 & E3 & E2). apply (safe_store _ a) in E3; [|lia|lia|exact S5]. apply (safe_store _ a) in E2; [|lia|lia|exact E3]. apply (safe_store _ a) in E1; [|lia|lia|exact E2].
  apply obind_inv in E as (tr7 & E4 & E). injection E as <- <-. split; [|intros z Z1; injection Z1 as <-; exact G]. destruct (XBT_IS_VARSIZE ty); [apply (safe_store _ a) in E4; [exact E4|lia|lia|exact E1]|injection E4 as <-; exact E1].
Qed.
Lemma fine_wr m a mi mj p bs : 60 <= a -> a <= p -> fine m a mi -> wr mi p bs = Ok mj -> fine m a mj.
Proof. intros A P F W. apply wr_kept in W as (_ & _ & K & _). exact (fine_kept _ _ _ _ _ _ A P F K). Qed.
Lemma fresh_states disk m a id ty n fl bs r tr : pool m a -> titled m -> fresh_steps disk m id ty n fl bs = Ok (r, tr) -> safe m a tr.
Proof.
  intros PO TI E. assert (A60 : 60 <= a) by (destruct PO as (_ & _ & _ & _ & BB & _); unfold HEADER in BB; lia). unfold fresh_steps in E. apply obind_inv in E as ([x tr1] & E1 & E). destruct (new_element_states _ _ _ _ _ _ _ PO TI E1) as [S1 X]. destruct x as [x|]; [|injection E as <- <-; exact S1]. specialize (X x eq_refl). apply obind_inv in E as (tr2 & E2 & E). apply obind_inv in E as (tr3 & E3 & E). injection E as <- <-. rewrite app_assoc.
  pose proof S1 as [_ F1]. unfold init_steps in E2. apply obind_inv in E2 as (b & _ & E2). destruct (_ && _); [|discriminate].
  apply obind_inv in E2 as (m1 & W1 & E). apply obind_inv in E as (m2 & W2 & E). apply obind_inv in E as (m3 & W3 & E). apply obind_inv in E as (m4 & W4 & E). apply obind_inv in E as (m5 & W5 & E). apply obind_inv in E as (m6 & W6 & E). apply obind_inv in E as (m7 & W7 & E). apply obind_inv in E as (m8 & W8 & E). injection E as <-.
  apply (fine_wr m a) in W1; [|lia|lia|exact F1]. apply (fine_wr m a) in W2; [|lia|lia|exact W1]. apply (fine_wr m a) in W3; [|lia|lia|exact W2]. apply (fine_wr m a) in W4; [|lia|lia|exact W3]. apply (fine_wr m a) in W5; [|lia|lia|exact W4]. apply (fine_wr m a) in W6; [|lia|lia|exact W5]. apply (fine_wr m a) in W7; [|lia|lia|exact W6]. apply (fine_wr m a) in W8; [|lia|lia|exact W7].
  apply safe_more; [apply safe_more; [exact S1|]; intros mi [<-|[<-|[<-|[<-|[<-|[<-|[<-|[<-|[]]]]]]]]]; assumption|]. intros mi I. change (final (final m tr1) [m1; m2; m3; m4; m5; m6; m7; m8]) with m8 in E3. eapply fine_kept; [| |exact W8|exact (wr_bytes_states _ _ _ _ E3 mi I)]; lia.
Qed.
