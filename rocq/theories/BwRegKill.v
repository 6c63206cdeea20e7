(** What a kill between the stores of a registration leaves. *)
From Verif Require Import Base BaseFacts Types ListFacts Sort Xb XbSpec XbFacts XbWrite WriteProofs Bw BwFacts BwSpec BwHist BwAlloc BwSym BwFile BwReg BwFileSpec BwFileProofs BwNamesSpec BwNamesFacts BwNamesInv BwNamesReg BwNamesOps BwNamesIndex BwNamesProofs BwNamesTop BwLifeSpec BwLife BwTitle BwOpenProofs BwRegSteps BwRegProofs JsonSource ScalarProofs.

(** ** The stores together are the registration *)
Lemma final_app m tr tr' : final m (tr ++ tr') = final (final m tr) tr'.
Proof. unfold final. destruct tr' as [|x l] using rev_ind; [rewrite app_nil_r; reflexivity|]. rewrite app_assoc, !last_last. reflexivity. Qed.
Lemma final_one m x tr : final m (x :: tr) = final x tr.
Proof. change (x :: tr) with ([x] ++ tr). apply final_app. Qed.
Lemma whole_rd (m : list Z) : rd m 0 (zlen m) = Ok m.
Proof. unfold rd. pose proof (zlen_nonneg m). replace ((0 <=? 0) && (0 + zlen m <=? zlen m)) with true by lia. f_equal. unfold slice, ztake, zskip, zlen. cbn [Z.to_nat skipn]. rewrite Nat2Z.id. apply firstn_all. Qed.
Lemma kept_unique m m1 m2 p n : 0 <= p -> 0 <= n -> p + n <= zlen m -> kept m m1 p n -> kept m m2 p n -> rd m1 p n = rd m2 p n -> m1 = m2.
Proof.
  intros P N B [L1 K1] [L2 K2] E. assert (W : rd m1 0 (zlen m) = rd m2 0 (zlen m)).
  { replace (zlen m) with (p + (n + (zlen m - p - n))) by lia. rewrite !(rd_split _ 0 p) by lia. rewrite !(rd_split _ (0 + p) n) by lia. replace (0 + p) with p by lia. rewrite E, (K1 0 p), (K2 0 p), (K1 (p + n)), (K2 (p + n)) by lia. reflexivity. }
  rewrite <- L1 in W at 1. rewrite <- L2 in W. rewrite !whole_rd in W. congruence.
Qed.
Lemma wr_bytes_bound bs : forall m p r, wr_bytes m p bs = Ok r -> bs <> [] -> 0 <= p /\ p + zlen bs <= zlen m.
Proof.
  induction bs as [|b bs IH]; intros m p r E NE; [congruence|]. cbn [wr_bytes] in E. apply obind_inv in E as (m1 & W & E). apply obind_inv in E as (r1 & W1 & E). apply wr_kept in W as (P & B & [KL _] & _). change (zlen [b]) with 1 in B. rewrite zlen_cons.
  destruct bs as [|c bs]; [change (zlen (@nil Z)) with 0; lia|]. specialize (IH _ _ _ W1 ltac:(discriminate)). lia.
Qed.
Lemma wr_bytes_wr m p bs r : wr_bytes m p bs = Ok r -> bs <> [] -> wr m p bs = Ok (final m r).
Proof.
  intros E NE. destruct (wr_bytes_bound _ _ _ _ E NE) as [P B]. destruct (wr_bytes_kept _ _ _ _ E P B) as [K R]. destruct (wr_some m p bs P B) as (m' & W). rewrite W. f_equal. destruct (wr_kept _ _ _ _ W) as (_ & _ & K' & R'). apply (kept_unique m m' (final m r) p (zlen bs)); auto; [apply zlen_nonneg|congruence].
Qed.
Lemma wr_bytes_states bs : forall m p r, wr_bytes m p bs = Ok r -> forall mi, In mi r -> kept m mi p (zlen bs).
Proof.
  induction bs as [|b bs IH]; intros m p r E mi I; cbn [wr_bytes] in E; [injection E as <-; contradiction|]. apply obind_inv in E as (m1 & W & E). apply obind_inv in E as (r1 & W1 & E). injection E as <-.
  apply wr_kept in W as (P & B & [KL KK] & _). change (zlen [b]) with 1 in *. rewrite zlen_cons. pose proof (zlen_nonneg bs). destruct I as [<-|I]; [split; [exact KL|intros; apply KK; lia]|]. destruct (IH _ _ _ W1 mi I) as [L2 K2]. split; [lia|]. intros q k Q D. rewrite K2, KK by lia. reflexivity.
Qed.
Lemma wr_bytes_app a : forall m p b r, wr_bytes m p (a ++ b) = Ok r -> exists ra rb, r = ra ++ rb /\ wr_bytes m p a = Ok ra /\ wr_bytes (final m ra) (p + zlen a) b = Ok rb.
Proof.
  induction a as [|c a IH]; intros m p b r E; cbn [app wr_bytes] in *. { exists [], r. change (zlen (@nil Z)) with 0. rewrite Z.add_0_r. auto. }
  apply obind_inv in E as (m1 & W & E). apply obind_inv in E as (r1 & W1 & E). injection E as <-. destruct (IH _ _ _ _ W1) as (ra & rb & -> & A1 & A2). exists (m1 :: ra), rb. split; [reflexivity|]. rewrite W. cbn [obind]. rewrite A1. cbn [obind]. split; [reflexivity|]. rewrite final_one, zlen_cons. replace (p + (1 + zlen a)) with (p + 1 + zlen a) by lia. exact A2.
Qed.
Lemma zrepeat_some n : 0 < n -> zrepeat 0 n <> [].
Proof. intros N E. apply (f_equal zlen) in E. rewrite zrepeat_len in E. change (zlen (@nil Z)) with 0 in E. lia. Qed.

Lemma int_intro {A} x (k : Z -> outcome A) : int32 x -> int_ x k = k x.
Proof. unfold int_, int32b, int32. intro I. replace ((-2147483648 <=? x) && (x <=? 2147483647)) with true by lia. reflexivity. Qed.

Lemma allocate_same m n r tr : allocate_steps m n = Ok (r, tr) -> allocate m n = Ok (r, final m tr).
Proof.
  unfold allocate_steps, allocate. destruct (n <=? 0) eqn:N0; [intro E; injection E as <- <-; reflexivity|]. intro E. apply int_inv in E as [I E]. rewrite (int_intro _ _ I). apply obind_inv in E as (a & A & E). rewrite A. cbn [obind]. apply obind_inv in E as (l & LI & E). rewrite LI. cbn [obind]. apply int_inv in E as [I2 E]. rewrite (int_intro _ _ I2).
  destruct (l <? a + align_up 4 n); [injection E as <- <-; reflexivity|]. apply obind_inv in E as (tr1 & E1 & E). injection E as <- <-. unfold bytes_store, store in E1. apply obind_inv in E1 as (tr2 & E2 & E1). cbn [obind] in E2. apply obind_inv in E2 as (m1 & W1 & E2). injection E2 as <-. apply obind_inv in E1 as (r & W2 & E1). injection E1 as <-.
  change (final m []) with m in W1. rewrite W1. cbn [obind]. change (final m [m1]) with m1 in W2. rewrite (wr_bytes_wr _ _ _ _ W2) by (apply zrepeat_some; pose proof (align4_ge n); lia). cbn [obind]. cbn [app]. rewrite final_one. reflexivity.
Qed.
Lemma rd_not_nil m p n b : 0 < n -> rd m p n = Ok b -> b <> [].
Proof. intros N E ->. apply rd_inv in E as (_ & _ & _ & E); [|lia]. change (zlen (@nil Z)) with 0 in E. lia. Qed.
Lemma open_same fuel m t ok tr : Open_steps fuel m t = rret (ok, tr) -> Open fuel m t = rret (ok, final m tr).
Proof.
  unfold Open_steps, Open. intro E. apply rbind_inv in E as ([size m1] & SZ & E). rewrite SZ, rbind_rret. apply rbind_inv in E as (index & IX & E). rewrite IX. apply some_inj in IX. rewrite rbind_rret. apply rbind_inv in E as (names & NM & E). rewrite NM, rbind_rret. apply rbind_inv in E as (a & A & E). rewrite A, rbind_rret.
  destruct (_ && _); [apply rret_inj in E; injection E as <- <-; reflexivity|]. apply rbind_inv in E as ([x tr1] & AL & E). apply some_inj in AL. pose proof (allocate_same _ _ _ _ AL) as AS. rewrite AS, rbind_ok. destruct x as [x|]; [|apply rret_inj in E; injection E as <- <-; rewrite final_one; reflexivity].
  apply rbind_inv in E as (tr2 & W & E). apply some_inj in W. apply rret_inj in E. injection E as <- <-. apply obind_inv in W as (b & RB & W). unfold store, bytes_store in W. apply obind_inv in W as (tr3 & W & W3). apply obind_inv in W as (tr4 & W & W2). cbn [obind] in W. apply obind_inv in W as (r & W1 & W). injection W as <-.
  apply obind_inv in W2 as (m3 & W2 & E2). injection E2 as <-. apply obind_inv in W3 as (m4 & W3 & E3). injection E3 as <-.
  assert (S0 : 0 < size). { unfold allocate_steps in AL. destruct (Z.leb_spec size 0); [discriminate|lia]. }
  unfold copy. rewrite RB. cbn [obind]. rewrite (wr_bytes_wr _ _ _ _ W1 (rd_not_nil _ _ _ _ S0 RB)). cbn [obind]. rewrite final_app in W2. rewrite W2. cbn [obind]. rewrite final_app in W3. change (final (final m1 (tr1 ++ r)) [m3]) with m3 in W3. rewrite W3, rbind_ok, final_one, final_app. reflexivity.
Qed.
Lemma snoc_nil {A} (l : list A) x : l ++ [x] <> [].
Proof. destruct l; discriminate. Qed.
Lemma new_same fuel m t s ty id tr : register_new_steps fuel m t s ty = rret (id, tr) -> register_new fuel m t s ty = rret (id, final m tr).
Proof.
  unfold register_new_steps, register_new. intro E. apply rbind_inv in E as (tags & TG & E). rewrite TG, rbind_rret. destruct (_ && _); [apply rret_inj in E; injection E as <- <-; reflexivity|]. apply rbind_inv in E as ([ok tr1] & OP & E). rewrite (open_same _ _ _ _ _ OP), rbind_rret. destruct (negb ok); [apply rret_inj in E; injection E as <- <-; reflexivity|]. cbv zeta in E.
  apply rbind_inv in E as ([x tr2] & AL & E). apply some_inj in AL. rewrite (allocate_same _ _ _ _ AL), rbind_ok. destruct x as [x|]; [|apply rret_inj in E; injection E as <- <-; rewrite final_app; reflexivity]. apply rbind_inv in E as (mx & MX & E). rewrite MX, rbind_rret. apply rbind_inv in E as ([i tr3] & W & E). apply some_inj in W. apply rret_inj in E. injection E as -> ->. apply int_inv in W as [I W]. rewrite (int_intro _ _ I).
  apply obind_inv in W as (m3 & W1 & W). apply obind_inv in W as (m4 & W2 & W). apply obind_inv in W as (m5 & W3 & W). apply obind_inv in W as (r & W4 & W). injection W as <- <-. rewrite W1. cbn [obind]. rewrite W2. cbn [obind]. rewrite W3. cbn [obind]. rewrite (wr_bytes_wr _ _ _ _ W4 (snoc_nil _ _)). cbn [obind]. rewrite rbind_ok, !final_app, !final_one. reflexivity.
Qed.
Lemma register_same fuel m t s ty id tr : register_steps fuel m t s ty = rret (id, tr) -> register fuel m t s ty = rret (id, final m tr).
Proof.
  unfold register_steps, register. destruct (_ && negb _); [intro E; apply rret_inj in E; injection E as <- <-; reflexivity|]. intro E. apply rbind_inv in E as (tr0 & W & E). apply some_inj in W. cbv zeta in E.
  assert (W0 : (names <- t_names m t;; (if names =? 0 then a <- p_allocator m;; wr32 m (t + 4) a else Ok m)) = Ok (final m tr0)).
  { apply obind_inv in W as (names & NM & W). rewrite NM. cbn [obind]. destruct (names =? 0); [|injection W as <-; reflexivity]. apply obind_inv in W as (a & A & W). rewrite A. cbn [obind]. apply obind_inv in W as (m0 & W & E0). injection E0 as <-. exact W. }
  rewrite W0, rbind_ok. apply rbind_inv in E as (fl & FL & E). rewrite FL, rbind_rret. apply rbind_inv in E as (fo & FO & E). rewrite FO, rbind_rret.
  assert (NEW : rbind (register_new_steps fuel (final m tr0) t s ty) (fun '(id, tr) => rret (id, tr0 ++ tr)) = rret (id, tr) -> register_new fuel (final m tr0) t s ty = rret (id, final m tr)).
  { intro X. apply rbind_inv in X as ([i tr1] & X & X1). apply rret_inj in X1. injection X1 as <- <-. rewrite (new_same _ _ _ _ _ _ _ X), final_app. reflexivity. }
  destruct fo as [[[i o] old]|]; [|exact (NEW E)]. destruct (0 <=? i); [|exact (NEW E)]. apply rbind_inv in E as (tr1 & W1 & E). apply some_inj in W1. apply rret_inj in E. injection E as <- <-. rewrite final_app. destruct (negb (old =? ty)); [|injection W1 as <-; rewrite rbind_ok; reflexivity]. apply obind_inv in W1 as (m1 & W1 & X). injection X as <-. rewrite W1, rbind_ok. reflexivity.
Qed.

(** ** Before the number of names is raised *)
Lemma allocate_states m a n r tr : pool m a -> allocate_steps m n = Ok (r, tr) -> forall mi, In mi tr -> r = Some a /\ 0 < n /\ pool mi (a + align_up 4 n) /\ extends m a mi.
Proof.
  intros PO E mi I. assert (AS := allocate_same _ _ _ _ E). unfold allocate_steps in E. destruct (n <=? 0) eqn:N0; [injection E as <- <-; contradiction|]. apply int_inv in E as [_ E]. pose proof PO as (A & LI & _ & _ & BB & A4 & _). rewrite A in E. cbn [obind] in E. rewrite LI in E. cbn [obind] in E. apply int_inv in E as [I2 E].
  destruct (Z.ltb_spec (zlen m) (a + align_up 4 n)); [injection E as <- <-; contradiction|]. apply obind_inv in E as (tr1 & E1 & E). injection E as <- <-. apply (allocate_ok _ a) in AS; [|exact PO]. destruct AS as (_ & _ & POF & _ & LF & _). unfold bytes_store, store in E1. apply obind_inv in E1 as (tr2 & E2 & E1). cbn [obind] in E2. apply obind_inv in E2 as (m1 & W1 & E2). injection E2 as <-. apply obind_inv in E1 as (r & W2 & E1). injection E1 as <-.
  change (final m []) with m in W1. change (final m [m1]) with m1 in W2. pose proof (align4_ge n) as AG. unfold HEADER in BB. apply wr32_kept in W1 as (_ & _ & K1 & G1); [|exact I2].
  assert (P1 : pool m1 (a + align_up 4 n)). { destruct POF as (_ & _ & _ & _ & B2 & A2 & _). unfold pool, p_allocator, p_limit, p_file_size, p_mmap_size in *. pose proof (kept_len _ _ _ _ K1) as KL. destruct PO as (_ & Q2 & Q3 & Q4 & _ & _ & Q7). split; [exact G1|]. rewrite !(kept_s32 _ _ _ _ _ K1) by lia. rewrite KL. unfold HEADER. repeat (split; [assumption || lia|]). assumption. }
  assert (X1 : extends m a m1) by (destruct K1 as [KL KK]; split; [lia|]; intros q k Q D; apply KK; lia). split; [reflexivity|]. split; [lia|]. cbn [app] in I. destruct I as [<-|I]; [auto|].
  pose proof (wr_bytes_states _ _ _ _ W2 mi I) as K2. split; [apply (pool_kept m1 mi _ _ _ P1 K2); lia|]. destruct K2 as [L2 K2], X1 as [L1 X1]. split; [lia|]. intros q k Q D. rewrite K2, X1 by lia. reflexivity.
Qed.

Section Kill.
Context (m0 : list Z) (t u : Z) (L K : names) (B : list (Z * Z)) (TW : two t u).
(** What the killed program leaves: both dictionaries, the title and the blocks that were handed out *)
Definition holds mi a : Prop := inv mi t u L K B a /\ rd mi 4 28 = rd m0 4 28 /\ forall y k, In (y, k) B -> rd mi y k = rd m0 y k.
Lemma holds_step mi mj a a' : holds mi a -> inv mj t u L K B a' -> step mi mj a t -> holds mj a'.
Proof.
  intros (I & T & BL) I' [_ S]. split; [exact I'|]. pose proof (names_pool _ _ _ _ _ _ _ I) as [_ BB]. unfold two, TAGS, PARAMS, HEADER in *. split; [rewrite S by lia; exact T|]. intros y k J. specialize (BB y k J). rewrite S by lia. apply BL, J.
Qed.
Lemma holds_ext mi mj a a' : holds mi a -> pool mj a' -> a <= a' -> extends mi a mj -> holds mj a'.
Proof. intros H PO AA EX. apply (holds_step mi mj a a' H); [|apply step_ext, EX]. destruct H as [I _]. exact (inv_extends _ _ _ _ _ _ _ _ _ TW I PO AA EX). Qed.
Lemma holds_pool mi a : holds mi a -> pool mi a.
Proof. intros [I _]. apply (names_pool _ _ _ _ _ _ _ I). Qed.
Lemma holds_allocate mi a n r tr : holds mi a -> allocate_steps mi n = Ok (r, tr) -> forall mj, In mj (mi :: tr) -> exists a', holds mj a'.
Proof.
  intros H E mj [<-|J]; [eauto|]. destruct (allocate_states _ _ _ _ _ (holds_pool _ _ H) E mj J) as (_ & N & PO & EX). exists (a + align_up 4 n). apply (holds_ext mi mj a); auto. pose proof (align4_ge n). lia.
Qed.
Lemma holds_final mi a n r tr : holds mi a -> allocate_steps mi n = Ok (r, tr) -> exists a', holds (final mi tr) a'.
Proof. intros H E. apply (holds_allocate _ _ _ _ _ H E). unfold final. destruct tr as [|x l] using rev_ind; [left; reflexivity|]. rewrite last_last. right. apply in_or_app. right. left. reflexivity. Qed.
Lemma unindexed m n x : table m t n x L -> table m t n 0 L \/ x <> 0.
Proof. intro T. destruct (Z.eq_dec x 0) as [->|D]; auto. Qed.
Lemma holds_index mi mj a : holds mi a -> wr32 mi (t + 8) 0 = Ok mj -> holds mj a.
Proof.
  intros H W. pose proof H as [I _]. apply wr32_kept in W as (_ & _ & KE & G); [|unfold int32; lia]. pose proof (two_tab _ _ TW) as [IT IU].
  assert (ST : step mi mj a t) by (eapply step_tab; [exact KE|exact IT|lia|lia]). apply (holds_step mi mj a a H); [|exact ST].
  destruct I as (n & x & n' & x' & PO & T1 & T2 & SP). pose proof PO as (_ & _ & _ & _ & BB & _). assert (SPK : spread (regions n' x' K) a) by (apply spread_drop, spread_app in SP; apply SP). exists n, 0, n', x'. split; [apply (pool_kept mi mj a _ _ PO KE); unfold istab, TAGS, PARAMS in IT; lia|].
  split; [|split; [apply (table_step mi mj a t u); auto|]].
  - pose proof T1 as (MX & N & X & F & L1 & GD & ND & N4 & HS & IX). unfold tablef, t_max_id, t_names, t_index in *. rewrite (kept_s32 _ _ _ _ t KE), (kept_s32 _ _ _ _ (t + 4) KE) by lia. rewrite (kept_flags _ _ _ _ _ KE) by lia. do 2 (split; [assumption|]). split; [exact G|]. do 4 (split; [assumption|]). split; [exact N4|]. split; [|congruence].
    intro NE. apply (has_read mi); [exact (HS NE)|]. destruct (table_bound _ _ _ _ _ _ _ PO T1 SP NE) as [B1 B2]. destruct KE as [_ KE]. unfold istab, TAGS, PARAMS, HEADER in *. apply KE; [apply zlen_nonneg|lia].
  - unfold regions in *. rewrite <- app_assoc in SP. destruct (spread_app _ _ _ SP) as ([O1 I1] & SP2 & AP). pose proof (spread_drop _ _ _ SP2) as [O3 I3]. change (index_at 0 L) with (@nil (Z * Z)). rewrite app_nil_r. unfold names_at in *. destruct L as [|e L0]; [split; assumption|]. cbn [app]. split.
    + constructor; [|exact O3]. apply Forall_forall. intros c J. apply AP; [left; reflexivity|apply in_or_app; right; exact J].
    + intros y k [J|J]; [apply I1; left; exact J|apply I3, J].
Qed.
Lemma holds_open fuel mi a ok tr : holds mi a -> Open_steps fuel mi t = rret (ok, tr) -> forall mj, In mj tr -> exists a', holds mj a'.
Proof.
  intros H E mj J. assert (OS := open_same _ _ _ _ _ E). pose proof H as [I _]. destruct I as (n & x & n' & x' & PO & T1 & T2 & SP). pose proof (two_tab _ _ TW) as [IT IU]. pose proof PO as (A & _ & _ & _ & BB & _).
  unfold Open_steps in E. apply rbind_inv in E as ([size m1] & SZ & E). destruct (size_ok _ _ _ _ _ _ _ _ _ _ PO T1 SP SZ) as [-> ->]. apply rbind_inv in E as (index & IX & E). apply rbind_inv in E as (names & NM & E). rewrite A, rbind_ok in E.
  destruct (_ && _); [apply rret_inj in E; injection E as <- <-; destruct J as [<-|[]]; eauto|]. apply rbind_inv in E as ([y tr1] & AL & E). apply some_inj in AL. destruct y as [y|].
  2:{ apply rret_inj in E. injection E as <- <-. exact (holds_allocate _ _ _ _ _ H AL mj J). }
  apply rbind_inv in E as (tr2 & W & E). apply some_inj in W. apply rret_inj in E. injection E as <- <-. apply obind_inv in W as (b & RB & W). unfold store, bytes_store in W. apply obind_inv in W as (tr3 & W & W3). apply obind_inv in W as (tr4 & W & W2). cbn [obind] in W. apply obind_inv in W as (r & W1 & W). injection W as <-.
  apply obind_inv in W2 as (m3 & W2 & E2). injection E2 as <-. apply obind_inv in W3 as (m4 & W3 & E3). injection E3 as <-. rewrite final_app in W2.
  pose proof (allocate_same _ _ _ _ AL) as AS. apply (allocate_ok _ a) in AS; [|exact PO]. destruct AS as (S0 & -> & PO1 & EX & L1 & _). pose proof (align4_ge (zlen (stored 0 L))) as AG. unfold HEADER in BB.
  assert (H1 : holds (final mi tr1) (a + align_up 4 (zlen (stored 0 L)))) by (apply (holds_ext mi _ a); auto; lia).
  assert (HB : forall mk, In mk (final mi tr1 :: r) -> holds mk (a + align_up 4 (zlen (stored 0 L)))).
  { intros mk [<-|IK]; [exact H1|]. pose proof (wr_bytes_states _ _ _ _ W1 mk IK) as KE. assert (PK : pool mk (a + align_up 4 (zlen (stored 0 L)))) by (apply (pool_kept (final mi tr1) mk _ _ _ PO1 KE); lia). apply (holds_ext mi mk a); auto; [lia|]. destruct KE as [LK KE], EX as [_ EX]. split; [lia|]. intros q k Q D. rewrite KE, EX by lia. reflexivity. }
  assert (H2 : holds (final (final mi tr1) r) (a + align_up 4 (zlen (stored 0 L)))). { apply HB. unfold final. destruct r as [|c l] using rev_ind; [left; reflexivity|]. rewrite last_last. right. apply in_or_app. right. left. reflexivity. }
  assert (H3 := holds_index _ _ _ H2 W2).
  destruct J as [<-|J]; [eauto|]. rewrite !in_app_iff in J. destruct J as [[[J|J]|J]|J].
  - apply (holds_allocate _ _ _ _ _ H AL mj). right. exact J.
  - eexists. apply HB. right. exact J.
  - destruct J as [<-|[]]. eauto.
  - destruct J as [<-|[]]. rewrite final_one, final_app in OS. change (final (final mi ((tr1 ++ r) ++ [m3])) [m4]) with m4 in OS. destruct (open_ok _ _ _ _ _ _ _ _ _ _ PO IT T1 SP OS) as [[X _]|(_ & n2 & a2 & AA & PO2 & ST & TB2 & SP2 & _)]; [discriminate|]. exists a2. apply (holds_step mi m4 a a2 H); [|exact ST].
    exists n2, 0, n', x'. split; [exact PO2|]. split; [exact TB2|]. split; [|exact SP2]. assert (SPK : spread (regions n' x' K) a) by (apply spread_drop, spread_app in SP; apply SP). apply (table_step mi m4 a t u); auto.
Qed.
Lemma holds_new fuel mi a s ty id tr : holds mi a -> register_new_steps fuel mi t s ty = rret (id, tr) -> forall mj, In mj tr -> t_max_id mj t = t_max_id mi t -> exists a', holds mj a'.
Proof.
  intros H E mj J MX. pose proof (two_tab _ _ TW) as [IT IU]. unfold register_new_steps in E. apply rbind_inv in E as (tags & TG & E). destruct (_ && _); [apply rret_inj in E; injection E as <- <-; contradiction|]. apply rbind_inv in E as ([ok tr1] & OP & E). assert (HO := holds_open fuel mi a ok tr1 H OP). assert (OS := open_same _ _ _ _ _ OP). destruct ok; cbn [negb] in E; [|apply rret_inj in E; injection E as <- <-; exact (HO mj J)]. cbv zeta in E.
  assert (HF : exists a1, holds (final mi tr1) a1). { unfold final. destruct tr1 as [|c l] using rev_ind; [exists a; exact H|]. rewrite last_last. apply HO, in_or_app. right. left. reflexivity. }
  destruct HF as (a1 & HF). apply rbind_inv in E as ([x tr2] & AL & E). apply some_inj in AL. assert (HA := holds_allocate _ _ _ _ _ HF AL).
  destruct x as [x|]. 2:{ apply rret_inj in E. injection E as <- <-. apply in_app_or in J as [J|J]; [exact (HO mj J)|apply HA; right; exact J]. }
  apply rbind_inv in E as (mx & MX2 & E). apply some_inj in MX2. apply rbind_inv in E as ([i tr3] & W & E). apply some_inj in W. apply rret_inj in E. injection E as -> ->. apply int_inv in W as [I32 W].
  apply obind_inv in W as (m3 & W1 & W). apply obind_inv in W as (m4 & W2 & W). apply obind_inv in W as (m5 & W3 & W). apply obind_inv in W as (r & W4 & W). injection W as <- <-.
  rewrite !in_app_iff in J. destruct J as [J|[J|J]]; [exact (HO mj J)|apply HA; right; exact J|]. exfalso.
  destruct (holds_final _ _ _ _ _ HF AL) as (a2 & (n & x2 & n' & x' & PO2 & T1 & _) & _). pose proof T1 as (MZ & _). rewrite MX2 in MZ. injection MZ as ->.
  pose proof H as ((n3 & x3 & _ & _ & PO & T0 & _) & _). pose proof T0 as (MI & _). rewrite MI in MX.
  assert (XA : 60 <= x /\ t + 16 <= x). { pose proof (allocate_same _ _ _ _ AL) as AS. apply (allocate_ok _ a1) in AS; [|exact (holds_pool _ _ HF)]. destruct AS as (_ & -> & _). destruct (holds_pool _ _ HF) as (_ & _ & _ & _ & BB & _). unfold istab, TAGS, PARAMS, HEADER in *. lia. }
  apply wr32_kept in W1 as (_ & _ & _ & G1); [|exact I32]. destruct (wr_kept _ _ _ _ W2) as (_ & _ & K2 & _). destruct (wr_kept _ _ _ _ W3) as (_ & _ & K3 & _). assert (K4 := wr_bytes_states _ _ _ _ W4). unfold t_max_id in *.
  assert (R3 : rd_s32 m3 t = Ok (zlen L - 1 + 1)) by exact G1. assert (R4 : rd_s32 m4 t = Ok (zlen L - 1 + 1)) by (rewrite (kept_s32 _ _ _ _ _ K2) by lia; exact R3). assert (R5 : rd_s32 m5 t = Ok (zlen L - 1 + 1)) by (rewrite (kept_s32 _ _ _ _ _ K3) by lia; exact R4).
  assert (RJ : rd_s32 mj t = Ok (zlen L - 1 + 1)). { destruct J as [<-|[<-|[<-|J]]]; auto. rewrite (kept_s32 _ _ _ _ _ (K4 mj J)) by lia. exact R5. } rewrite RJ in MX. injection MX. lia.
Qed.
(** Where the names begin is stored first *)
Lemma holds_begin mi a mj : holds mi a -> t_names mi t = Ok 0 -> wr32 mi (t + 4) a = Ok mj -> holds mj a /\ L = [].
Proof.
  intros H N0 W. pose proof H as [(n & x & n' & x' & PO & T1 & T2 & SP) _]. pose proof (two_tab _ _ TW) as [IT IU]. pose proof PO as (_ & _ & _ & _ & BB & _). pose proof T1 as (_ & N & _). rewrite N0 in N. injection N as <-.
  destruct (names_set mi a t 0 x L _ PO IT T1 SP eq_refl) as (m1 & W1 & PO1 & ST & TB & LE & ->). rewrite W in W1. injection W1 as <-. split; [|exact LE]. apply (holds_step mi mj a a H); [|exact ST]. exists a, 0, n', x'. split; [exact PO1|]. split; [exact TB|]. assert (SPK : spread (regions n' x' K) a) by (apply spread_drop, spread_app in SP; apply SP). split; [apply (table_step mi mj a t u); auto|]. rewrite LE in *. exact SP.
Qed.
(** The parts of the registration of a new name *)
Lemma parts fuel m a s ty id tr : holds m a -> proper s -> place s L = None -> register_steps fuel m t s ty = rret (id, tr) ->
  tr = [] \/ exists tr0 tr1, tr = tr0 ++ tr1 /\ holds (final m tr0) a /\ (forall mi, In mi tr0 -> mi = final m tr0) /\ (exists n, t_names (final m tr0) t = Ok n /\ (L = [] -> n <> 0)) /\ register_new_steps fuel (final m tr0) t s ty = rret (id, tr1).
Proof.
  intros H PS PL E. pose proof (holds_pool _ _ H) as PO. unfold register_steps in E. destruct (_ && negb _); [apply rret_inj in E; injection E as <- <-; auto|]. right. apply rbind_inv in E as (tr0 & W & E). apply some_inj in W. cbv zeta in E. pose proof PO as (A & _ & _ & _ & BB & _). pose proof (two_tab _ _ TW) as [IT IU].
  assert (P0 : holds (final m tr0) a /\ (forall mi, In mi tr0 -> mi = final m tr0) /\ exists n, t_names (final m tr0) t = Ok n /\ (L = [] -> n <> 0)).
  { apply obind_inv in W as (names & NM & W). destruct (Z.eqb_spec names 0) as [->|N0].
    - rewrite A in W. cbn [obind] in W. apply obind_inv in W as (m1 & W & X). injection X as <-. change (final m [m1]) with m1. split; [apply (holds_begin m a m1 H NM W)|]. split; [intros mi [<-|[]]; reflexivity|]. apply wr32_kept in W as (_ & _ & _ & G); [|apply (pool_len _ _ PO)]. exists a. split; [exact G|]. unfold HEADER in BB. lia.
    - injection W as <-. change (final m []) with m. split; [exact H|]. split; [intros mi []|]. exists names. auto. }
  destruct P0 as (H0 & I0 & N0). exists tr0. pose proof H0 as [(n & x & n' & x' & PO0 & T1 & T2 & SP) _]. pose proof T1 as (_ & _ & _ & F & _). rewrite F, rbind_ok in E. change (Z.land 0 FAST_REG =? 0) with true in E. cbv iota in E. apply rbind_inv in E as (fo & FO & E). apply (getByName_ok (final m tr0) a t n x L (regions n' x' K ++ B)) in FO; auto. unfold found in FO. rewrite PL in FO. subst fo.
  apply rbind_inv in E as ([i tr1] & E1 & E). apply rret_inj in E. injection E as <- <-. exists tr1. auto.
Qed.
Lemma holds_before fuel m a s ty id tr : holds m a -> proper s -> place s L = None -> register_steps fuel m t s ty = rret (id, tr) -> forall mi, In mi (m :: tr) -> t_max_id mi t = t_max_id m t -> exists a', holds mi a'.
Proof.
  intros H PS PL E mi J MX. destruct J as [<-|J]; [eauto|]. destruct (parts _ _ _ _ _ _ _ H PS PL E) as [->|(tr0 & tr1 & -> & H0 & I0 & _ & E1)]; [contradiction|]. apply in_app_or in J as [J|J]; [rewrite (I0 mi J); eauto|]. apply (holds_new _ _ _ _ _ _ _ H0 E1 mi J). rewrite MX.
  destruct H as ((n1 & x1 & ? & ? & _ & T1 & _) & _), H0 as ((n2 & x2 & ? & ? & _ & T2 & _) & _). destruct T1 as (-> & _), T2 as (-> & _). reflexivity.
Qed.
End Kill.

(** ** A table that was begun *)
Lemma stuck m t u K B a n s ty fuel : two t u -> inv m t u [] K B a -> t_names m t = Ok n -> n <> 0 -> n <> a -> proper s -> (0 < fuel)%nat -> register fuel m t s ty = rret (-1, m).
Proof.
  intros TW (n1 & x & n' & x' & PO & T1 & T2 & SP) N N0 NA PS FU. pose proof T1 as (MX & N1 & X & F & _ & _ & _ & _ & _ & IX). rewrite N in N1. injection N1 as <-. assert (x = 0) by (destruct (Z.eq_dec x 0) as [|D]; [assumption|destruct (IX D); congruence]). subst x. pose proof PO as (A & _).
  unfold register. destruct (_ && negb _); [reflexivity|]. rewrite N. cbn [obind]. destruct (Z.eqb_spec n 0); [contradiction|]. rewrite rbind_ok, F, rbind_ok. change (Z.land 0 FAST_REG =? 0) with true. cbv iota. rewrite (getByName_some m a t n 0 [] _ s fuel PO T1 SP PS) by (cbn; lia). rewrite rbind_rret. cbn [found place]. unfold register_new.
  assert (TG : exists k, t_names m TAGS = Ok k). { destruct TW as [[-> ->]|[-> ->]]; [eauto|]. exists n'. apply T2. } destruct TG as (k & TG). rewrite TG, rbind_ok. destruct (_ && _); [reflexivity|]. unfold Open. rewrite (size_some _ _ _ _ _ _ _ fuel PO T1 SP) by (cbn; lia). rewrite rbind_rret, X, rbind_ok, N, rbind_ok, A, rbind_ok. change (zlen (stored 0 [])) with 0.
  replace ((0 =? 0) && (n + 0 =? a)) with false by lia. reflexivity.
Qed.
Lemma begun m t u K B a fuel s ty id tr : two t u -> inv m t u [] K B a -> proper s -> register_steps fuel m t s ty = rret (id, tr) -> id <> -1 -> 0 <= ty < 256 ->
  exists mi, In mi tr /\ (exists a', holds m t u [] K B mi a') /\ forall fuel' s' ty', (0 < fuel')%nat -> proper s' -> register fuel' mi t s' ty' = rret (-1, mi).
Proof.
  intros TW I PS E ID TY. assert (H : holds m t u [] K B m a) by (split; [exact I|auto]). destruct (parts m t u [] K B TW fuel m a s ty id tr H PS eq_refl E) as [->|(tr0 & tr1 & -> & H0 & I0 & (n & NM & N0) & E1)].
  { exfalso. apply register_same in E. change (final m []) with m in E. destruct (inv_register _ _ _ _ _ _ _ _ _ _ _ _ TW I PS TY ltac:(right; reflexivity) E) as (_ & _ & a' & _ & (n1 & x1 & _ & _ & _ & T1 & _)). destruct I as (n2 & x2 & _ & _ & _ & T2 & _). destruct T1 as (M1 & _), T2 as (M2 & _). rewrite M1 in M2. replace (id =? -1) with false in M2 by lia. discriminate M2. }
  specialize (N0 eq_refl). set (m1 := final m tr0) in *. pose proof H0 as [(n1 & x & n' & x' & PO & T1 & T2 & SP) _]. pose proof T1 as (MX & N1 & X & F & _ & _ & _ & _ & _ & IX). rewrite NM in N1. injection N1 as <-. assert (x = 0) by (destruct (Z.eq_dec x 0) as [|D]; [assumption|destruct (IX D); congruence]). subst x. pose proof PO as (A & _ & _ & _ & BB & _).
  unfold register_new_steps in E1. apply rbind_inv in E1 as (tags & TG & E1). destruct (_ && _); [apply rret_inj in E1; congruence|]. apply rbind_inv in E1 as ([ok tr2] & OP & E1). unfold Open_steps in OP. apply rbind_inv in OP as ([size m2] & SZ & OP). destruct (size_ok _ _ _ _ _ _ _ _ _ _ PO T1 SP SZ) as [-> ->]. rewrite X, rbind_ok, NM, rbind_ok, A, rbind_ok in OP. change (zlen (stored 0 [])) with 0 in OP.
  destruct (Z.eqb_spec (n + 0) a) as [NA|NA]; cbn [Z.eqb andb] in OP. 2:{ change (allocate_steps m1 0) with (Ok (@None Z, @nil (list Z))) in OP. rewrite rbind_ok in OP. apply rret_inj in OP. injection OP as <- <-. cbn [negb] in E1. apply rret_inj in E1. congruence. }
  apply rret_inj in OP. injection OP as <- <-. cbn [negb] in E1. cbv zeta in E1. change (final m1 [m1]) with m1 in E1. apply rbind_inv in E1 as ([y tr3] & AL & E1). apply some_inj in AL. destruct y as [y|]; [|apply rret_inj in E1; congruence].
  assert (NE : exists mi r, tr3 = mi :: r). { destruct tr3 as [|mi r]; [|eauto]. exfalso. apply allocate_same in AL. change (final m1 []) with m1 in AL. apply (allocate_ok _ a) in AL; [|exact PO]. destruct AL as (S0 & _ & (A2 & _) & _). rewrite A in A2. injection A2. pose proof (align4_ge (4 + zlen s)). lia. }
  destruct NE as (mi & r & ->). exists mi. apply rbind_inv in E1 as (mx & MX2 & E1). apply rbind_inv in E1 as ([i tr4] & W & E1). apply some_inj in W. apply rret_inj in E1. injection E1 as -> ->. apply int_inv in W as [_ W]. apply obind_inv in W as (m3 & _ & W). apply obind_inv in W as (m4 & _ & W). apply obind_inv in W as (m5 & _ & W). apply obind_inv in W as (r5 & _ & W). injection W as _ <-.
  split; [apply in_or_app; right; cbn; auto|]. destruct (allocate_states _ _ _ _ _ PO AL mi (or_introl eq_refl)) as (_ & S0 & POI & EX). pose proof (align4_ge (4 + zlen s)) as AG. assert (HI : holds m t u [] K B mi (a + align_up 4 (4 + zlen s))) by (apply (holds_ext m t u [] K B TW m1 mi a); auto; lia).
  split; [eauto|]. intros fuel' s' ty' FU PS'. destruct HI as [II _]. apply (stuck mi t u K B _ n s' ty' fuel' TW II); auto; [|lia]. unfold t_names, rd_s32 in *. destruct EX as [_ EX]. rewrite EX; [exact NM|lia|]. unfold two, TAGS, PARAMS, HEADER in *. lia.
Qed.

(** ** A part of the name *)
Lemma torn m a t u n L R p r ty x m2 m3 m4 m5 mi : pool m a -> two t u -> table m t n 0 L -> spread (regions n 0 L ++ R) a -> n + zlen (stored 0 L) = a -> proper p -> 0 <= ty < 256 -> place p L = None -> zlen L < 128 ->
  allocate m (4 + zlen (p ++ r)) = Ok (Some x, m2) -> wr32 m2 t (zlen L) = Ok m3 -> wr m3 x (le 2 (zlen L)) = Ok m4 -> wr m4 (x + 2) [ty] = Ok m5 -> kept m5 mi (x + 3) (zlen p) -> rd mi (x + 3) (zlen p) = Ok p ->
  exists a', a <= a' /\ pool mi a' /\ step m mi a t /\ table mi t n 0 (L ++ [(p, ty)]) /\ spread (regions n 0 (L ++ [(p, ty)]) ++ R) a'.
Proof.
  intros PO TW TB SP NA PS TY NW LT AL W1 W2 W3 K4 G4. pose proof (two_tab _ _ TW) as [IT IU]. apply (allocate_ok _ a) in AL; [|exact PO]. destruct AL as (S0 & -> & PO2 & EX & L2 & Z0).
  pose proof PO as (_ & _ & _ & _ & B1 & A14 & _). pose proof PO2 as (_ & _ & _ & _ & B2 & A24 & _). pose proof (pool_len _ _ PO2) as [IZ2 IA2]. pose proof TB as (MX & N & X & F & L1 & G & ND & N4 & H & IX).
  unfold HEADER, istab, TAGS, PARAMS in *. replace (4 + zlen (p ++ r)) with (zlen (p ++ r) + 4) in * by lia. change (align_up 4 (zlen (p ++ r) + 4)) with (esize (p ++ r)) in *. assert (ER : esize p <= esize (p ++ r)) by (unfold esize, align_up; rewrite zlen_app; pose proof (zlen_nonneg r); lia).
  pose proof (esize_ge p) as [ES E4]. pose proof (esize_ge (p ++ r)) as [ESR _]. pose proof (zlen_nonneg p) as SL. pose proof (zlen_nonneg L) as LL.
  apply wr32_kept in W1 as (_ & _ & K1 & G1); [|unfold int32; lia]. destruct (wr_kept _ _ _ _ W2) as (_ & _ & K2 & G2). destruct (wr_kept _ _ _ _ W3) as (_ & _ & K3 & G3).
  rewrite le_zlen in K2, G2. change (Z.of_nat 2) with 2 in K2, G2. change (zlen [ty]) with 1 in K3, G3. assert (KL : zlen mi = zlen m2) by (destruct K1, K2, K3, K4; lia). clear W2 W3.
  exists (a + esize (p ++ r)). split; [lia|].
  split. { unfold pool, p_allocator, p_limit, p_file_size, p_mmap_size in *. rewrite !(kept_s32 _ _ _ _ _ K4), !(kept_s32 _ _ _ _ _ K3), !(kept_s32 _ _ _ _ _ K2), !(kept_s32 _ _ _ _ _ K1) by lia. rewrite KL. exact PO2. }
  split. { apply (step_trans _ m2 _ a a); [apply step_ext, EX| |lia]. apply (step_trans _ m3 _ a a); [eapply step_tab; [exact K1|exact IT|lia|lia]| |lia].
    apply (step_trans _ m4 _ a a); [eapply step_hi; [exact K2|lia|lia]| |lia]. apply (step_trans _ m5 _ a a); [eapply step_hi; [exact K3|lia|lia]|eapply step_hi; [exact K4|lia|lia]|lia]. }
  assert (LA : zlen (L ++ [(p, ty)]) = zlen L + 1) by (rewrite zlen_app; reflexivity).
  assert (SA : stored 0 (L ++ [(p, ty)]) = stored 0 L ++ entry (zlen L) p ty). { rewrite stored_app. cbn [stored]. rewrite app_nil_r. reflexivity. }
  destruct EX as [_ EX]. destruct K1 as [_ K1], K2 as [_ K2], K3 as [_ K3], K4 as [_ K4].
  assert (HE : has mi a (entry (zlen L) p ty)).
  { apply has_range_rd. rewrite entry_len. unfold entry. replace (esize p) with (2 + (1 + (zlen p + (esize p - (zlen p + 4) + 1)))) at 1 by lia. rewrite (rd_split mi a 2) by lia. rewrite (rd_split mi (a + 2) 1) by lia. rewrite (rd_split mi (a + 2 + 1) (zlen p)) by lia.
    replace (a + 2 + 1) with (a + 3) by lia. rewrite (K4 a 2) by lia. rewrite (K3 a 2) by lia. rewrite G2. cbn [obind]. rewrite (K4 (a + 2) 1) by lia. rewrite G3. cbn [obind]. rewrite G4. cbn [obind].
    rewrite K4, K3, K2, K1 by lia. rewrite (zeros_part m2 a (a + 3 + zlen p) (esize p - (zlen p + 4) + 1) (esize (p ++ r)) Z0) by lia. cbn [obind]. rewrite zrepeat_S by lia. reflexivity. }
  split.
  - unfold tablef, t_max_id, t_names, t_index. rewrite LA. split. { unfold rd_s32 in *. rewrite K4, K3, K2 by lia. rewrite G1. f_equal. lia. }
    split. { unfold t_names, rd_s32 in *. rewrite K4, K3, K2, K1, EX by lia. exact N. } split. { unfold t_index, rd_s32 in *. rewrite K4, K3, K2, K1, EX by lia. exact X. }
    split. { rewrite <- F. apply flags_rd. rewrite K4, K3, K2, K1, EX by lia. reflexivity. }
    split; [lia|]. split. { apply Forall_app. split; [exact G|]. constructor; [|constructor]. auto. }
    split. { rewrite map_app. cbn [map fst]. apply NoDup_snoc; [exact ND|apply place_none, NW]. }
    split; [exact N4|]. split; [intros _|congruence].
    rewrite SA. apply has_range_rd. rewrite zlen_app, rd_split by apply zlen_nonneg. rewrite NA, (has_rd _ _ _ HE). destruct L as [|e L].
    + cbn [stored]. change (zlen (@nil Z)) with 0. change (zlen (stored 0 [])) with 0 in NA. rewrite rd_none by lia. reflexivity.
    + set (L0 := e :: L) in *. destruct (table_bound _ _ _ _ _ _ _ PO TB SP ltac:(discriminate)) as [N1 N2]. unfold HEADER in N1. pose proof (zlen_nonneg (stored 0 L0)). rewrite K4, K3, K2, K1, EX by lia. rewrite (has_rd _ _ _ (H ltac:(discriminate))). reflexivity.
  - assert (RG : regions n 0 (L ++ [(p, ty)]) = [(n, zlen (stored 0 L) + esize p)]). { unfold regions, index_at, names_at. cbn [Z.eqb]. rewrite app_nil_r. rewrite SA, zlen_app, entry_len. destruct L; reflexivity. }
    rewrite RG. cbn [app]. pose proof (zlen_nonneg (stored 0 L)). destruct (spread_app _ _ _ SP) as (_ & [O2 I2] & AP). assert (HN : 92 <= n). { destruct L; [change (zlen (stored 0 [])) with 0 in NA; lia|]. apply (table_bound _ _ _ _ _ _ _ PO TB SP); discriminate. }
    split.
    + constructor; [|exact O2]. apply Forall_forall. intros [y k] I. destruct (I2 y k I) as (Y1 & Y2 & Y3). right. cbn. destruct L as [|e L]; [change (zlen (stored 0 [])) with 0 in *; lia|]. specialize (AP (n, zlen (stored 0 (e :: L))) (y, k) (region_names n 0 (e :: L) ltac:(discriminate)) I). unfold apart in AP. cbn [fst snd] in AP. lia.
    + intros y k [I|I]; [injection I as <- <-; unfold HEADER; lia|]. specialize (I2 y k I). lia.
Qed.
Lemma final_in m tr : tr <> [] -> In (final m tr) tr.
Proof. intro NE. unfold final. destruct tr as [|c l] using rev_ind; [congruence|]. rewrite last_last. apply in_or_app. right. left. reflexivity. Qed.
Lemma torn_steps m t u L K B a fuel p r ty id tr : two t u -> inv m t u L K B a -> proper (p ++ r) -> p <> [] -> place (p ++ r) L = None -> place p L = None -> zlen L < 128 -> 0 <= ty < 256 ->
  register_steps fuel m t (p ++ r) ty = rret (id, tr) -> id <> -1 -> exists mi a', In mi tr /\ holds m t u (L ++ [(p, ty)]) K B mi a'.
Proof.
  intros TW I PS PN PL PLP LT TY E ID. assert (PP : proper p). { split; [|exact PN]. destruct PS as [CS _]. unfold cstring in *. apply Forall_app in CS. apply CS. }
  assert (H : holds m t u L K B m a) by (split; [exact I|auto]). destruct (parts m t u L K B TW fuel m a _ ty id tr H PS PL E) as [->|(tr0 & tr1 & -> & H0 & I0 & _ & E1)].
  { exfalso. apply register_same in E. change (final m []) with m in E. destruct (inv_register _ _ _ _ _ _ _ _ _ _ _ _ TW I PS TY (or_intror LT) E) as (_ & _ & a' & _ & (n1 & x1 & _ & _ & _ & T1 & _)). destruct I as (n2 & x2 & _ & _ & _ & T2 & _). destruct T1 as (M1 & _), T2 as (M2 & _). rewrite M1 in M2. replace (id =? -1) with false in M2 by lia. rewrite noted_new, zlen_app in M2 by exact PL. injection M2. change (zlen [(p ++ r, ty)]) with 1. lia. }
  set (m1 := final m tr0) in *. pose proof H0 as [(n & x & n' & x' & PO & T1 & T2 & SP) [TI BL]]. pose proof (two_tab _ _ TW) as [IT IU]. unfold register_new_steps in E1. apply rbind_inv in E1 as (tags & TG & E1). destruct (_ && _); [apply rret_inj in E1; congruence|]. apply rbind_inv in E1 as ([ok tr2] & OP & E1). destruct ok; cbn [negb] in E1; [|apply rret_inj in E1; congruence]. cbv zeta in E1.
  apply open_same in OP. destruct (open_ok _ _ _ _ _ _ _ _ _ _ PO IT T1 SP OP) as [[X _]|(_ & n2 & a2 & AA & PO2 & ST2 & TB2 & SP2 & NA & _)]; [discriminate|]. set (m2 := final m1 tr2) in *. apply rbind_inv in E1 as ([y tr3] & AL & E1). apply some_inj in AL. destruct y as [y|]; [|apply rret_inj in E1; congruence]. apply allocate_same in AL. set (m3 := final m2 tr3) in *.
  apply rbind_inv in E1 as (mx & MX & E1). apply some_inj in MX. apply rbind_inv in E1 as ([i tr4] & W & E1). apply some_inj in W. apply rret_inj in E1. injection E1 as -> ->. apply int_inv in W as [I32 W].
  assert (MXL : mx = zlen L - 1). { pose proof AL as AO. apply (allocate_ok _ a2) in AO; [|exact PO2]. destruct AO as (_ & _ & _ & [_ EX] & _). pose proof TB2 as (M2 & _). pose proof PO2 as (_ & _ & _ & _ & BB & _). unfold t_max_id, rd_s32 in *. rewrite EX in MX; [rewrite M2 in MX; congruence|lia|unfold istab, TAGS, PARAMS, HEADER in *; lia]. }
  subst mx. apply obind_inv in W as (m4 & W1 & W). apply obind_inv in W as (m5 & W2 & W). apply obind_inv in W as (m6 & W3 & W). apply obind_inv in W as (r5 & W4 & W). injection W as _ <-. replace (zlen L - 1 + 1) with (zlen L) in W1, W2 by lia.
  rewrite <- app_assoc in W4. apply wr_bytes_app in W4 as (ra & rb & -> & W4 & _). destruct (wr_bytes_bound _ _ _ _ W4 PN) as [P0 PB]. destruct (wr_bytes_kept _ _ _ _ W4 P0 PB) as [K4 G4].
  assert (RA : ra <> []). { intros ->. destruct p as [|c p]; [congruence|]. cbn [wr_bytes] in W4. apply obind_inv in W4 as (? & _ & W4). apply obind_inv in W4 as (? & _ & W4). discriminate. }
  destruct (torn m2 a2 t u n2 L (regions n' x' K ++ B) p r ty y m3 m4 m5 m6 (final m6 ra) PO2 TW TB2 SP2 NA PP TY PLP LT AL W1 W2 W3 K4 G4) as (a3 & A3 & PO3 & ST3 & TB3 & SP3).
  exists (final m6 ra), a3. split. { do 3 (apply in_or_app; right). do 3 right. apply in_or_app. left. apply final_in, RA. }
  assert (ST : step m1 (final m6 ra) a t) by (apply (step_trans _ m2 _ a a2); auto). assert (SPK : spread (regions n' x' K) a) by (apply spread_drop, spread_app in SP; apply SP). split; [|split].
  - exists n2, 0, n', x'. split; [exact PO3|]. split; [exact TB3|]. split; [|exact SP3]. apply (table_step m1 _ a t u); auto.
  - destruct ST as [_ S]. rewrite S; [exact TI|lia|lia|unfold istab, TAGS, PARAMS in IT; lia].
  - intros q k J. destruct ST as [_ S]. assert (QB : HEADER <= q /\ 0 < k /\ q + k <= a) by (apply (spread_in _ _ _ _ SP); rewrite !in_app_iff; auto). unfold istab, TAGS, PARAMS, HEADER in *. rewrite S by lia. apply BL, J.
Qed.
