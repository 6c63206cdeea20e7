(** Registering a name is the stores it is made of. *)
From Verif Require Import Base BaseFacts Types ListFacts Sort Xb XbSpec XbFacts XbWrite WriteProofs Bw BwFacts BwSpec BwHist BwAlloc BwSym BwFile BwReg BwFileSpec BwFileProofs BwNamesOps BwNamesReg BwOpenProofs BwRegSteps BwRegKill JsonSource.

Lemma wr_steps m p bs m' : wr m p bs = Ok m' -> exists r, wr_bytes m p bs = Ok r /\ final m r = m'.
Proof.
  intro W. destruct (wr_kept _ _ _ _ W) as (P & B & K & R). destruct (wr_bytes_some bs m p P B) as (r & E & _). exists r. split; [exact E|]. destruct (wr_bytes_kept _ _ _ _ E P B) as [K' R']. apply (kept_unique m (final m r) m' p (zlen bs)); auto; [apply zlen_nonneg|congruence].
Qed.
Lemma allocate_split m n r m' : allocate m n = Ok (r, m') -> exists tr, allocate_steps m n = Ok (r, tr) /\ final m tr = m'.
Proof.
  unfold allocate_steps, allocate. destruct (n <=? 0); [intro E; injection E as <- <-; exists []; auto|]. intro E. apply int_inv in E as [I E]. rewrite (int_intro _ _ I). cbv zeta in *. apply obind_inv in E as (a & A & E). rewrite A. cbn [obind]. apply obind_inv in E as (l & LI & E). rewrite LI. cbn [obind]. apply int_inv in E as [I2 E]. rewrite (int_intro _ _ I2).
  destruct (l <? a + align_up 4 n); [injection E as <- <-; exists []; auto|]. apply obind_inv in E as (m1 & W1 & E). apply obind_inv in E as (m2 & W2 & E). injection E as <- <-. apply wr_steps in W2 as (r & W2 & <-). unfold bytes_store, store. cbn [obind]. change (final m []) with m. rewrite W1. cbn [obind app]. change (final m [m1]) with m1. rewrite W2. cbn [obind]. exists ([m1] ++ r). split; [reflexivity|]. cbn [app]. rewrite final_one. reflexivity.
Qed.
Lemma open_split fuel m t ok m' : Open fuel m t = rret (ok, m') -> exists tr, Open_steps fuel m t = rret (ok, tr) /\ final m tr = m'.
Proof.
  unfold Open_steps, Open. intro E. apply rbind_inv in E as ([size m1] & SZ & E). rewrite SZ, rbind_rret. apply rbind_inv in E as (index & IX & E). rewrite IX, rbind_rret. apply rbind_inv in E as (names & NM & E). rewrite NM, rbind_rret. apply rbind_inv in E as (a & A & E). rewrite A, rbind_rret.
  destruct (_ && _); [apply rret_inj in E; injection E as <- <-; eexists; split; reflexivity|]. apply rbind_inv in E as ([x m2] & AL & E). apply some_inj in AL. apply allocate_split in AL as (tr1 & AL & <-). rewrite AL, rbind_ok. destruct x as [x|]; [|apply rret_inj in E; injection E as <- <-; eexists; split; [reflexivity|apply final_one]].
  apply rbind_inv in E as (m5 & W & E). apply some_inj in W. apply rret_inj in E. injection E as <- <-. unfold copy in W. apply obind_inv in W as (m3 & W & W2). apply obind_inv in W as (b & RB & W1). apply obind_inv in W2 as (m4 & W2 & W3). apply wr_steps in W1 as (r & W1 & <-).
  rewrite RB. unfold store, bytes_store. cbn [obind]. rewrite W1. cbn [obind]. rewrite final_app, W2. cbn [obind]. rewrite (final_app m1 (tr1 ++ r)). change (final (final m1 (tr1 ++ r)) [m4]) with m4. rewrite W3. cbn [obind]. rewrite rbind_ok. eexists. split; [reflexivity|]. rewrite final_one, final_app. reflexivity.
Qed.
Lemma new_split fuel m t s ty id m' : register_new fuel m t s ty = rret (id, m') -> exists tr, register_new_steps fuel m t s ty = rret (id, tr) /\ final m tr = m'.
Proof.
  unfold register_new_steps, register_new. intro E. apply rbind_inv in E as (tags & TG & E). rewrite TG, rbind_rret. destruct (_ && _); [apply rret_inj in E; injection E as <- <-; exists []; auto|]. apply rbind_inv in E as ([ok m1] & OP & E). apply open_split in OP as (tr1 & OP & <-). rewrite OP, rbind_rret. destruct (negb ok); [apply rret_inj in E; injection E as <- <-; eauto|]. cbv zeta.
  apply rbind_inv in E as ([x m2] & AL & E). apply some_inj in AL. apply allocate_split in AL as (tr2 & AL & <-). rewrite AL, rbind_ok. destruct x as [x|]; [|apply rret_inj in E; injection E as <- <-; eexists; split; [reflexivity|apply final_app]]. apply rbind_inv in E as (mx & MX & E). rewrite MX, rbind_rret. apply rbind_inv in E as ([i m7] & W & E). apply some_inj in W. apply rret_inj in E. injection E as -> ->. apply int_inv in W as [I W]. rewrite (int_intro _ _ I).
  apply obind_inv in W as (m3 & W1 & W). apply obind_inv in W as (m4 & W2 & W). apply obind_inv in W as (m5 & W3 & W). apply obind_inv in W as (m6 & W4 & W). injection W as <- <-. apply wr_steps in W4 as (r & W4 & <-). rewrite W1. cbn [obind]. rewrite W2. cbn [obind]. rewrite W3. cbn [obind]. rewrite W4. cbn [obind]. rewrite rbind_ok. eexists. split; [reflexivity|]. rewrite !final_app, !final_one. reflexivity.
Qed.
Lemma register_split fuel m t s ty id m' : register fuel m t s ty = rret (id, m') <-> exists tr, register_steps fuel m t s ty = rret (id, tr) /\ final m tr = m'.
Proof.
  split; [|intros (tr & E & <-); apply register_same, E].
  unfold register_steps, register. destruct (_ && negb _); [intro E; apply rret_inj in E; injection E as <- <-; exists []; auto|]. intro E. apply rbind_inv in E as (m1 & W & E). apply some_inj in W.
  assert (W0 : exists tr0, (names <- t_names m t;; (if names =? 0 then a <- p_allocator m;; m0 <- wr32 m (t + 4) a;; Ok [m0] else Ok [])) = Ok tr0 /\ final m tr0 = m1).
  { apply obind_inv in W as (names & NM & W). rewrite NM. cbn [obind]. destruct (names =? 0); [|injection W as <-; exists []; auto]. apply obind_inv in W as (a & A & W). rewrite A. cbn [obind]. rewrite W. cbn [obind]. exists [m1]. auto. }
  destruct W0 as (tr0 & W0 & <-). rewrite W0, rbind_ok. cbv zeta. apply rbind_inv in E as (fl & FL & E). rewrite FL, rbind_rret. apply rbind_inv in E as (fo & FO & E). rewrite FO, rbind_rret.
  assert (NEW : register_new fuel (final m tr0) t s ty = rret (id, m') -> exists tr, rbind (register_new_steps fuel (final m tr0) t s ty) (fun '(id, tr) => rret (id, tr0 ++ tr)) = rret (id, tr) /\ final m tr = m').
  { intro X. apply new_split in X as (tr1 & X & <-). rewrite X, rbind_rret. eexists. split; [reflexivity|apply final_app]. }
  destruct fo as [[[i o] old]|]; [|exact (NEW E)]. destruct (0 <=? i); [|exact (NEW E)]. apply rbind_inv in E as (m2 & W1 & E). apply some_inj in W1. apply rret_inj in E. injection E as <- <-. destruct (negb (old =? ty)).
  - rewrite W1. cbn [obind]. rewrite rbind_ok. eexists. split; [reflexivity|]. rewrite final_app. reflexivity.
  - injection W1 as <-. rewrite rbind_ok. eexists. split; [reflexivity|]. rewrite final_app. reflexivity.
Qed.
