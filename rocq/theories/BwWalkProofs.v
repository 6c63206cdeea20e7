(** Walks through pools *)
From Verif Require Import Base BaseFacts Types ListFacts Sort Symtab Xb XbSpec XbFacts XbWrite WriteProofs Bw BwFacts BwRing BwSpec BwHist BwAlloc BwProofs BwRead BwTop BwSym BwFile BwReg BwFileSpec BwFileProofs BwNamesSpec BwNamesFacts BwNamesInv BwNamesReg BwNamesOps BwNamesIndex BwNamesProofs BwLifeSpec BwLife BwTitle BwSet BwSource BwSourceProofs WalkSpec BwWalk BwWalkSpec.
From Verif Require Import BwCopyTop.
From Verif Require BwCopyProofs.

Lemma hangs_rec F (Q : itree -> Prop) : (forall x kids, In x (members F) -> owned F x true (map place kids) -> Forall (hangs F) kids -> Forall Q kids -> Q (At x kids)) -> forall t, hangs F t -> Q t.
Proof. intro H. fix IH 2. intros t [x kids I O K]. apply H; auto. clear - IH K. induction K as [|c l HH FF IHF]; constructor; [apply IH; exact HH|exact IHF]. Qed.
Lemma hangs_in F t : hangs F t -> In (place t) (members F).
Proof. intros [x kids I _ _]. exact I. Qed.

Lemma nodup_join {A} (l1 l2 : list A) : NoDup l1 -> NoDup l2 -> (forall x, In x l1 -> In x l2 -> False) -> NoDup (l1 ++ l2).
Proof. induction 1 as [|x l N _ IH]; intros N2 D; [exact N2|]. cbn [app]. constructor; [intro J; apply in_app_or in J as [J|J]; [contradiction|apply (D x); [left; reflexivity|exact J]]|]. apply IH; [exact N2|]. intros y J1 J2. apply (D y); [right; exact J1|exact J2]. Qed.

(** ** The order *)
Section Order.
Variables (k : Z -> bool) (s : Z -> Z) (m : list Z) (T P : names) (F : forest).
Hypothesis LI : life k s m T P F.
Lemma members_nodup : NoDup (members F) /\ NoDup (owners F).
Proof. destruct (life_whole _ _ _ _ _ _ LI) as (B & a & _ & (h & b & _ & _ & S) & _). split; apply S. Qed.
Lemma walk_ok lf : (List.length (members F) <= lf)%nat -> forall t, hangs F t -> forall fuel deep, (levels t <= fuel)%nat -> pool_walk fuel lf m (place t) deep = rret ((place t, deep) :: parents_first (deep + 1) t).
Proof.
  intro LF. apply (hangs_rec F (fun t => forall fuel deep, (levels t <= fuel)%nat -> pool_walk fuel lf m (place t) deep = rret ((place t, deep) :: parents_first (deep + 1) t))).
  intros x kids IX OL HK IH fuel deep FU. destruct fuel as [|fuel]; [cbn in FU; lia|]. cbn [pool_walk place].
  destruct (pool_of _ _ _ _ _ _ LI) as (a & PO & EL & _). rewrite (for_all_ok (plugin_bwe m) m x (x + 16) (map place kids) lf).
  - rewrite rbind_rret. assert (KF : forall c, In c kids -> (levels c <= fuel)%nat). { intros c J. cbn [levels] in FU. assert (levels c <= fold_right Nat.max 0 (map levels kids))%nat; [|lia]. clear - J. induction kids as [|d l IHl]; [contradiction|]. cbn. destruct J as [->|J]; [lia|specialize (IHl J); lia]. }
    assert (E : each (fun c => pool_walk fuel lf m c (deep + 1)) (map place kids) = rret (map (fun t => (place t, deep + 1) :: parents_first (deep + 1 + 1) t) kids)).
    { clear - IH KF. induction IH as [|c l HC _ IHl]; [reflexivity|]. cbn [map each]. rewrite HC, rbind_rret, IHl, rbind_rret by (auto; intros; apply KF; cbn; auto). reflexivity. }
    rewrite E, rbind_rret. cbn [parents_first]. rewrite flat_map_concat_map. reflexivity.
  - apply (inv_list k s m F x true); auto.
  - intros e J. destruct (follow_ok _ _ _ _ _ _ LI x e IX); auto. exact (owned_in _ _ _ _ _ OL J).
  - destruct members_nodup as [ND _]. assert (List.length (map place kids) <= List.length (members F))%nat by (eapply owned_short; eauto). lia.
Qed.
(** ** Nothing is visited twice *)
Lemma one_owner p q L M y : owned F p true L -> owned F q true M -> In y L -> In y M -> p = q /\ L = M.
Proof.
  intros OL OM IL IM. destruct members_nodup as [ND NO]. destruct OL as [OL|[-> _]]; [|contradiction]. destruct OM as [OM|[-> _]]; [|contradiction].
  apply in_split in OL as (F1 & F2 & E). assert (J : In (Some (q, true), M) (F1 ++ (Some (p, true), L) :: F2)) by (rewrite <- E; exact OM). rewrite E, members_app, members_cons in ND. cbn [snd] in ND. destruct (nodup_app _ _ ND) as (_ & N2 & D1). destruct (nodup_app _ _ N2) as (_ & _ & D2).
  apply in_app_or in J as [J|[J|J]]; [|injection J as <- <-; auto|].
  - exfalso. apply (D1 y); [eapply members_in; eauto|apply in_or_app; auto].
  - exfalso. apply (D2 y); [exact IL|eapply members_in; eauto].
Qed.
Lemma hangs_one : forall t, hangs F t -> forall t', hangs F t' -> place t' = place t -> t' = t.
Proof.
  apply (hangs_rec F (fun t => forall t', hangs F t' -> place t' = place t -> t' = t)). intros x kids IX OL HK IH t' [x' kids' IX' OL' HK'] E. cbn [place] in E. subst x'. destruct members_nodup as [ND NO].
  pose proof (owner_one F x true _ _ NO OL' OL) as EM. f_equal. clear - IH HK' EM. revert kids' HK' EM. induction IH as [|c l HC _ IHl]; intros [|c' l'] HK' EM; try discriminate; [reflexivity|]. cbn [map] in EM. injection EM as E1 E2. inversion HK'; subst. f_equal; auto.
Qed.
Fixpoint weight (t : itree) : nat := let '(At _ kids) := t in S (fold_right (fun t n => weight t + n)%nat O kids).
Lemma below : forall t, hangs F t -> forall y, In y (all_of t) -> exists u, hangs F u /\ place u = y /\ (u = t \/ (weight u < weight t)%nat) /\ incl (all_of u) (all_of t) /\ (y = place t \/ exists q, In (place q) (all_of t) /\ hangs F q /\ exists L, owned F (place q) true L /\ In y L).
Proof.
  apply (hangs_rec F (fun t => forall y, In y (all_of t) -> exists u, hangs F u /\ place u = y /\ (u = t \/ (weight u < weight t)%nat) /\ incl (all_of u) (all_of t) /\ (y = place t \/ exists q, In (place q) (all_of t) /\ hangs F q /\ exists L, owned F (place q) true L /\ In y L))).
  intros x kids IX OL HK IH y J. assert (HX : hangs F (At x kids)) by (constructor; auto). cbn [all_of] in J. destruct J as [<-|J]; [exists (At x kids); split; [exact HX|]; split; [reflexivity|]; split; [auto|]; split; [apply incl_refl|auto]|].
  apply in_flat_map in J as (c & JC & JY). rewrite Forall_forall in IH, HK. destruct (IH c JC y JY) as (u & HU & PU & WU & IU & CU). exists u. split; [exact HU|]. split; [exact PU|].
  assert (WC : (weight c < weight (At x kids))%nat). { cbn [weight]. clear - JC. induction kids as [|d l IHl]; [contradiction|]. cbn. destruct JC as [->|JC]; [lia|specialize (IHl JC); lia]. }
  assert (IC : incl (all_of c) (all_of (At x kids))) by (intros z JZ; right; apply in_flat_map; exists c; auto).
  split; [right; destruct WU as [->|WU]; lia|]. split; [intros z JZ; apply IC, IU, JZ|]. right. destruct CU as [->|(q & Q1 & Q2 & Q3)].
  - exists (At x kids). split; [left; reflexivity|]. split; [exact HX|]. exists (map place kids). split; [exact OL|apply in_map; exact JC].
  - exists q. split; [apply IC, Q1|]. auto.
Qed.
Lemma not_below x kids c : hangs F (At x kids) -> In c kids -> ~ In x (all_of c).
Proof.
  intros H JC JX. assert (HC : hangs F c) by (inversion H; subst; rewrite Forall_forall in *; auto). destruct (below c HC x JX) as (u & HU & PU & WU & _). pose proof (hangs_one _ H u HU PU) as ->.
  assert (WC : (weight c < weight (At x kids))%nat). { cbn [weight]. clear - JC. induction kids as [|d l IHl]; [contradiction|]. cbn. destruct JC as [->|JC]; [lia|specialize (IHl JC); lia]. }
  destruct WU as [<-|WU]; lia.
Qed.
Lemma common_below : forall t1, hangs F t1 -> forall t2 y, hangs F t2 -> In y (all_of t1) -> In y (all_of t2) -> In (place t1) (all_of t2) \/ In (place t2) (all_of t1).
Proof.
  apply (hangs_rec F (fun t1 => forall t2 y, hangs F t2 -> In y (all_of t1) -> In y (all_of t2) -> In (place t1) (all_of t2) \/ In (place t2) (all_of t1))).
  intros x kids IX OL HK IH t2 y H2 J1 J2. cbn [place]. cbn [all_of] in J1. destruct J1 as [<-|J1]; [auto|]. apply in_flat_map in J1 as (d & JD & JY). rewrite Forall_forall in IH.
  destruct (IH d JD t2 y H2 JY J2) as [J|J]; [|right; right; apply in_flat_map; exists d; auto].
  destruct (below t2 H2 (place d) J) as (_ & _ & _ & _ & _ & [E|(q & Q1 & Q2 & L & OQ & JQ)]).
  - right. right. apply in_flat_map. exists d. split; [exact JD|]. rewrite <- E. destruct d. left. reflexivity.
  - left. destruct (one_owner (place q) x L (map place kids) (place d) OQ OL JQ (in_map place kids d JD)) as [<- _]. exact Q1.
Qed.
Lemma hangs_nodup : forall t, hangs F t -> NoDup (all_of t).
Proof.
  apply (hangs_rec F (fun t => NoDup (all_of t))). intros x kids IX OL HK IH. assert (H : hangs F (At x kids)) by (constructor; auto). cbn [all_of]. constructor.
  - intro J. apply in_flat_map in J as (c & JC & JX). exact (not_below x kids c H JC JX).
  - pose proof (not_below x kids) as NB. destruct members_nodup as [ND NO]. assert (NM : NoDup (map place kids)). { destruct (pool_of _ _ _ _ _ _ LI) as (a & PO & EL & _). destruct (inv_list k s m F x true _ EL IX OL) as (_ & _ & N & _). exact N. }
    assert (G : forall l, incl l kids -> NoDup (map place l) -> NoDup (flat_map all_of l)); [|apply G; [apply incl_refl|exact NM]].
    rewrite Forall_forall in IH, HK. induction l as [|c l IHl]; intros IN N; [constructor|]. cbn [flat_map]. cbn [map] in N. inversion N as [|? ? N1 N2]; subst. assert (JC : In c kids) by (apply IN; left; reflexivity). apply nodup_join; [apply IH, JC|apply IHl; [intros z JZ; apply IN; right; exact JZ|exact N2]|].
    intros y J1 J2. apply in_flat_map in J2 as (d & JD & JY). assert (JD' : In d kids) by (apply IN; right; exact JD). assert (NE : place c <> place d) by (intro E; apply N1; rewrite E; apply in_map; exact JD).
    assert (UP : forall a b, In a kids -> In b kids -> place a <> place b -> ~ In (place a) (all_of b)).
    { intros a b A B NEAB J. destruct (below b (HK b B) (place a) J) as (_ & _ & _ & _ & _ & [E|(q & Q1 & Q2 & L & OQ & JQ)]); [congruence|]. destruct (one_owner (place q) x L (map place kids) (place a) OQ OL JQ (in_map place kids a A)) as [EQ _]. rewrite EQ in Q1. exact (NB b H B Q1). }
    destruct (common_below c (HK c JC) d y (HK d JD') J1 JY) as [J|J]; [exact (UP c d JC JD' NE J)|exact (UP d c JD' JC (not_eq_sym NE) J)].
Qed.
End Order.
Lemma all_parents : forall t d, map fst (parents_first d t) = tl (all_of t).
Proof.
  fix IH 1. intros [x kids] d. cbn [parents_first all_of tl]. induction kids as [|c l IHl]; [reflexivity|]. cbn [flat_map]. rewrite map_app, IHl. cbn [map fst]. rewrite IH. destruct c. reflexivity.
Qed.
Theorem walks k s m T P F t fuel lf deep : life k s m T P F -> hangs F t -> (List.length (members F) <= lf)%nat -> (levels t <= fuel)%nat ->
  pool_walk fuel lf m (place t) deep = rret ((place t, deep) :: parents_first (deep + 1) t) /\ map fst ((place t, deep) :: parents_first (deep + 1) t) = all_of t /\ NoDup (all_of t).
Proof. intros LI H LF FU. split; [eapply walk_ok; eauto|]. split; [cbn [map fst]; rewrite all_parents; destruct t; reflexivity|eapply hangs_nodup; eauto]. Qed.

(** ** Attributes *)
Theorem attributes k s m T P F x A fuel : life k s m T P F -> In x (members F) -> owned F x false A -> A <> [] -> (List.length A <= fuel)%nat -> ForAllParams fuel m x = rret A.
Proof.
  intros LI IX OA NE FU. destruct (pool_of _ _ _ _ _ _ LI) as (a & PO & EL & _). pose proof (inv_list k s m F x false A EL IX OA) as SH. change (field_of false) with 20 in SH. destruct A as [|e l]; [congruence|]. pose proof SH as (_ & SC & _). unfold ForAllParams. rewrite SC, rbind_ok. cbn [hd].
  assert (HF : forall y, In y (e :: l) -> plugin_bwe m y = Ok y) by (intros y J; destruct (follow_ok _ _ _ _ _ _ LI x y IX); auto; exact (owned_in _ _ _ _ _ OA J)). rewrite (HF e (or_introl eq_refl)), rbind_ok. apply (visit_ok _ m x (x + 20) (e :: l) SH HF l [] e fuel eq_refl). cbn in FU. lia.
Qed.
Lemma header_next m : titled m -> 92 <= zlen m -> el_next m 0 = Ok 2019522930.
Proof.
  intros TI L. unfold titled in TI. apply rd_inv in TI as (_ & _ & H & _); [|lia]. change (TYPE_INFO ++ zrepeat 0 7) with ([98; 105; 110; 97] ++ [114; 121; 95; 120] ++ (zskip 8 (TYPE_INFO ++ zrepeat 0 7))) in H. apply has_app in H as [_ H]. apply has_app in H as [H _]. apply has_rd in H. unfold el_next, rd_s32. change (4 + zlen [98; 105; 110; 97]) with 8 in H. change (0 + 8) with 8. change (zlen [114; 121; 95; 120]) with 4 in H. rewrite H. reflexivity.
Qed.
Theorem no_attributes k s m T P F x fuel : life k s m T P F -> In x (members F) -> owned F x false [] -> zlen m < 2019522954 -> ForAllParams (S fuel) m x = rub.
Proof.
  intros LI IX OA LM. destruct (pool_of _ _ _ _ _ _ LI) as (a & PO & EL & _). pose proof (inv_list k s m F x false [] EL IX OA) as SH. change (field_of false) with 20 in SH. pose proof SH as (_ & SC & _). pose proof PO as (_ & _ & FS & _ & B & _). unfold HEADER in B. unfold ForAllParams. rewrite SC, rbind_ok. cbn [hd].
  unfold plugin_bwe at 1. rewrite FS. cbn [obind]. replace ((0 <=? 0) && (0 + 24 <=? zlen m)) with true by lia. rewrite rbind_ok. cbn [visit]. rewrite (header_next m (life_titled _ _ _ _ _ _ LI)), rbind_ok, SC, rbind_ok by lia. cbn [hd]. change (2019522930 =? 0) with false. cbv iota. unfold plugin_bwe. rewrite FS. cbn [obind]. replace ((0 <=? 2019522930) && (2019522930 + 24 <=? zlen m)) with false by lia. reflexivity.
Qed.

(** ** The size of the data *)
Definition total (R : list (Z * Z)) : Z := fold_right (fun e n => snd e + n) 0 R.
Lemma total_app R Q : total (R ++ Q) = total R + total Q.
Proof. unfold total. induction R as [|e R IH]; [reflexivity|]. cbn [app fold_right]. rewrite IH. lia. Qed.
Lemma pairs_filter f (R : list (Z * Z)) : ForallOrdPairs apart R -> ForallOrdPairs apart (filter f R).
Proof. induction 1 as [|e R A _ IH]; [constructor|]. cbn [filter]. destruct (f e); [|exact IH]. constructor; [|exact IH]. rewrite Forall_forall in *. intros y J. apply filter_In in J as [J _]. auto. Qed.
Lemma total_filter f R : total R = total (filter f R) + total (filter (fun e => negb (f e)) R).
Proof. induction R as [|e R IH]; [reflexivity|]. cbn [filter]. unfold total in *. cbn [fold_right]. destruct (f e); cbn [negb fold_right]; lia. Qed.
Lemma filter_short {A} f (R : list A) : (List.length (filter f R) <= List.length R)%nat.
Proof. induction R as [|e R IH]; [cbn; lia|]. cbn [filter]. destruct (f e); cbn; lia. Qed.
Lemma total_le n : forall R lo hi, (List.length R <= n)%nat -> ForallOrdPairs apart R -> (forall y k, In (y, k) R -> lo <= y /\ 0 < k /\ y + k <= hi) -> lo <= hi -> total R <= hi - lo.
Proof.
  induction n as [|n IH]; intros R lo hi LN O I LH; (destruct R as [|[y k] R]; [unfold total; cbn; lia|]); [cbn in LN; lia|]. inversion O as [|? ? A O2]; subst. destruct (I y k (or_introl eq_refl)) as (Y1 & Y2 & Y3). rewrite Forall_forall in A. cbn in LN.
  change (total ((y, k) :: R)) with (k + total R). rewrite (total_filter (fun e => fst e + snd e <=? y) R).
  assert (H1 : total (filter (fun e => fst e + snd e <=? y) R) <= y - lo). { apply IH; [pose proof (filter_short (fun e => fst e + snd e <=? y) R); lia|apply pairs_filter, O2| |exact Y1]. intros z j J. apply filter_In in J as [J Q]. cbn in Q. specialize (I z j (or_intror J)). lia. }
  assert (H2 : total (filter (fun e => negb (fst e + snd e <=? y)) R) <= hi - (y + k)). { apply IH; [pose proof (filter_short (fun e => negb (fst e + snd e <=? y)) R); lia|apply pairs_filter, O2| |exact Y3]. intros z j J. apply filter_In in J as [J Q]. cbn in Q. specialize (A (z, j) J). destruct A as [A|A]; cbn in A; specialize (I z j (or_intror J)); lia. }
  lia.
Qed.
Lemma total_incl : forall L R, NoDup L -> incl L R -> (forall y k, In (y, k) R -> 0 < k) -> total L <= total R.
Proof.
  induction L as [|e L IH]; intros R ND IN PO. { clear - PO. induction R as [|[y k] R IH]; [lia|]. change (total ((y, k) :: R)) with (k + total R). specialize (PO y k (or_introl eq_refl)) as K. assert (total [] <= total R) by (apply IH; intros; eapply PO; right; eauto). lia. }
  inversion ND as [|? ? N1 N2]; subst. assert (J : In e R) by (apply IN; left; reflexivity). apply in_split in J as (R1 & R2 & ->). assert (E : total (R1 ++ e :: R2) = snd e + total (R1 ++ R2)) by (rewrite !total_app; change (total (e :: R2)) with (snd e + total R2); lia). rewrite E. change (total (e :: L)) with (snd e + total L).
  assert (total L <= total (R1 ++ R2)); [|lia]. apply IH; [exact N2| |].
  - intros y J. assert (J2 : In y (R1 ++ e :: R2)) by (apply IN; right; exact J). apply in_app_or in J2 as [J2|[->|J2]]; [apply in_or_app; auto|contradiction|apply in_or_app; auto].
  - intros y k J. apply (PO y k). apply in_app_or in J as [J|J]; apply in_or_app; cbn; auto.
Qed.
Lemma total_names n x L : total (regions n x L) = zlen (stored 0 L) + total (index_at x L).
Proof. unfold regions, names_at. destruct L as [|e L]; [reflexivity|]. rewrite total_app. unfold total at 1. cbn [fold_right snd]. lia. Qed.
Lemma total_index x L : 0 <= total (index_at x L) /\ (x <> 0 -> total (index_at x L) = 4 * zlen L).
Proof. unfold index_at, total. pose proof (zlen_nonneg L). destruct (Z.eqb_spec x 0); cbn [fold_right snd]; split; intros; try lia; congruence. Qed.
Lemma taken_total s L : taken s L = total (map (fun e => (e, s e)) L).
Proof. induction L as [|e L IH]; [reflexivity|]. unfold taken, total in *. cbn [fold_right map snd]. lia. Qed.
Theorem data_size k s m T P F fuel : life k s m T P F -> (List.length T < fuel)%nat -> (List.length P < fuel)%nat ->
  exists d a, getDataSize fuel m = rret (d, m) /\ p_allocator m = Ok a /\ taken s (members F) + (if Z.eq_dec (match t_index m TAGS with Ok x => x | _ => 0 end) 0 then 0 else 4 * zlen T) + (if Z.eq_dec (match t_index m PARAMS with Ok x => x | _ => 0 end) 0 then 0 else 4 * zlen P) <= d /\ d = a - HEADER - zlen (stored 0 T) - zlen (stored 0 P).
Proof.
  intros LI F1 F2. destruct (life_whole _ _ _ _ _ _ LI) as (B & a & (n & x & n' & x' & PO & T1 & T2 & SP) & (h & b & PL & R & S) & IB & _). pose proof PO as (A & _ & _ & _ & BB & _). pose proof (pool_len _ _ PO) as [MX _]. pose proof (spread_drop _ _ _ SP) as SPR.
  unfold getDataSize. rewrite (size_some m a TAGS n x T _ fuel PO T1 SP F1), rbind_rret, (size_some m a PARAMS n' x' P _ fuel PO T2 SPR F2), rbind_rret, A, rbind_ok.
  assert (TO : total (regions n x T ++ regions n' x' P ++ B) <= a - HEADER). { destruct SP as [O I]. apply (total_le _ _ _ _ (le_n _) O I). lia. }
  rewrite !total_app, !total_names in TO. assert (TB : taken s (members F) <= total B). { rewrite taken_total. apply total_incl; [|intros [e z] J; apply in_map_iff in J as (e' & Q & J); injection Q as <- <-; auto|]. - pose proof (sh_nodup _ _ S) as ND. clear - ND. induction ND as [|e L N _ IH]; [constructor|]. cbn [map]. constructor; [|exact IH]. intro J. apply in_map_iff in J as (y & Q & J). injection Q as -> _. contradiction. - intros y z J. destruct (proj2 SP y z) as (_ & K & _); [do 2 (apply in_or_app; right); exact J|exact K]. }
  pose proof (zlen_nonneg (stored 0 T)). pose proof (zlen_nonneg (stored 0 P)). destruct (total_index x T) as [X1 X2]. destruct (total_index x' P) as [Y1 Y2]. assert (TK : 0 <= taken s (members F)). { assert (G : forall e, In e (members F) -> 0 <= s e) by (intros e J; destruct (proj2 SP e (s e)); [do 2 (apply in_or_app; right); auto|lia]). clear - G. unfold taken. induction (members F) as [|e L IH]; [cbn; lia|]. cbn [fold_right]. specialize (G e (or_introl eq_refl)) as G0. assert (0 <= fold_right (fun e n => s e + n) 0 L) by (apply IH; intros; apply G; right; assumption). lia. }
  exists (a - HEADER - zlen (stored 0 T) - zlen (stored 0 P)), a. split; [|split; [reflexivity|split; [|reflexivity]]].
  - unfold rret. do 3 f_equal. apply BwCopyProofs.s32_small. unfold int32, HEADER, INT_MAX in *. lia.
  - pose proof T1 as (_ & _ & E1 & _). pose proof T2 as (_ & _ & E2 & _). rewrite E1, E2. destruct (Z.eq_dec x 0); destruct (Z.eq_dec x' 0); try (specialize (X2 ltac:(assumption))); try (specialize (Y2 ltac:(assumption))); lia.
Qed.
Lemma stored_space L : forall i, zlen (stored i L) = names_space L.
Proof. induction L as [|[n ty] L IH]; intro i; [reflexivity|]. cbn [stored]. rewrite zlen_app, entry_len, IH. unfold names_space. cbn [fold_right fst]. pose proof (esize_ge n). pose proof (Z.div_mod (zlen n + 7) 4 ltac:(lia)). pose proof (Z.mod_pos_bound (zlen n + 7) 4 ltac:(lia)). pose proof (Z.div_mod (esize n) 4 ltac:(lia)). lia. Qed.
Theorem names_not_counted k s m T P F fuel a : life k s m T P F -> (List.length T < fuel)%nat -> (List.length P < fuel)%nat -> p_allocator m = Ok a -> getDataSize fuel m = rret (a - HEADER - names_space T - names_space P, m).
Proof. intros LI F1 F2 AL. destruct (data_size k s m T P F fuel LI F1 F2) as (d & b & E & A & _ & DE). assert (b = a) as -> by congruence. rewrite E, DE, !stored_space. reflexivity. Qed.
Theorem space_counted k s m T P F fuel : life k s m T P F -> (List.length T < fuel)%nat -> (List.length P < fuel)%nat -> exists d, getDataSize fuel m = rret (d, m) /\ taken s (members F) <= d /\ HEADER + d <= zlen m.
Proof.
  intros LI F1 F2. destruct (data_size k s m T P F fuel LI F1 F2) as (d & a & E & A & LE & DE). exists d. split; [exact E|]. destruct (pool_of _ _ _ _ _ _ LI) as (a' & (A' & _ & _ & _ & B & _) & _). assert (a' = a) as -> by congruence.
  pose proof (zlen_nonneg T). pose proof (zlen_nonneg P). pose proof (zlen_nonneg (stored 0 T)). pose proof (zlen_nonneg (stored 0 P)). repeat match goal with H : context [Z.eq_dec ?u ?v] |- _ => destruct (Z.eq_dec u v) end; lia.
Qed.
Theorem nothing_counted k s m T P F fuel : life k s m T P F -> (List.length T < fuel)%nat -> (List.length P < fuel)%nat -> p_allocator m = Ok HEADER -> getDataSize fuel m = rret (0, m).
Proof.
  intros LI F1 F2 AL. destruct (space_counted k s m T P F fuel LI F1 F2) as (d & E & LE & _). destruct (data_size k s m T P F fuel LI F1 F2) as (d' & a & E' & A & LE' & DE). rewrite AL in A. injection A as <-. rewrite E in E'. injection E' as <-. rewrite E. do 3 f_equal.
  pose proof (zlen_nonneg T). pose proof (zlen_nonneg P). pose proof (zlen_nonneg (stored 0 T)). pose proof (zlen_nonneg (stored 0 P)). assert (0 <= taken s (members F)); [|repeat match goal with H : context [Z.eq_dec ?u ?v] |- _ => destruct (Z.eq_dec u v) end; lia].
  destruct (pool_of _ _ _ _ _ _ LI) as (a & PO & EL & _). assert (G : forall e, In e (members F) -> 0 <= s e) by (intros e J; destruct (inv_in _ _ _ _ _ _ EL PO J); lia). clear - G. unfold taken. induction (members F) as [|e L IH]; [cbn; lia|]. cbn [fold_right]. specialize (G e (or_introl eq_refl)) as G0. assert (0 <= fold_right (fun e n => s e + n) 0 L) by (apply IH; intros; apply G; right; assumption). lia.
Qed.
Theorem index_counted k s m T P F fuel : life k s m T P F -> (List.length T < fuel)%nat -> (List.length P < fuel)%nat -> t_index m TAGS <> Ok 0 -> exists d, getDataSize fuel m = rret (d, m) /\ taken s (members F) + 4 * zlen T <= d.
Proof.
  intros LI F1 F2 X. destruct (data_size k s m T P F fuel LI F1 F2) as (d & a & E & A & LE & DE). exists d. split; [exact E|]. pose proof (zlen_nonneg P). destruct (life_whole _ _ _ _ _ _ LI) as (B & b & (n & x & n' & x' & _ & (_ & _ & E1 & _) & (_ & _ & E2 & _) & _) & _). rewrite E1, E2 in LE. rewrite E1 in X. destruct (Z.eq_dec x 0); [congruence|]. destruct (Z.eq_dec x' 0); lia.
Qed.

(** ** The check of the types *)
Lemma no_stats l s : fold_left (fun s e => s_OnCheckTypes e s) l s = s.
Proof. induction l as [|e l IH]; [reflexivity|exact IH]. Qed.
Theorem types_unchecked fuel lf m loose b : CheckAndUpdateTypes fuel lf m loose = rret b -> b = true.
Proof. unfold CheckAndUpdateTypes. intro E. apply rbind_inv in E as (r & _ & E). apply rbind_inv in E as (l & _ & E). rewrite no_stats in E. change (rret true = rret b) in E. injection E as <-. reflexivity. Qed.
Theorem types_checked k s m T P F t fuel lf loose : life k s m T P F -> hangs F t -> p_root m = Ok (place t) -> (List.length (members F) <= lf)%nat -> (levels t <= fuel)%nat -> CheckAndUpdateTypes fuel lf m loose = rret true.
Proof.
  intros LI H RT LF FU. unfold CheckAndUpdateTypes. rewrite RT, rbind_ok. destruct (place t =? 0); [reflexivity|]. destruct (walks k s m T P F t fuel lf 0 LI H LF FU) as [E _]. rewrite E, rbind_rret. rewrite no_stats. reflexivity.
Qed.
