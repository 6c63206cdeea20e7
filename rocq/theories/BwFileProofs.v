(** Opening a pool file again after its creation or enlargement was interrupted. *)
From Verif Require Import Base BaseFacts Types ListFacts Sort Xb XbSpec XbFacts XbWrite WriteProofs Bw BwFacts BwSpec BwHist BwAlloc BwSym BwFile BwReg BwFileSpec JsonSource JsonNames.

(** ** Refused *)
Lemma rd_some m p n : 0 <= p -> p + n <= zlen m -> exists b, rd m p n = Ok b.
Proof. intros P B. unfold rd. replace ((0 <=? p) && (p + n <=? zlen m)) with true by lia. eauto. Qed.
Lemma s32_some m p : 0 <= p -> p + 4 <= zlen m -> exists v, rd_s32 m p = Ok v.
Proof. intros P B. unfold rd_s32. destruct (rd_some m p 4 P B) as (b & E). rewrite E. cbn [obind]. eauto. Qed.
Lemma str_some m p q : 0 <= p <= q -> has m q [0] -> exists s, rd_str m p = Ok s.
Proof.
  intros P H. pose proof (has_range _ _ _ H) as [_ R]. change (zlen [0]) with 1 in R. unfold rd_str. replace ((0 <=? p) && (p <? zlen m)) with true by lia.
  destruct H as (a & b & E & A). destruct (p + zlen (cstr (zskip p m)) <? zlen m) eqn:C; [eauto|]. exfalso.
  assert (X : zskip p m = zskip p a ++ 0 :: b). { rewrite E. rewrite zskip_app_le by lia. reflexivity. }
  assert (Y : zlen (cstr (zskip p a ++ 0 :: b)) <= zlen (zskip p a)).
  { clear. induction (zskip p a) as [|x l IH]; [cbn [app cstr]; change (0 =? 0) with true; cbv iota; lia|]. cbn [app cstr]. destruct (x =? 0); [rewrite zlen_cons; pose proof (zlen_nonneg l); change (zlen (@nil Z)) with 0; lia|]. rewrite !zlen_cons. lia. }
  rewrite X in C. rewrite zlen_skip in Y by lia. lia.
Qed.
Lemma refused m fuel always max q l : HEADER <= zlen m -> 4 <= q -> has m q [0] -> p_limit m = Ok l -> l <> zlen m -> always = false ->
  Initialize fuel true always max m = rret (false, m).
Proof.
  unfold HEADER. intros L Q H PL NE ->. unfold Initialize, HEADER. replace (zlen m <? 92) with false by lia.
  destruct (s32_some m 36) as (mm & MM); [lia..|]. unfold p_mmap_size. rewrite MM. cbn [rbind]. destruct (mm <? zlen m); [reflexivity|].
  unfold CheckExistingFile. destruct (str_some m 4 q) as (s & S); [lia|exact H|]. rewrite S. cbn [obind]. destruct (rd_some m 28 4) as (v & V); [lia..|]. rewrite V. cbn [obind].
  unfold p_file_size, p_mmap_size. destruct (s32_some m 32) as (fs & FS); [lia..|]. rewrite FS, MM, PL. cbn [obind]. destruct (s32_some m 52) as (a & A); [lia..|]. unfold p_allocator. rewrite A. cbn [obind rbind].
  destruct (fs =? zlen m) eqn:E1; [|rewrite !andb_false_r; reflexivity]. destruct (l =? fs) eqn:E2; [exfalso; lia|]. rewrite !andb_false_r. reflexivity.
Qed.

(** ** Creating *)
(** Before the limit is stored *)
Definition raw m : Prop := zlen m = INITIAL /\ has m 56 [0; 0; 0; 0].
Lemma raw_refused m fuel max : raw m -> Initialize fuel true false max m = rret (false, m).
Proof.
  intros [L H]. unfold INITIAL in L. eapply (refused m fuel false max 56 0); [unfold HEADER; lia|lia| | |lia|reflexivity].
  - change [0; 0; 0; 0] with ([0] ++ [0; 0; 0]) in H. apply has_app in H. apply H.
  - unfold p_limit. apply (has_s32 m 56 0); [unfold int32; lia|exact H].
Qed.
Lemma wr_same m p bs : has m p bs -> wr m p bs = Ok m.
Proof.
  intro H. pose proof (has_range _ _ _ H) as [P B]. unfold wr. replace ((0 <=? p) && (p + zlen bs <=? zlen m)) with true by lia. destruct H as (a & b & E & A). f_equal. rewrite E, <- A. apply bput_mid. reflexivity.
Qed.
Lemma raw_wr m p bs : raw m -> 0 <= p -> p + zlen bs <= INITIAL -> p + zlen bs <= 56 \/ 60 <= p -> exists m', wr m p bs = Ok m' /\ raw m'.
Proof.
  intros [L H] P B D. destruct (wr_some m p bs) as (m' & W); [lia|lia|]. exists m'. split; [exact W|]. apply wr_kept in W as (_ & _ & [L' K] & _). split; [lia|].
  assert (R := has_rd _ _ _ H). change (zlen [0; 0; 0; 0]) with 4 in R. rewrite <- K in R by lia. apply rd_inv in R as (_ & _ & R & _); [exact R|lia].
Qed.
Lemma raw_zero m p : raw m -> 0 <= p < INITIAL -> exists m', wr m p [0] = Ok m' /\ raw m'.
Proof.
  intros R P. destruct (Z.leb_spec (p + 1) 56) as [C|C]; [apply raw_wr; auto; try lia; change (zlen [0]) with 1; lia|]. destruct (Z.leb_spec 60 p) as [D|D]; [apply raw_wr; auto; try lia; change (zlen [0]) with 1; lia|].
  exists m. split; [|exact R]. apply wr_same. destruct R as [_ H]. change [0; 0; 0; 0] with ([0] ++ [0] ++ [0] ++ [0]) in H. apply has_app in H as [H0 H]. apply has_app in H as [H1 H]. apply has_app in H as [H2 H3].
  change (zlen [0]) with 1 in *. assert (E : p = 56 \/ p = 56 + 1 \/ p = 56 + 1 + 1 \/ p = 56 + 1 + 1 + 1) by lia. destruct E as [->|[->|[->| ->]]]; assumption.
Qed.
(** A trace of raw files *)
Definition raws f (tr : list (list Z)) : Prop := (forall m, In m tr -> raw m) /\ raw (final f tr).
Lemma last_default {A} (l : list A) : forall d d', l <> [] -> last l d = last l d'.
Proof. induction l as [|x l IH]; intros d d' N; [congruence|]. destruct l as [|y l]; [reflexivity|]. change (last (x :: y :: l) d) with (last (y :: l) d). change (last (x :: y :: l) d') with (last (y :: l) d'). apply IH. discriminate. Qed.
Lemma final_app f a b : final f (a ++ b) = final (final f a) b.
Proof.
  unfold final. destruct b as [|y b]; [rewrite app_nil_r; reflexivity|]. rewrite (last_default (y :: b) (last a f) f) by discriminate.
  induction a as [|x a IH]; [reflexivity|]. rewrite <- app_comm_cons. change (last (x :: a ++ y :: b) f) with (match a ++ y :: b with [] => x | _ => last (a ++ y :: b) f end). destruct (a ++ y :: b) eqn:E; [destruct a; discriminate|exact IH].
Qed.
Lemma raws_more f tr r : raws f tr -> raws (final f tr) r -> raws f (tr ++ r).
Proof. intros [A B] [C D]. split; [intros m I; apply in_app_or in I as [I|I]; auto|rewrite final_app; exact D]. Qed.
Lemma raws_nil m : raw m -> raws m [].
Proof. intro R. split; [contradiction|exact R]. Qed.
Lemma raws_one f m : raw m -> raws f [m].
Proof. intro R. split; [intros x [<-|[]]; exact R|exact R]. Qed.
Lemma wr_bytes_raw bs : forall m p, raw m -> 0 <= p -> p + zlen bs <= INITIAL -> (forall b, In b bs -> b = 0) \/ p + zlen bs <= 56 ->
  exists r, wr_bytes m p bs = Ok r /\ raws m r.
Proof.
  induction bs as [|b bs IH]; intros m p R P B D; [exists []; split; [reflexivity|apply raws_nil, R]|]. rewrite zlen_cons in *. pose proof (zlen_nonneg bs).
  assert (S : exists m1, wr m p [b] = Ok m1 /\ raw m1).
  { destruct D as [D|D]; [rewrite (D b) by (left; reflexivity); apply raw_zero; [exact R|lia]|]. apply raw_wr; auto; change (zlen [b]) with 1; lia. }
  destruct S as (m1 & W & R1). destruct (IH m1 (p + 1)) as (r & E & RR); [exact R1|lia|lia|destruct D as [D|D]; [left; intros; apply D; right; auto|right; lia]|].
  exists (m1 :: r). cbn [wr_bytes]. rewrite W. cbn [obind]. rewrite E. split; [reflexivity|]. apply (raws_more m [m1] r); [apply raws_one, R1|exact RR].
Qed.
Lemma bytes_store_raw f tr p bs : raws f tr -> 0 <= p -> p + zlen bs <= INITIAL -> (forall b, In b bs -> b = 0) \/ p + zlen bs <= 56 ->
  exists tr', bytes_store f (Ok tr) p bs = Ok tr' /\ raws f tr' /\ (forall x, In x tr -> In x tr').
Proof.
  intros R P B D. destruct (wr_bytes_raw bs (final f tr) p) as (r & E & RR); [apply R|auto..|]. exists (tr ++ r). unfold bytes_store. cbn [obind]. rewrite E. split; [reflexivity|]. split; [apply raws_more; auto|]. intros x I. apply in_or_app. auto.
Qed.
Lemma store_raw f tr p v : raws f tr -> 0 <= p -> p + 4 <= INITIAL -> p + 4 <= 56 \/ 60 <= p -> exists tr', store f (Ok tr) p v = Ok tr' /\ raws f tr' /\ (forall x, In x tr -> In x tr').
Proof.
  intros R P B D. destruct (raw_wr (final f tr) p (le 4 v)) as (m & W & RM); [apply R|auto..|]; try (rewrite zlen_le4; lia). exists (tr ++ [m]). unfold store, wr32. cbn [obind]. rewrite W. split; [reflexivity|]. split; [apply raws_more; [exact R|apply raws_one, RM]|]. intros x I. apply in_or_app. auto.
Qed.
Lemma wr_bytes_kept bs : forall m p r, wr_bytes m p bs = Ok r -> 0 <= p -> p + zlen bs <= zlen m -> kept m (final m r) p (zlen bs) /\ rd (final m r) p (zlen bs) = Ok bs.
Proof.
  induction bs as [|b bs IH]; intros m p r E P B.
  - injection E as <-. split; [split; auto|]. unfold rd. change (zlen (@nil Z)) with 0 in *. cbn [final last]. replace ((0 <=? p) && (p + 0 <=? zlen m)) with true by lia. reflexivity.
  - cbn [wr_bytes] in E. apply obind_inv in E as (m1 & W & E). apply obind_inv in E as (r1 & E & Q). injection Q as <-. rewrite zlen_cons in *. pose proof (zlen_nonneg bs).
    apply wr_kept in W as (_ & _ & [L1 K1] & G1). change (zlen [b]) with 1 in *. destruct (IH m1 (p + 1) r1 E) as [[L2 K2] G2]; [lia..|].
    rewrite (final_app m [m1] r1 : final m (m1 :: r1) = _). change (final m [m1]) with m1. split; [split; [lia|]; intros q k K D; rewrite K2, K1 by lia; reflexivity|].
    rewrite <- (K2 p 1) in G1 by lia. apply rd_inv in G1 as (_ & _ & H1 & _); [|lia]. apply rd_inv in G2 as (_ & _ & H2 & _); [|lia].
    assert (H3 : has (final m1 r1) p ([b] ++ bs)) by (apply has_app; split; auto). apply has_rd in H3. rewrite zlen_app in H3. exact H3.
Qed.
Lemma bytes_store_kept f tr p bs tr' : bytes_store f (Ok tr) p bs = Ok tr' -> 0 <= p -> p + zlen bs <= zlen (final f tr) ->
  kept (final f tr) (final f tr') p (zlen bs) /\ rd (final f tr') p (zlen bs) = Ok bs.
Proof. intros E P B. unfold bytes_store in E. cbn [obind] in E. apply obind_inv in E as (r & E & Q). injection Q as <-. rewrite final_app. apply wr_bytes_kept; auto. Qed.
Lemma store_kept f tr p v tr' : store f (Ok tr) p v = Ok tr' -> int32 v -> kept (final f tr) (final f tr') p 4 /\ rd_s32 (final f tr') p = Ok v.
Proof. intros E I. unfold store in E. cbn [obind] in E. apply obind_inv in E as (m & E & Q). injection Q as <-. rewrite final_app. apply wr32_kept in E as (_ & _ & K & G); auto. Qed.
Lemma store_bytes f tr p v tr' : store f (Ok tr) p v = Ok tr' -> rd (final f tr') p 4 = Ok (le 4 v).
Proof. intros E. unfold store in E. cbn [obind] in E. apply obind_inv in E as (m & E & Q). injection Q as <-. rewrite final_app. unfold wr32 in E. apply wr_kept in E as (_ & _ & _ & G). rewrite zlen_le4 in G. exact G. Qed.

(** What the last stores leave *)
Definition ready c max : Prop :=
  zlen c = INITIAL /\ rd c 4 24 = Ok (TYPE_INFO ++ [0; 0; 0]) /\ rd c 28 4 = Ok [0; 0; 0; 0] /\ p_file_size c = Ok INITIAL /\ p_mmap_size c = Ok max /\ p_limit c = Ok INITIAL /\ p_allocator c = Ok HEADER /\
  p_root c = Ok 0 /\ t_names c TAGS = Ok 0 /\ t_index c TAGS = Ok 0 /\ t_names c PARAMS = Ok 0 /\ t_index c PARAMS = Ok 0 /\ rd c 92 (INITIAL - 92) = Ok (zrepeat 0 (INITIAL - 92)).
Lemma type_info_str c : rd c 4 24 = Ok (TYPE_INFO ++ [0; 0; 0]) -> rd_str c 4 = Ok TYPE_INFO.
Proof.
  intro E. apply rd_inv in E as (_ & _ & H & _); [|lia]. change [0; 0; 0] with ([0] ++ [0; 0]) in H. rewrite app_assoc in H. apply has_app in H as [H _]. apply has_str; [|exact H].
  unfold cstring. vm_compute. repeat (apply Forall_cons; [split; reflexivity|]). constructor.
Qed.
Lemma ready_accepted c max m fuel : ready c max -> INITIAL <= max -> Initialize fuel true false m c = rret (true, c).
Proof.
  intros (L & S & V & F & M & LI & A & _ & _ & IT & _ & IP & _) B. apply type_info_str in S. unfold Initialize. rewrite L. change (INITIAL <? HEADER) with false. cbv iota. rewrite M. cbn [rbind]. replace (max <? INITIAL) with false by lia.
  unfold CheckExistingFile. rewrite S, V, F, M, LI, A. cbn [obind rbind]. destruct (list_eq_dec Z.eq_dec TYPE_INFO TYPE_INFO); [|congruence]. rewrite L, (Z.eqb_refl max). change ((INITIAL =? INITIAL)) with true. change (unle [0; 0; 0; 0] =? 0) with true. change (HEADER <=? HEADER) with true. change (HEADER <=? INITIAL) with true. cbn [andb negb].
  unfold check. rewrite IT. cbn [rbind]. change (0 =? 0) with true. cbv iota. cbn [rbind rret]. rewrite IP. cbn [rbind]. change (0 =? 0) with true. cbv iota. reflexivity.
Qed.
Lemma ready_keep c c' max p : ready c max -> kept c c' p 4 -> p = 0 \/ p = 60 \/ p = 76 -> ready c' max.
Proof.
  intros (L & S & V & F & M & LI & A & R & NT & IT & NP & IP & Z0) [LK K] P. unfold ready, p_file_size, p_mmap_size, p_limit, p_allocator, p_root, t_names, t_index, rd_s32 in *. rewrite LK. rewrite !K by (try lia; unfold TAGS, PARAMS, INITIAL; lia).
  repeat (split; [first [assumption|fail]|]); auto.
Qed.

Ltac keep K := unfold p_file_size, p_mmap_size, p_limit, p_allocator, p_root, t_names, t_index, t_max_id, rd_s32, TAGS, PARAMS, INITIAL, HEADER in *; rewrite ?(proj2 K) by lia.
Lemma repeat_split (p n : Z) : 0 <= p -> 0 <= n -> zrepeat 0 (p + n) = zrepeat 0 p ++ zrepeat 0 n.
Proof. intros P N. unfold zrepeat. rewrite <- repeat_app. f_equal. lia. Qed.
Lemma zeros_part m q p n k : rd m q k = Ok (zrepeat 0 k) -> q <= p -> 0 <= n -> p + n <= q + k -> rd m p n = Ok (zrepeat 0 n).
Proof.
  intros E P N B. apply rd_inv in E as (_ & _ & H & _); [|lia]. replace k with ((p - q) + (n + (k - (p - q) - n))) in H by lia. rewrite !repeat_split in H by lia.
  apply has_app in H as [_ H]. apply has_app in H as [H _]. rewrite zlen_repeat in H by lia. replace (q + (p - q)) with p in H by lia. apply has_rd in H. rewrite zlen_repeat in H by lia. exact H.
Qed.
Lemma zeros_s32 m p : rd m p 4 = Ok (zrepeat 0 4) -> rd_s32 m p = Ok 0.
Proof. intro E. unfold rd_s32. rewrite E. reflexivity. Qed.
Theorem create_trace max : INITIAL <= max -> int32 max -> exists pre c1 c2 c3 c4, InitEmptyFile true max [] = Ok (true, pre ++ [c1; c2; c3; c4]) /\
  In (resize [] INITIAL) pre /\ (forall m, In m pre -> raw m) /\ (forall c, In c [c1; c2; c3; c4] -> ready c max) /\ t_max_id c1 TAGS = Ok 0 /\ t_max_id c1 PARAMS = Ok 0 /\ t_max_id c2 TAGS = Ok (-1) /\ t_max_id c2 PARAMS = Ok 0 /\
  t_max_id c3 TAGS = Ok (-1) /\ t_max_id c3 PARAMS = Ok (-1) /\ t_max_id c4 TAGS = Ok (-1) /\ t_max_id c4 PARAMS = Ok (-1).
Proof.
  intros B I. unfold InitEmptyFile. cbn [negb]. cbv zeta.
  assert (L0 : zlen (resize [] INITIAL) = INITIAL) by (unfold resize; rewrite zlen_app, zlen_repeat by (unfold INITIAL; change (zlen (@nil Z)) with 0; lia); reflexivity).
  assert (Z0 : rd (resize [] INITIAL) 0 INITIAL = Ok (zrepeat 0 INITIAL)).
  { assert (H : has (resize [] INITIAL) 0 (zrepeat 0 INITIAL)) by (exists [], []; split; [rewrite app_nil_r; reflexivity|reflexivity]). apply has_rd in H. rewrite zlen_repeat in H by (unfold INITIAL; lia). exact H. }
  set (m0 := resize [] INITIAL) in *. clearbody m0. unfold INITIAL in *.
  assert (R0 : raws [] [m0]).
  { apply raws_one. split; [exact L0|]. pose proof (zeros_part _ _ 56 4 _ Z0 ltac:(lia) ltac:(lia) ltac:(lia)) as X. apply rd_inv in X; [apply X|lia]. }
  destruct (bytes_store_raw [] [m0] 0 (zrepeat 0 HEADER) R0) as (t1 & T1 & R1 & I1); [lia|rewrite zlen_repeat; unfold HEADER, INITIAL; lia|left; intros b; apply repeat_spec|]. rewrite T1.
  apply bytes_store_kept in T1 as (K1 & G1); [|lia|change (final [] [m0]) with m0; rewrite zlen_repeat; unfold HEADER; lia]. change (final [] [m0]) with m0 in *. rewrite zlen_repeat in * by (unfold HEADER; lia).
  destruct (bytes_store_raw [] t1 4 (TYPE_INFO ++ [0; 0; 0]) R1) as (t2 & T2 & R2 & I2); [lia|change (zlen (TYPE_INFO ++ [0; 0; 0])) with 24; unfold INITIAL; lia|right; change (zlen (TYPE_INFO ++ [0; 0; 0])) with 24; lia|]. rewrite T2.
  apply bytes_store_kept in T2 as (K2 & G2); [|lia|change (zlen (TYPE_INFO ++ [0; 0; 0])) with 24; rewrite (proj1 K1); lia]. change (zlen (TYPE_INFO ++ [0; 0; 0])) with 24 in *.
  destruct (store_raw [] t2 28 0 R2) as (t3 & T3 & R3 & I3); [unfold INITIAL; lia..|]. rewrite T3. pose proof (store_bytes _ _ _ _ _ T3) as F3. apply store_kept in T3 as (K3 & G3); [|unfold int32; lia].
  destruct (store_raw [] t3 32 16384 R3) as (t4 & T4 & R4 & I4); [unfold INITIAL; lia..|]. rewrite T4. apply store_kept in T4 as (K4 & G4); [|unfold int32; lia].
  destruct (store_raw [] t4 36 max R4) as (t5 & T5 & R5 & I5); [unfold INITIAL; lia..|]. rewrite T5. apply store_kept in T5 as (K5 & G5); [|exact I].
  destruct (store_raw [] t5 52 HEADER R5) as (t6 & T6 & R6 & I6); [unfold INITIAL; lia..|]. rewrite T6. apply store_kept in T6 as (K6 & G6); [|unfold int32, HEADER; lia].
  destruct R6 as [P6 [L6 _]]. set (m6 := final [] t6) in *. unfold INITIAL in L6.
  destruct (wr_some m6 56 (le 4 16384)) as (c1 & W1); [lia|rewrite zlen_le4; lia|]. pose proof W1 as V1. apply wr32_kept in V1 as (_ & _ & J1 & H1); [|unfold int32; lia].
  destruct (wr_some c1 60 (le 4 (-1))) as (c2 & W2); [lia|rewrite zlen_le4, (proj1 J1); lia|]. pose proof W2 as V2. apply wr32_kept in V2 as (_ & _ & J2 & H2); [|unfold int32; lia].
  destruct (wr_some c2 76 (le 4 (-1))) as (c3 & W3); [lia|rewrite zlen_le4, (proj1 J2), (proj1 J1); lia|]. pose proof W3 as V3. apply wr32_kept in V3 as (_ & _ & J3 & H3); [|unfold int32; lia].
  destruct (wr_some c3 0 (le 4 HEADER)) as (c4 & W4); [lia|rewrite zlen_le4, (proj1 J3), (proj1 J2), (proj1 J1); lia|]. pose proof W4 as V4. apply wr32_kept in V4 as (_ & _ & J4 & H4); [|unfold int32, HEADER; lia].
  exists t6, c1, c2, c3, c4. split.
  { unfold store, wr32, obind. fold m6. rewrite W1. rewrite final_app. change (final (final [] t6) [c1]) with c1. rewrite W2. rewrite final_app. change (final (final [] (t6 ++ [c1])) [c2]) with c2. rewrite W3.
    rewrite final_app. change (final (final [] ((t6 ++ [c1]) ++ [c2])) [c3]) with c3. rewrite W4. rewrite <- !app_assoc. reflexivity. }
  split; [apply I6, I5, I4, I3, I2, I1; left; reflexivity|]. split; [exact P6|]. unfold HEADER in *.
  assert (X : forall p n, 0 <= p -> 0 <= n -> p + n <= 16384 -> 60 <= p -> rd c1 p n = rd (final [] t1) p n).
  { intros p n P N PB D. rewrite (proj2 J1), (proj2 K6), (proj2 K5), (proj2 K4), (proj2 K3), (proj2 K2) by lia. reflexivity. }
  assert (X4 : forall p, 60 <= p -> p + 4 <= 92 -> rd_s32 c1 p = Ok 0). { intros p P D. unfold rd_s32. rewrite X by lia. apply zeros_s32. apply (zeros_part _ 0 p 4 92 G1); lia. }
  assert (RD : ready c1 max).
  { unfold ready, p_file_size, p_mmap_size, p_limit, p_allocator, p_root, t_names, t_index, TAGS, PARAMS, INITIAL, HEADER. repeat split.
    - rewrite (proj1 J1). exact L6.
    - rewrite (proj2 J1), (proj2 K6), (proj2 K5), (proj2 K4), (proj2 K3) by lia. exact G2.
    - rewrite (proj2 J1), (proj2 K6), (proj2 K5), (proj2 K4) by lia. exact F3.
    - unfold rd_s32. rewrite (proj2 J1), (proj2 K6), (proj2 K5) by lia. exact G4.
    - unfold rd_s32. rewrite (proj2 J1), (proj2 K6) by lia. exact G5.
    - exact H1.
    - unfold rd_s32. rewrite (proj2 J1) by lia. exact G6.
    - unfold rd_s32. rewrite (proj2 J1), (proj2 K6), (proj2 K5), (proj2 K4), (proj2 K3), (proj2 K2) by lia. apply zeros_s32. apply (zeros_part _ 0 44 4 92 G1); lia.
    - apply X4; lia.
    - apply X4; lia.
    - apply X4; lia.
    - apply X4; lia.
    - rewrite X by lia. rewrite (proj2 K1) by lia. apply (zeros_part _ 0 _ _ _ Z0); lia. }
  assert (RD2 := ready_keep _ _ _ _ RD J2 ltac:(lia)). assert (RD3 := ready_keep _ _ _ _ RD2 J3 ltac:(lia)). assert (RD4 := ready_keep _ _ _ _ RD3 J4 ltac:(lia)).
  split; [intros c [<-|[<-|[<-|[<-|[]]]]]; assumption|]. unfold t_max_id, TAGS, PARAMS.
  split; [apply X4; lia|]. split; [apply X4; lia|]. split; [exact H2|]. split; [unfold rd_s32; rewrite (proj2 J2) by lia; apply X4; lia|].
  split; [unfold rd_s32; rewrite (proj2 J3) by lia; exact H2|]. split; [exact H3|]. split; [unfold rd_s32; rewrite (proj2 J4), (proj2 J3) by lia; exact H2|]. unfold rd_s32. rewrite (proj2 J4) by lia. exact H3.
Qed.

(** ** Enlarging *)
Lemma rd_split m q j k : 0 <= j -> 0 <= k -> rd m q (j + k) = (a <- rd m q j ;; b <- rd m (q + j) k ;; Ok (a ++ b)).
Proof.
  intros J K. destruct (rd m q (j + k)) as [c| |] eqn:E.
  - apply rd_inv in E as (Q & B & H & L); [|lia]. rewrite <- (firstn_skipn (Z.to_nat j) c) in H |- *. fold (ztake j c) in *. fold (zskip j c) in *. apply has_app in H as [H1 H2].
    assert (L1 : zlen (ztake j c) = j) by (rewrite zlen_take by lia; lia). assert (L2 : zlen (zskip j c) = k) by (rewrite zlen_skip by lia; lia). rewrite L1 in H2.
    apply has_rd in H1. apply has_rd in H2. rewrite L1 in H1. rewrite L2 in H2. rewrite H1. cbn [obind]. rewrite H2. reflexivity.
  - unfold rd in E. destruct (_ && _); discriminate.
  - unfold rd in *. destruct (Z.leb_spec 0 q); cbn [andb] in *; [|reflexivity]. destruct (Z.leb_spec (q + j) (zlen m)); [|reflexivity]. cbn [obind]. destruct (Z.leb_spec (q + (j + k)) (zlen m)); [discriminate|].
    destruct (Z.leb_spec (q + j + k) (zlen m)); [lia|]. rewrite andb_false_r. reflexivity.
Qed.
Lemma rd_bytes m m' k : forall q, (forall i, q <= i < q + k -> rd m' i 1 = rd m i 1) -> 0 <= k -> 0 <= q -> q + k <= zlen m -> zlen m <= zlen m' -> rd m' q k = rd m q k.
Proof.
  intros q S K. revert q S. pattern k. apply natlike_ind; [| |exact K].
  - intros q _ Q B L. unfold rd. replace ((0 <=? q) && (q + 0 <=? zlen m')) with true by lia. replace ((0 <=? q) && (q + 0 <=? zlen m)) with true by lia. reflexivity.
  - intros n N IH q S Q B L. unfold Z.succ in *. rewrite (Z.add_comm n 1). rewrite !rd_split by lia. rewrite S by lia. rewrite (IH (q + 1)); [reflexivity|intros; apply S; lia|lia..].
Qed.
Lemma byte_of m m' p n i : rd m' p n = rd m p n -> p <= i < p + n -> 0 <= p -> p + n <= zlen m -> p + n <= zlen m' -> rd m' i 1 = rd m i 1.
Proof.
  intros E I P B B'. replace n with ((i - p) + (1 + (n - (i - p) - 1))) in E by lia. rewrite !rd_split in E by lia. replace (p + (i - p)) with i in E by lia.
  destruct (rd_some m p (i - p)) as (x & X); [lia..|]. destruct (rd_some m' p (i - p)) as (x' & X'); [lia..|]. destruct (rd_some m i 1) as (y & Y); [lia..|]. destruct (rd_some m' i 1) as (y' & Y'); [lia..|].
  destruct (rd_some m (i + 1) (n - (i - p) - 1)) as (z & Z1); [lia..|]. destruct (rd_some m' (i + 1) (n - (i - p) - 1)) as (z' & Z'); [lia..|]. rewrite X, X', Y, Y', Z1, Z' in E. cbn [obind] in E. injection E as E. rewrite Y, Y'.
  apply rd_inv in X as (_ & _ & _ & X); [|lia]. apply rd_inv in X' as (_ & _ & _ & X'); [|lia]. apply rd_inv in Y as (_ & _ & _ & YL); [|lia]. apply rd_inv in Y' as (_ & _ & _ & YL'); [|lia].
  assert (A := f_equal (zskip (i - p)) E). rewrite !(zskip_app_len _ _ (i - p)) in A by lia.
  assert (A1 := f_equal (ztake 1) A). rewrite !(ztake_app_len _ _ 1) in A1 by lia. congruence.
Qed.
Definition hole i : bool := (32 <=? i) && (i <? 36) || (56 <=? i) && (i <? 60).
Definition alike m m' : Prop := zlen m <= zlen m' /\ forall i, 0 <= i < zlen m -> hole i = false -> rd m' i 1 = rd m i 1.
Lemma alike_rd m m' q k b : alike m m' -> 60 <= q -> rd m q k = Ok b -> 0 <= k -> rd m' q k = Ok b.
Proof. intros [L S] Q E K. pose proof E as E0. apply rd_inv in E0 as (_ & B & _ & _); [|lia]. rewrite <- E. apply rd_bytes; try lia. intros i I. apply S; [lia|unfold hole; lia]. Qed.
Lemma alike_s32 m m' q v : alike m m' -> 60 <= q -> rd_s32 m q = Ok v -> rd_s32 m' q = Ok v.
Proof. intros A Q E. unfold rd_s32 in *. apply obind_inv in E as (b & E & V). rewrite (alike_rd _ _ _ _ _ A Q E ltac:(lia)). exact V. Qed.
Lemma alike_alloc m m' v : alike m m' -> 56 <= zlen m -> p_allocator m = Ok v -> p_allocator m' = Ok v.
Proof. intros [L S] B E. unfold p_allocator, rd_s32 in *. assert (X : rd m' 52 4 = rd m 52 4) by (apply rd_bytes; try lia; intros i I; apply S; [lia|unfold hole; lia]). rewrite X. exact E. Qed.
Lemma alike_wr m m' p bs n : alike m m' -> 0 <= p -> wr m p bs = Ok n -> exists n', wr m' p bs = Ok n' /\ alike n n'.
Proof.
  intros [L S] P W. apply wr_kept in W as (_ & B & [LN K] & G). pose proof (zlen_nonneg bs). destruct (wr_some m' p bs) as (n' & W'); [lia..|]. exists n'. split; [exact W'|].
  apply wr_kept in W' as (_ & B' & [LN' K'] & G'). split; [lia|]. intros i I H0. destruct (Z.leb_spec p i) as [C|C]; [destruct (Z.ltb_spec i (p + zlen bs)) as [D|D]|].
  - apply (byte_of n n' p (zlen bs)); try lia. rewrite G, G'. reflexivity.
  - rewrite K, K' by lia. apply S; [lia|exact H0].
  - rewrite K, K' by lia. apply S; [lia|exact H0].
Qed.

Lemma alike_nul m m' p limit q : alike m m' -> 60 <= p -> to_nul m p limit = Ok q -> to_nul m' p limit = Ok q /\ p <= q.
Proof.
  intros A P E. unfold to_nul in *. destruct (Z.leb_spec limit p); [split; [exact E|injection E; lia]|]. apply obind_inv in E as (b & E & Q). rewrite (alike_rd _ _ _ _ _ A P E ltac:(lia)). cbn [obind]. split; [exact Q|]. injection Q as <-. pose proof (zlen_nonneg (cstr b)). lia.
Qed.
Lemma plus1 p : 60 <= p -> 60 <= p + 1.
Proof. lia. Qed.
Lemma alike_id m m' p v : alike m m' -> 60 <= p -> entry_id m p = Ok v -> entry_id m' p = Ok v.
Proof.
  intros A P E. unfold entry_id, rd_s8, rd_u8 in *. apply obind_inv in E as (b0 & E0 & E). apply obind_inv in E as (b1 & E1 & E). apply obind_inv in E0 as (c0 & E0 & F0). apply obind_inv in E1 as (c1 & E1 & F1).
  apply obind_inv in E0 as (d0 & E0 & G0). apply obind_inv in E1 as (d1 & E1 & G1). rewrite (alike_rd _ _ _ _ _ A P E0 ltac:(lia)), (alike_rd _ _ _ _ _ A (plus1 p P) E1 ltac:(lia)). cbn [obind]. injection G0 as <-. injection G1 as <-. injection F0 as <-. injection F1 as <-. exact E.
Qed.
Lemma alike_walk fuel m m' max_id limit : alike m m' -> forall p id prev r, 60 <= p -> names_walk fuel m max_id limit p id prev = rret r -> names_walk fuel m' max_id limit p id prev = rret r.
Proof.
  intro A. induction fuel as [|k IH]; intros p id prev r P E; [discriminate|]. cbn [names_walk] in *. destruct (max_id <? id); [exact E|]. apply rbind_inv in E as (v & V & E). injection V as V. rewrite (alike_id _ _ _ _ A P V). cbn [rbind].
  destruct (negb _); [exact E|]. apply rbind_inv in E as (q & Q & E). injection Q as Q. apply (alike_nul _ m') in Q as [Q G]; [|exact A|lia]. rewrite Q. cbn [rbind]. apply IH; [|exact E]. pose proof (align4_ge (q + 1)). lia.
Qed.

Lemma rbind_ok {A B} (x : A) (f : A -> run B) : rbind (Some (Ok x)) f = f x.
Proof. reflexivity. Qed.
Lemma rbind_rret {A B} (x : A) (f : A -> run B) : rbind (rret x) f = f x.
Proof. reflexivity. Qed.
Lemma placed_kept m m' p t : placed m t -> kept m m' p 4 -> t = TAGS \/ t = PARAMS -> p = TAGS \/ p = PARAMS -> placed m' t.
Proof. intros (n & x & N & X & C) [_ K] T P. exists n, x. unfold t_names, t_index, rd_s32, TAGS, PARAMS in *. rewrite !K by lia. auto. Qed.
Lemma placed_index m m' p t : placed m t -> kept m m' (p + 8) 4 -> rd_s32 m' (p + 8) = Ok 0 -> t = TAGS \/ t = PARAMS -> p = TAGS \/ p = PARAMS -> placed m' t.
Proof.
  intros (n & x & N & X & C & D) [_ K] Z T P. unfold TAGS, PARAMS in *. destruct (Z.eq_dec p t) as [->|NE].
  - exists n, 0. unfold t_names, t_index, rd_s32 in *. rewrite (K (t + 4)) by lia. auto.
  - exists n, x. unfold t_names, t_index, rd_s32 in *. rewrite !K by lia. auto.
Qed.
Lemma alike_placed m m' t n x : alike m m' -> 56 <= t -> t_names m t = Ok n -> t_index m t = Ok x -> t_names m' t = Ok n /\ t_index m' t = Ok x.
Proof. intros A T N X. unfold t_names, t_index in *. split; eapply alike_s32; eauto; lia. Qed.
Lemma alike_size fuel m m' t s n : alike m m' -> placed m t -> t = TAGS \/ t = PARAMS -> getNamesSize fuel m t = rret (s, n) ->
  exists n', getNamesSize fuel m' t = rret (s, n') /\ alike n n' /\ forall u, u = TAGS \/ u = PARAMS -> placed m u -> placed n u.
Proof.
  intros A (nm & x & N & X & C & _) T E. assert (T60 : 60 <= t) by (unfold TAGS, PARAMS in T; lia). destruct (alike_placed m m' t nm x A ltac:(lia) N X) as [N' X']. unfold getNamesSize in *. rewrite N in E. rewrite N'. rewrite rbind_ok in *.
  destruct (Z.eqb_spec nm 0) as [Z0|Z0]; [injection E as <- <-; exists m'; auto|]. unfold HEADER in *.
  apply rbind_inv in E as (a & PA & E). injection PA as PA. pose proof PA as PA0. unfold p_allocator, rd_s32 in PA0. apply obind_inv in PA0 as (b & PB & _). apply rd_inv in PB as (_ & B & _ & _); [|lia].
  rewrite (alike_alloc _ _ _ A ltac:(lia) PA). rewrite ?rbind_ok, ?rbind_rret. apply rbind_inv in E as (mx & MX & E). injection MX as MX. rewrite (alike_s32 _ _ _ _ A T60 MX : t_max_id m' t = _). rewrite ?rbind_ok, ?rbind_rret.
  apply rbind_inv in E as ([p mx'] & W & E). apply (alike_walk fuel m m') in W; [|exact A|lia]. rewrite W. rewrite ?rbind_ok, ?rbind_rret. apply rbind_inv in E as (k & KE & E). injection KE as KE. injection E as <- <-.
  destruct (mx' =? mx); [injection KE as <-; exists m'; auto|]. unfold wr32 in *. destruct (alike_wr m m' t _ k A ltac:(lia) KE) as (k' & KE' & A'). rewrite KE'. exists k'. split; [reflexivity|]. split; [exact A'|].
  intros u U P. apply wr_kept in KE as (_ & _ & K & _). rewrite zlen_le4 in K. eapply placed_kept; eauto.
Qed.
Lemma alike_check_index m m' index lo hi : alike m m' -> 60 <= index -> forall n i r, 0 <= i -> check_index n m index i lo hi = Ok r -> check_index n m' index i lo hi = Ok r.
Proof.
  intros A X. induction n as [|n IH]; intros i r I E; [exact E|]. cbn [check_index] in *. apply obind_inv in E as (o & O & E). rewrite (alike_s32 m m' (index + 4 * i) o A ltac:(lia) O). cbn [obind]. destruct (_ && _); [apply IH; [lia|exact E]|exact E].
Qed.
Lemma alike_check fuel m m' t r n : alike m m' -> placed m t -> t = TAGS \/ t = PARAMS -> check fuel m t = rret (r, n) ->
  exists n', check fuel m' t = rret (r, n') /\ alike n n' /\ forall u, u = TAGS \/ u = PARAMS -> placed m u -> placed n u.
Proof.
  intros A P T E. assert (T60 : 60 <= t) by (unfold TAGS, PARAMS in T; lia). pose proof P as (nm & x & N & X & _ & D). destruct (alike_placed m m' t nm x A ltac:(lia) N X) as [N' X']. unfold check in *. rewrite X in E. rewrite X'. rewrite rbind_ok in *.
  destruct (Z.eqb_spec x 0); [injection E as <- <-; exists m'; auto|]. unfold HEADER in D. apply rbind_inv in E as ([s k] & G & E). destruct (alike_size _ _ m' _ _ _ A P T G) as (k' & G' & A' & P'). rewrite G'. rewrite ?rbind_ok, ?rbind_rret.
  apply rbind_inv in E as (mx & MX & E). injection MX as MX. rewrite (alike_s32 _ _ _ _ A' T60 MX : t_max_id k' t = _). rewrite ?rbind_ok, ?rbind_rret. apply rbind_inv in E as (n2 & N2 & E). injection N2 as N2. rewrite (alike_s32 _ _ _ _ A' (ltac:(lia) : 60 <= t + 4) N2 : t_names k' t = _). rewrite ?rbind_ok, ?rbind_rret.
  apply rbind_inv in E as (ok & CI & E). injection CI as CI. apply (alike_check_index k k') in CI; [|exact A'|lia|lia]. rewrite CI. rewrite ?rbind_ok, ?rbind_rret. injection E as <- <-. exists k'. auto.
Qed.

Lemma check_existing fuel max m m1 : CheckExistingFile fuel max m = rret (true, m1) -> exists v m2 m3 m4 b1 b2, rd_str m 4 = Ok TYPE_INFO /\ (rd m 28 4 = Ok v /\ unle v = 0) /\
  p_mmap_size m = Ok max /\ check fuel m TAGS = rret (b1, m2) /\ (if b1 then Ok m2 else wr32 m2 (TAGS + 8) 0) = Ok m3 /\ check fuel m3 PARAMS = rret (b2, m4) /\ (if b2 then Ok m4 else wr32 m4 (PARAMS + 8) 0) = Ok m1.
Proof.
  intro E. unfold CheckExistingFile in E. apply rbind_inv in E as (ok & H & E). injection H as H. destruct ok; cbn [negb] in E; [|discriminate].
  apply obind_inv in H as (s & S & H). apply obind_inv in H as (v & V & H). apply obind_inv in H as (fs & FS & H). apply obind_inv in H as (mm & MM & H). apply obind_inv in H as (l & LI & H). apply obind_inv in H as (a & AL & H). injection H as H.
  destruct (list_eq_dec Z.eq_dec s TYPE_INFO) as [->|]; [|discriminate]. repeat (apply andb_prop in H as [H ?]).
  apply rbind_inv in E as ([b1 m2] & C1 & E). apply rbind_inv in E as (m3 & W1 & E). injection W1 as W1. apply rbind_inv in E as ([b2 m4] & C2 & E). apply rbind_inv in E as (m5 & W2 & E). injection W2 as W2. injection E as <-.
  exists v, m2, m3, m4, b1, b2. split; [assumption|]. split; [split; [assumption|lia]|]. split; [rewrite MM; f_equal; lia|]. auto.
Qed.
Lemma alike_zero m m' t k b : alike m m' -> (forall u, u = TAGS \/ u = PARAMS -> placed m u) -> t = TAGS \/ t = PARAMS -> (if b : bool then Ok m else wr32 m (t + 8) 0) = Ok k ->
  exists k', (if b then Ok m' else wr32 m' (t + 8) 0) = Ok k' /\ alike k k' /\ (forall u, u = TAGS \/ u = PARAMS -> placed k u).
Proof.
  intros A P T E. destruct b; [injection E as <-; eauto|]. pose proof E as W. unfold wr32 in *. apply (alike_wr m m') in E as (k' & E & A'); [|exact A|unfold TAGS, PARAMS in T; lia]. exists k'. split; [exact E|]. split; [exact A'|].
  intros u U. apply (wr32_kept m (t + 8) 0) in W as (_ & _ & K & G); [|unfold int32; lia]. eapply placed_index; eauto.
Qed.
(** An enlarged pool opens like the pool before. *)
Lemma alike_open fuel m m' max m1 a : alike m m' -> pool m a -> pool m' a -> p_mmap_size m' = p_mmap_size m -> placed m TAGS -> placed m PARAMS -> Initialize fuel true false max m = rret (true, m1) ->
  exists m1', Initialize fuel true false max m' = rret (true, m1') /\ alike m1 m1'.
Proof.
  intros A (PA & PL & PF & (M & MM & MB) & AB & _) (PA' & PL' & PF' & (M' & MM' & MB') & AB' & _) EM P1 P2 E. unfold HEADER in *. unfold Initialize, HEADER in *. destruct (zlen m <? 92) eqn:C; [lia|]. destruct (zlen m' <? 92) eqn:C'; [lia|].
  rewrite MM in E. rewrite MM'. rewrite rbind_ok in *. assert (M' = M) by congruence. subst M'. destruct (M <? zlen m) eqn:D; [lia|]. destruct (M <? zlen m') eqn:D'; [lia|].
  apply check_existing in E as (v & m2 & m3 & m4 & b1 & b2 & S & (V & V0) & MX & C1 & W1 & C2 & W2).
  assert (LO : forall p k, 0 <= p -> 0 <= k -> p + k <= 32 -> rd m' p k = rd m p k) by (intros p k P K B; apply rd_bytes; [intros i I; apply (proj2 A); [lia|unfold hole; lia]|lia..|apply A]).
  assert (S' : rd_str m' 4 = Ok TYPE_INFO).
  { apply rd_str_inv in S as (H & _). assert (X := has_rd _ _ _ H). change (zlen (TYPE_INFO ++ [0])) with 22 in X. rewrite <- LO in X by lia. apply rd_inv in X as (_ & _ & X & _); [|lia]. apply has_str; [|exact X].
    unfold cstring. vm_compute. repeat (apply Forall_cons; [split; reflexivity|]). constructor. }
  unfold CheckExistingFile. rewrite S', (LO 28 4), V, PF', MM', PL', PA' by lia. cbn [obind]. rewrite rbind_ok. destruct (list_eq_dec Z.eq_dec TYPE_INFO TYPE_INFO); [|congruence]. unfold HEADER.
  replace (true && (unle v =? 0) && (zlen m' =? zlen m') && (M =? M) && (zlen m' =? zlen m') && (92 <=? a) && (a <=? zlen m')) with true by lia. cbn [negb].
  destruct (alike_check _ _ m' _ _ _ A P1 (or_introl eq_refl) C1) as (n2 & C1' & A2 & Q2). rewrite C1', rbind_rret.
  assert (PM : forall u, u = TAGS \/ u = PARAMS -> placed m u) by (intros u [-> | ->]; assumption).
  destruct (alike_zero m2 n2 TAGS m3 b1 A2 (fun u U => Q2 u U (PM u U)) (or_introl eq_refl) W1) as (n3 & W1' & A3 & Q3). rewrite W1', rbind_ok.
  destruct (alike_check _ _ n3 _ _ _ A3 (Q3 _ (or_intror eq_refl)) (or_intror eq_refl) C2) as (n4 & C2' & A4 & Q4). rewrite C2', rbind_rret.
  destruct (alike_zero m4 n4 PARAMS m1 b2 A4 (fun u U => Q4 u U (Q3 u U)) (or_intror eq_refl) W2) as (n5 & W2' & A5 & Q5). rewrite W2', rbind_ok. exists n5. auto.
Qed.

Theorem grow_trace fuel max m a size ok tr m1 : pool m a -> placed m TAGS -> placed m PARAMS -> Initialize fuel true false max m = rret (true, m1) -> makeSpace_steps true m size = Ok (ok, tr) -> tr <> [] ->
  exists c1 c2 c3 m3, ok = true /\ tr = [c1; c2; c3] /\ (forall fuel max, Initialize fuel true false max c1 = rret (false, c1)) /\ (forall fuel max, Initialize fuel true false max c2 = rret (false, c2)) /\
  Initialize fuel true false max c3 = rret (true, m3) /\ alike m1 m3 /\ zlen m <= zlen c3.
Proof.
  intros P P1 P2 I E NE. pose proof P as (PA & PL & PF & (M & MM & MB) & AB & A4 & L4). unfold HEADER in AB.
  unfold makeSpace_steps in E. rewrite PA in E. cbn [obind] in E. apply int_inv in E as (I1 & E). apply int_inv in E as (I2 & E). cbv zeta in E. rewrite MM in E. cbn [obind] in E. set (ns := (a + 4095 + size) / 4096 * 4096) in *. destruct (M <? ns) eqn:C1; [injection E as <- <-; congruence|].
  rewrite PF in E. cbn [obind] in E. destruct (Z.leb_spec ns (zlen m)) as [C2|C2]; [injection E as <- <-; congruence|]. cbn [negb] in E. apply obind_inv in E as (tr1 & E & Q). injection Q as <- <-.
  destruct (resize_grow m ns ltac:(lia)) as [RL RK]. assert (IN : int32 ns) by (unfold int32 in *; lia). set (c1 := resize m ns) in *.
  destruct (wr_some c1 32 (le 4 ns)) as (c2 & W2); [lia|rewrite zlen_le4; lia|]. pose proof W2 as V2. apply wr32_kept in V2 as (_ & _ & [L2 K2] & G2); [|exact IN].
  destruct (wr_some c2 56 (le 4 ns)) as (c3 & W3); [lia|rewrite zlen_le4; lia|]. pose proof W3 as V3. apply wr32_kept in V3 as (_ & _ & [L3 K3] & G3); [|exact IN].
  assert (TR : tr1 = [c1; c2; c3]).
  { unfold store, wr32 in E. cbn [obind app] in E. change (final m [c1]) with c1 in E. rewrite W2 in E. cbn [obind app] in E. change (final m [c1; c2]) with c2 in E. rewrite W3 in E. cbn [obind app] in E. injection E as <-. reflexivity. }
  pose proof I as CE. unfold Initialize, HEADER in CE. destruct (zlen m <? 92) eqn:C; [lia|]. rewrite MM in CE. rewrite rbind_ok in CE. destruct (M <? zlen m) eqn:D; [lia|]. apply check_existing in CE as (v & m2 & m3 & m4 & b1 & b2 & S & _).
  apply rd_str_inv in S as (H & _). apply has_app in H as [_ H]. change (zlen TYPE_INFO) with 21 in H. change (4 + 21) with 25 in H.
  assert (LIM : forall q, q = 25 -> has c1 q [0] /\ has c2 q [0]).
  { intros q ->. apply has_rd in H. change (zlen [0]) with 1 in H. assert (X1 : rd c1 25 1 = Ok [0]) by (rewrite RK by lia; exact H). assert (X2 : rd c2 25 1 = Ok [0]) by (rewrite K2 by lia; exact X1).
    apply rd_inv in X1; [|lia]. apply rd_inv in X2; [|lia]. split; [apply X1|apply X2]. }
  assert (LC1 : p_limit c1 = Ok (zlen m)) by (unfold p_limit, rd_s32 in *; rewrite RK by lia; exact PL). assert (LC2 : p_limit c2 = Ok (zlen m)) by (unfold p_limit, rd_s32 in *; rewrite K2 by lia; exact LC1).
  assert (A3 : alike m c3).
  { split; [lia|]. intros i B HO. unfold hole in HO. rewrite K3, K2 by lia. apply RK; lia. }
  assert (MM3 : p_mmap_size c3 = p_mmap_size m) by (unfold p_mmap_size, rd_s32; rewrite K3, K2, RK by lia; reflexivity).
  assert (POOL3 : pool c3 a).
  { unfold pool. rewrite MM3, MM. assert (L3' : zlen c3 = ns) by lia. rewrite L3'. split; [unfold p_allocator, rd_s32 in *; rewrite K3, K2, RK by lia; exact PA|]. split; [exact G3|]. split; [unfold p_file_size, rd_s32 in *; rewrite K3 by lia; exact G2|].
    split; [exists M; split; [reflexivity|lia]|]. unfold HEADER. split; [lia|]. split; [exact A4|]. unfold ns. apply Z_mod_mult. }
  destruct (alike_open fuel m c3 max m1 a A3 P POOL3 MM3 P1 P2 I) as (n3 & I3 & AL). exists c1, c2, c3, n3.
  split; [reflexivity|]. split; [exact TR|]. split; [|split; [|split; [exact I3|split; [exact AL|lia]]]]; intros f x.
  - apply (refused c1 f false x 25 (zlen m)); [unfold HEADER; lia|lia|apply (LIM 25 eq_refl)|exact LC1|lia|reflexivity].
  - apply (refused c2 f false x 25 (zlen m)); [unfold HEADER; lia|lia|apply (LIM 25 eq_refl)|exact LC2|lia|reflexivity].
Qed.
(** What is alike *)
Lemma alike_data m m' q k : alike m m' -> 60 <= q -> 0 <= k -> q + k <= zlen m -> rd m' q k = rd m q k.
Proof. intros [L S] Q K B. apply rd_bytes; try lia. intros i I. apply S; [lia|unfold hole; lia]. Qed.

(** ** What is left after a crash *)
Theorem create_crash max : INITIAL <= max -> int32 max -> exists pre c1 c2 c3 c4, InitEmptyFile true max [] = Ok (true, pre ++ [c1; c2; c3; c4]) /\ In (resize [] INITIAL) pre /\
  (forall c, In c pre -> never_opens c) /\
  (forall c, In c [c1; c2] -> opens_as c c /\ t_max_id c PARAMS = Ok 0 /\ t_names c PARAMS = Ok 0) /\
  (forall c, In c [c3; c4] -> opens_as c c /\ empty_pool c).
Proof.
  intros B I. destruct (create_trace max B I) as (pre & c1 & c2 & c3 & c4 & E & FI & RW & RD & X1 & X2 & X3 & X4 & X5 & X6 & X7 & X8). exists pre, c1, c2, c3, c4. split; [exact E|]. split; [exact FI|]. split.
  { intros c C fuel x. apply raw_refused, RW, C. }
  assert (OP : forall c, In c [c1; c2; c3; c4] -> opens_as c c) by (intros c C; exists 0%nat; intro x; eapply ready_accepted; [apply RD, C|exact B]).
  split; intros c C.
  - split; [apply OP; cbn in *; intuition|]. destruct (RD c) as (_ & _ & _ & _ & _ & _ & _ & _ & _ & _ & NP & _); [cbn in *; intuition|]. split; [|exact NP]. destruct C as [<-|[<-|[]]]; assumption.
  - split; [apply OP; cbn in *; intuition|]. destruct (RD c) as (L & _ & _ & _ & _ & _ & A & R & NT & _ & NP & _ & Z0); [cbn in *; intuition|]. unfold empty_pool. rewrite L. repeat split; auto; destruct C as [<-|[<-|[]]]; assumption.
Qed.
Lemma opens_any f g fuel max : HEADER <= zlen f -> Initialize fuel true false max f = rret (true, g) -> opens_as f g.
Proof. intros L E. exists fuel. intro x. unfold Initialize in *. destruct (zlen f <? HEADER) eqn:C; [lia|]. exact E. Qed.
Lemma wr_len_ m p bs n : wr m p bs = Ok n -> zlen n = zlen m.
Proof. intro W. apply wr_kept in W as (_ & _ & [L _] & _). exact L. Qed.
Lemma size_len fuel m t s n : getNamesSize fuel m t = rret (s, n) -> zlen n = zlen m.
Proof.
  intro E. unfold getNamesSize in E. apply rbind_inv in E as (nm & _ & E). destruct (nm =? 0); [injection E as <- <-; reflexivity|]. apply rbind_inv in E as (l & _ & E). apply rbind_inv in E as (mx & _ & E). apply rbind_inv in E as ([p mx'] & _ & E).
  apply rbind_inv in E as (k & K & E). injection K as K. injection E as <- <-. destruct (mx' =? mx); [injection K as <-; reflexivity|exact (wr_len_ _ _ _ _ K)].
Qed.
Lemma check_len fuel m t r n : check fuel m t = rret (r, n) -> zlen n = zlen m.
Proof.
  intro E. unfold check in E. apply rbind_inv in E as (x & _ & E). destruct (x =? 0); [injection E as <- <-; reflexivity|]. apply rbind_inv in E as ([s k] & G & E). apply size_len in G. apply rbind_inv in E as (mx & _ & E). apply rbind_inv in E as (nm & _ & E).
  apply rbind_inv in E as (ok & _ & E). injection E as <- <-. exact G.
Qed.
Lemma open_len fuel max f g : HEADER <= zlen f -> Initialize fuel true false max f = rret (true, g) -> zlen g = zlen f.
Proof.
  intros L E. unfold Initialize in E. destruct (zlen f <? HEADER) eqn:C; [lia|]. apply rbind_inv in E as (mm & _ & E). destruct (mm <? zlen f); [discriminate|]. apply check_existing in E as (v & m2 & m3 & m4 & b1 & b2 & _ & _ & _ & C1 & W1 & C2 & W2).
  apply check_len in C1. apply check_len in C2. assert (zlen m3 = zlen m2) by (destruct b1; [congruence|exact (wr_len_ _ _ _ _ W1)]). assert (zlen g = zlen m4) by (destruct b2; [congruence|exact (wr_len_ _ _ _ _ W2)]). lia.
Qed.
Lemma alike_contents g g' : alike g g' -> HEADER <= zlen g -> same_contents g g'.
Proof.
  unfold HEADER. intros A L. assert (S : forall p, 36 <= p -> p + 4 <= 56 -> rd g' p 4 = rd g p 4).
  { intros p P B. apply rd_bytes; try lia; [|apply A]. intros i I. apply (proj2 A); [lia|unfold hole; lia]. }
  unfold same_contents, p_root, p_allocator, rd_s32. rewrite !S by lia. split; [reflexivity|]. split; [reflexivity|]. split; [apply A|]. intros q k Q K B. apply alike_data; auto.
Qed.
Theorem grow_crash m a g size ok tr : pool m a -> placed m TAGS -> placed m PARAMS -> opens_as m g -> makeSpace_steps true m size = Ok (ok, tr) -> tr <> [] ->
  exists c1 c2 c3 g3, ok = true /\ tr = [c1; c2; c3] /\ never_opens c1 /\ never_opens c2 /\ opens_as c3 g3 /\ same_contents g g3.
Proof.
  intros P P1 P2 (fuel & I) E NE. destruct (grow_trace fuel 0 m a size ok tr g P P1 P2 (I 0) E NE) as (c1 & c2 & c3 & m3 & OK & TR & N1 & N2 & I3 & A & LC). exists c1, c2, c3, m3. split; [exact OK|]. split; [exact TR|].
  split; [exact N1|]. split; [exact N2|]. pose proof P as (_ & _ & _ & _ & AB & _). assert (HL : HEADER <= zlen m) by lia. assert (LG := open_len _ _ _ _ HL (I 0)). split; [|apply alike_contents; [exact A|lia]].
  apply (opens_any _ _ fuel 0); [lia|exact I3].
Qed.

(** ** Names under chosen ids *)
Theorem fresh_register m a t id name type fuel : pool m a -> t_names m t = Ok 0 -> (exists x, t_index m t = Ok x) -> register_id fuel m t id name type = rret (false, m).
Proof.
  intros (PA & _ & _ & _ & AB & _) N (x & X). unfold HEADER in AB. unfold register_id. destruct (negb _); [reflexivity|]. unfold Open, getNamesSize. rewrite N. rewrite rbind_ok. change (0 =? 0) with true. cbv iota. rewrite rbind_rret, X, rbind_ok, N, rbind_ok, PA, rbind_ok.
  replace ((x =? 0) && (0 + 0 =? a)) with false by lia. unfold allocate. change (0 <=? 0) with true. cbv iota. rewrite rbind_ok, rbind_rret. reflexivity.
Qed.

Theorem create_survives max : INITIAL <= max -> int32 max -> exists pre c3 c4, InitEmptyFile true max [] = Ok (true, pre ++ [c3; c4]) /\ (forall c, In c [c3; c4] -> opens_as c c /\ empty_pool c).
Proof. intros B I. destruct (create_crash max B I) as (pre & c1 & c2 & c3 & c4 & E & _ & _ & _ & S). exists (pre ++ [c1; c2]), c3, c4. rewrite <- app_assoc. auto. Qed.
Theorem create_lost max : INITIAL <= max -> int32 max -> exists pre c1 c2 rest, InitEmptyFile true max [] = Ok (true, pre ++ c1 :: c2 :: rest) /\ In (resize [] INITIAL) pre /\
  (forall c, In c pre -> never_opens c) /\ (forall c, In c [c1; c2] -> opens_as c c /\ t_max_id c PARAMS = Ok 0 /\ t_names c PARAMS = Ok 0).
Proof. intros B I. destruct (create_crash max B I) as (pre & c1 & c2 & c3 & c4 & E & F & N & O & _). exists pre, c1, c2, [c3; c4]. auto. Qed.
Theorem grow_survives m a g size ok tr : pool m a -> placed m TAGS -> placed m PARAMS -> opens_as m g -> makeSpace_steps true m size = Ok (ok, tr) -> tr <> [] ->
  exists tr' c g', tr = tr' ++ [c] /\ opens_as c g' /\ same_contents g g'.
Proof. intros P P1 P2 O E NE. destruct (grow_crash m a g size ok tr P P1 P2 O E NE) as (c1 & c2 & c3 & g3 & _ & T & _ & _ & O3 & S). exists [c1; c2], c3, g3. auto. Qed.
Theorem grow_lost m a g size ok tr : pool m a -> placed m TAGS -> placed m PARAMS -> opens_as m g -> makeSpace_steps true m size = Ok (ok, tr) -> tr <> [] ->
  exists c1 c2 c3, tr = [c1; c2; c3] /\ never_opens c1 /\ never_opens c2.
Proof. intros P P1 P2 O E NE. destruct (grow_crash m a g size ok tr P P1 P2 O E NE) as (c1 & c2 & c3 & g3 & _ & T & N1 & N2 & _). exists c1, c2, c3. auto. Qed.
