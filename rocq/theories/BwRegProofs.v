(** What the registry of pools delivers. *)
From Verif Require Import Base BaseFacts Types ListFacts Sort Xb XbSpec XbFacts XbWrite WriteProofs Bw BwFacts BwReg BwFileSpec.

Definition holds (r : registry) (s : list Z) : Prop :=
  rg_count r = zlen s /\ zlen s <= 32 /\ zlen (rg_plugins r) = 256 /\ NoDup s /\ (forall p, In p s -> pointer p) /\
  forall i p, nth_error s i = Some p -> rd (rg_plugins r) (8 * Z.of_nat i) 8 = Ok (le 8 p).

Lemma unle_ptr p : pointer p -> unle (le 8 p) = p.
Proof. intro H. rewrite unle8. apply Z.mod_small. unfold pointer in H. lia. Qed.
Lemma zlen_le8 v : zlen (le 8 v) = 8.
Proof. reflexivity. Qed.
Lemma holds_slot r s i p : holds r s -> nth_error s i = Some p -> slot r (Z.of_nat i) = Ok p.
Proof. intros (_ & _ & _ & _ & PT & H) N. unfold slot. rewrite (H i p N). cbn [obind]. f_equal. apply unle_ptr, PT. eapply nth_error_In, N. Qed.
Lemma nth_lt {A} (s : list A) i p : nth_error s i = Some p -> Z.of_nat i < zlen s.
Proof. intro H. assert (i < List.length s)%nat by (apply nth_error_Some; congruence). unfold zlen. lia. Qed.
Lemma NoDup_snoc {A} (s : list A) p : NoDup s -> ~ In p s -> NoDup (s ++ [p]).
Proof. intros N I. apply (Permutation.Permutation_NoDup (Permutation.Permutation_cons_append s p)). constructor; auto. Qed.
Lemma NoDup_snoc_inv {A} (s : list A) p : NoDup (s ++ [p]) -> NoDup s /\ ~ In p s.
Proof. intro N. apply (Permutation.Permutation_NoDup (Permutation.Permutation_sym (Permutation.Permutation_cons_append s p))) in N. inversion N; auto. Qed.

Lemma register_ok r s p : holds r s -> ~ In p s -> pointer p -> zlen s < 32 -> exists r', registerPlugin r p = Ok (true, r') /\ holds r' (s ++ [p]).
Proof.
  intros (C & B & L & ND & PT & H) I P LT. unfold registerPlugin, MAX_BW_PLUGINS. replace (p =? 0) with false by (unfold pointer in P; lia). rewrite C. replace (32 <=? zlen s) with false by lia.
  pose proof (zlen_nonneg s). destruct (wr_some (rg_plugins r) (8 * zlen s) (le 8 p)) as (a & W); [lia|rewrite zlen_le8; lia|]. rewrite W. cbn [obind]. eexists. split; [reflexivity|].
  apply wr_kept in W as (_ & _ & [LA K] & G). rewrite zlen_le8 in *. unfold holds. cbn [rg_count rg_plugins]. rewrite zlen_app. change (zlen [p]) with 1.
  split; [reflexivity|]. split; [lia|]. split; [lia|]. split; [apply NoDup_snoc; auto|]. split.
  - intros q J. apply in_app_or in J as [J|[<-|[]]]; auto.
  - intros i q N. assert (X := nth_lt _ _ _ N). rewrite zlen_app in X. change (zlen [p]) with 1 in X. destruct (Z.eq_dec (Z.of_nat i) (zlen s)) as [E|E].
    + rewrite E, G. rewrite nth_error_app2 in N by (unfold zlen in E; lia). replace (i - List.length s)%nat with 0%nat in N by (unfold zlen in E; lia). injection N as <-. reflexivity.
    + rewrite K by lia. rewrite nth_error_app1 in N by (unfold zlen in *; lia). specialize (H i q N). exact H.
Qed.
Lemma register_full r s p : holds r s -> zlen s = 32 -> pointer p -> registerPlugin r p = Ok (false, r).
Proof. intros (C & _) E P. unfold registerPlugin, MAX_BW_PLUGINS. replace (p =? 0) with false by (unfold pointer in P; lia). rewrite C, E. reflexivity. Qed.

Lemma unregister_skip r p : forall s1 s2 i, (forall j q, nth_error (s1 ++ s2) j = Some q -> slot r (i + Z.of_nat j) = Ok q) -> ~ In p s1 ->
  unregister_from (List.length (s1 ++ s2)) r i p = unregister_from (List.length s2) r (i + zlen s1) p.
Proof.
  induction s1 as [|x s1 IH]; intros s2 i H N; [cbn; rewrite zlen_nil, Z.add_0_r; reflexivity|]. cbn [app List.length unregister_from].
  specialize (H 0%nat x eq_refl) as H0. rewrite Z.add_0_r in H0. rewrite H0. cbn [obind]. replace (x =? p) with false by (cbn in N; lia).
  rewrite (IH s2 (i + 1)); [f_equal; rewrite zlen_cons; lia| |cbn in N; tauto]. intros j q J. specialize (H (S j) q J). rewrite <- H. f_equal. lia.
Qed.
Lemma unregister_last r s p : holds r (s ++ [p]) -> exists r', unregisterPlugin r p = Ok (true, r') /\ holds r' s.
Proof.
  intro HH. pose proof HH as (C & B & L & ND & PT & H). apply NoDup_snoc_inv in ND as [ND I]. unfold unregisterPlugin. rewrite C. unfold zlen at 1. rewrite Nat2Z.id.
  rewrite (unregister_skip r p s [p] 0); [|intros j q J; eapply holds_slot; eauto|exact I]. cbn [List.length unregister_from].
  assert (S0 : slot r (0 + zlen s) = Ok p). { apply (holds_slot r (s ++ [p]) (List.length s) p HH). rewrite nth_error_app2 by lia. rewrite Nat.sub_diag. reflexivity. }
  rewrite S0. cbn [obind]. rewrite Z.eqb_refl. rewrite C, zlen_app. change (zlen [p]) with 1. rewrite zlen_app in B. change (zlen [p]) with 1 in B. pose proof (zlen_nonneg s).
  rewrite !Z.add_0_l. replace (zlen s + 1 - 1 - zlen s) with 0 by lia. replace (zlen s + 1 - 1) with (zlen s) by lia. unfold rd. rewrite L. replace ((0 <=? 8 * (zlen s + 1)) && (8 * (zlen s + 1) + 0 <=? 256)) with true by lia. cbn [obind].
  unfold slice. rewrite ztake_0 by lia. destruct (wr_some (rg_plugins r) (8 * zlen s) []) as (a & W); [lia|change (zlen (@nil Z)) with 0; lia|]. rewrite W. cbn [obind]. eexists. split; [reflexivity|].
  apply wr_kept in W as (_ & _ & [LA K] & _). change (zlen (@nil Z)) with 0 in *. unfold holds. cbn [rg_count rg_plugins]. split; [lia|]. split; [lia|]. split; [lia|]. split; [exact ND|]. split.
  - intros q J. apply PT, in_or_app. auto.
  - intros i q J. assert (X := nth_lt _ _ _ J). rewrite K by lia. apply (H i q). rewrite nth_error_app1 by (unfold zlen in X; lia). exact J.
Qed.
Lemma unregister_none r s p : holds r s -> ~ In p s -> unregisterPlugin r p = Ok (false, r).
Proof.
  intros HH I. pose proof HH as (C & _). unfold unregisterPlugin. rewrite C. unfold zlen at 1. rewrite Nat2Z.id. replace (List.length s) with (List.length (s ++ [])) by (rewrite app_nil_r; reflexivity). rewrite (unregister_skip r p s [] 0); [reflexivity| |exact I].
  intros j q J. rewrite app_nil_r in J. eapply holds_slot; eauto.
Qed.
Lemma calls_app l : forall r l', calls r (l ++ l') = obind (calls r l) (fun r => calls r l').
Proof. induction l as [|c l IH]; intros r l'; [reflexivity|]. cbn. destruct (do_call r c); cbn; auto. Qed.
Lemma standing_holds l s : standing l s -> exists r, calls new_registry l = Ok r /\ holds r s.
Proof.
  induction 1 as [|l s p _ (r & E & H) I P LT|l s p _ (r & E & H) I P LT|l s p _ (r & E & H)|l s p _ (r & E & H) I].
  - exists new_registry. split; [reflexivity|]. unfold holds. split; [reflexivity|]. split; [rewrite zlen_nil; lia|]. split; [reflexivity|]. split; [constructor|]. split; [contradiction|]. intros [|] ? ?; discriminate.
  - destruct (register_ok r s p H I P LT) as (r' & E' & H'). exists r'. split; [|exact H']. rewrite calls_app, E. cbn. rewrite E'. reflexivity.
  - exists r. split; [|exact H]. rewrite calls_app, E. cbn. rewrite (register_full r s p H LT P). reflexivity.
  - destruct (unregister_last r s p H) as (r' & E' & H'). exists r'. split; [|exact H']. rewrite calls_app, E. cbn. rewrite E'. reflexivity.
  - exists r. split; [|exact H]. rewrite calls_app, E. cbn. rewrite (unregister_none r s p H I). reflexivity.
Qed.
Lemma plugin_found pool_of r pool : forall s i, (forall j q, nth_error s j = Some q -> slot r (i + Z.of_nat j) = Ok q) -> (forall q, In q s -> exists o, pool_of q = Some o) ->
  exists res, plugin_from (List.length s) pool_of r i pool = Ok res /\ match res with Some p => In p s /\ pool_of p = Some pool | None => forall p, In p s -> pool_of p <> Some pool end.
Proof.
  induction s as [|x s IH]; intros i H PO; [exists None; split; [reflexivity|contradiction]|]. cbn [List.length plugin_from].
  specialize (H 0%nat x eq_refl) as H0. rewrite Z.add_0_r in H0. rewrite H0. cbn [obind]. destruct (PO x) as (o & Eo); [left; reflexivity|]. rewrite Eo. destruct (o =? pool) eqn:Q.
  - exists (Some x). split; [reflexivity|]. split; [left; reflexivity|]. rewrite Eo. f_equal. lia.
  - destruct (IH (i + 1)) as (res & E & M); [|intros; apply PO; right; auto|].
    + intros j q J. specialize (H (S j) q J). rewrite <- H. f_equal. lia.
    + exists res. split; [exact E|]. destruct res as [p|]; [destruct M; split; [right; auto|auto]|]. intros p [<-|J]; [rewrite Eo; intro X; injection X; lia|auto].
Qed.
Theorem registry_finds l s : standing l s -> exists r, calls new_registry l = Ok r /\
  forall pool_of pool, (forall p, In p s -> exists o, pool_of p = Some o) ->
  (forall p, In p s -> pool_of p = Some pool -> (forall q, In q s -> pool_of q = Some pool -> q = p) -> getPlugin pool_of r pool = Ok (Some p)) /\
  ((forall p, In p s -> pool_of p <> Some pool) -> getPlugin pool_of r pool = Ok None).
Proof.
  intro S. destruct (standing_holds l s S) as (r & E & H). pose proof H as (C & _). exists r. split; [exact E|]. intros pool_of pool PO.
  unfold getPlugin. rewrite C. unfold zlen. rewrite Nat2Z.id. destruct (plugin_found pool_of r pool s 0) as (res & F & M); [intros j q J; eapply holds_slot; eauto|exact PO|].
  rewrite F. split.
  - intros p I P U. destruct res as [q|]; [destruct M as [Iq Pq]; rewrite (U q Iq Pq); reflexivity|]. exfalso. exact (M p I P).
  - intro N. destruct res as [q|]; [destruct M as [Iq Pq]; exfalso; exact (N q Iq Pq)|reflexivity].
Qed.

(** Two plugins, the first destroyed *)
Theorem registry_loses a b : pointer a -> pointer b -> a / 256 <> b / 256 -> exists r, calls new_registry [Construct a; Construct b; Destroy a] = Ok r /\
  (forall pool_of pool, getPlugin pool_of r pool <> Ok (Some b)) /\
  (forall pool_of pool, (forall x, x <> b -> pool_of x = None) -> getPlugin pool_of r pool = Ub).
Proof.
  intros PA PB NE. assert (AB : a <> b) by (intros ->; apply NE; reflexivity).
  assert (S1 : standing [Construct a] [a]) by (apply (standing_construct [] []); [exact standing_none|auto|exact PA|change (zlen (@nil Z)) with 0; lia]).
  assert (S2 : standing [Construct a; Construct b] [a; b]) by (apply (standing_construct [Construct a] [a]); [exact S1|cbn; intuition|exact PB|change (zlen [a]) with 1; lia]).
  destruct (standing_holds _ _ S2) as (r & E & HH). pose proof HH as (C & _ & L & _ & _ & H). change (zlen [a; b]) with 2 in C.
  assert (Ha := holds_slot _ _ 0%nat a HH eq_refl). change (Z.of_nat 0) with 0 in Ha. assert (HA := H 0%nat a eq_refl). assert (HB := H 1%nat b eq_refl).
  change (8 * Z.of_nat 0) with 0 in HA. change (8 * Z.of_nat 1) with 8 in HB. apply rd_inv in HA as (_ & _ & HA & _); [|lia]. apply rd_inv in HB as (_ & _ & HB & _); [|lia].
  change (le 8 a) with ([a mod 256] ++ le 7 (a / 256)) in HA. change (le 8 b) with ([b mod 256] ++ le 7 (b / 256)) in HB. apply has_app in HA as [_ HA]. apply has_app in HB as [HB _]. change (0 + zlen [a mod 256]) with 1 in HA.
  change [Construct a; Construct b; Destroy a] with ([Construct a; Construct b] ++ [Destroy a]). rewrite calls_app, E. cbn [obind calls do_call].
  unfold unregisterPlugin. rewrite C. change (Z.to_nat 2) with 2%nat. cbn [unregister_from]. rewrite Ha. cbn [obind]. rewrite Z.eqb_refl, C. change (2 - 1 - 0) with 1. change (8 * (0 + 1)) with 8. change (8 * 0) with 0.
  apply has_rd in HB. change (zlen [b mod 256]) with 1 in HB. rewrite HB. cbn [obind]. destruct (wr_some (rg_plugins r) 0 [b mod 256]) as (m & W); [lia|change (zlen [b mod 256]) with 1; lia|]. rewrite W. cbn [obind]. eexists. split; [reflexivity|].
  apply wr_kept in W as (_ & _ & [LM K] & G). change (zlen [b mod 256]) with 1 in *.
  assert (R8 : slot (mkreg m (2 - 1)) 0 = Ok (b mod 256 + 256 * (a / 256))).
  { unfold slot. cbn [rg_plugins]. change (8 * 0) with 0. apply has_rd in HA. change (zlen (le 7 (a / 256))) with 7 in HA. rewrite <- K in HA by lia.
    apply rd_inv in HA as (_ & _ & HA & _); [|lia]. apply rd_inv in G as (_ & _ & H1 & _); [|lia].
    assert (HX : has m 0 ([b mod 256] ++ le 7 (a / 256))) by (apply has_app; split; [exact H1|exact HA]).
    apply has_rd in HX. change (zlen ([b mod 256] ++ le 7 (a / 256))) with 8 in HX. rewrite HX. cbn [obind]. f_equal. change (unle ([b mod 256] ++ le 7 (a / 256))) with (b mod 256 + 256 * unle (le 7 (a / 256))).
    unfold pointer in PA. assert (0 <= a / 256 < 72057594037927936) by lia. rewrite unle_le_small by (change (256 ^ Z.of_nat 7) with 72057594037927936; lia). reflexivity. }
  assert (X : b mod 256 + 256 * (a / 256) <> b) by lia. unfold getPlugin. cbn [rg_count]. change (Z.to_nat (2 - 1)) with 1%nat. cbn [plugin_from]. rewrite R8. cbn [obind]. split.
  - intros pool_of pool. destruct (pool_of _) as [o|]; [|discriminate]. destruct (o =? pool); [|discriminate]. intro Q. injection Q. exact X.
  - intros pool_of pool N. rewrite (N _ X). reflexivity.
Qed.
