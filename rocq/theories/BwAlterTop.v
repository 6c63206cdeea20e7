(** Giving another type to an element and to a name. *)
From Verif Require Import Base BaseFacts Types ListFacts Sort Xb XbSpec XbFacts XbWrite WriteProofs Bw BwFacts BwRing BwSpec BwHist BwAlloc BwProofs BwRead BwTop BwSym BwReg BwFileSpec BwFileProofs BwNamesSpec BwNamesFacts BwNamesInv BwNamesReg BwNamesOps BwNamesIndex BwNamesProofs BwAlter BwLifeSpec BwDetach BwLife BwOnly JsonSource BwSet BwNamesTop BwAttr BwAlterSpec.

Lemma isin_In t l : isin t l = true <-> In t l.
Proof. unfold isin. rewrite existsb_exists. split; [intros (y & J & E); apply Z.eqb_eq in E; subst; exact J|intro J; exists t; split; [exact J|apply Z.eqb_refl]]. Qed.
Lemma is_4 t : XBT_IS_4 t = true <-> In t four.
Proof. unfold XBT_IS_4. rewrite isin_In. unfold four. cbn [In]. tauto. Qed.
Lemma is_8 t : XBT_IS_8 t = true <-> In t eight.
Proof. unfold XBT_IS_8. rewrite isin_In. unfold eight. cbn [In]. tauto. Qed.
Lemma is_var t : XBT_IS_VARSIZE t = true <-> In t counted.
Proof. unfold XBT_IS_VARSIZE. rewrite isin_In. unfold counted. cbn [In]. tauto. Qed.
Lemma alike_b old ty : (old =? ty) || (XBT_IS_4 ty && XBT_IS_4 old) || (XBT_IS_8 ty && XBT_IS_8 old) || (XBT_IS_VARSIZE ty && XBT_IS_VARSIZE old) = true <-> alike old ty.
Proof. rewrite !orb_true_iff, !andb_true_iff, Z.eqb_eq, !is_4, !is_8, !is_var. unfold alike. tauto. Qed.
(** What getData reads, from the bytes of the value *)
Lemma data_4 m x t : el_type m x = Ok t -> In t four -> bw_getData m x = obind (rd m (x + 24) 4) (fun b => Ok (t, b, b)).
Proof. intros E J. unfold bw_getData. rewrite E. cbn [obind]. rewrite (proj2 (is_4 t) J). destruct (Z.eqb_spec t XBT_STRING) as [->|]; [|reflexivity]. apply is_4 in J. discriminate. Qed.
Lemma data_8 m x t : el_type m x = Ok t -> In t eight -> bw_getData m x = obind (rd m (x + 24) 8) (fun b => Ok (t, b, b)).
Proof. intros E J. unfold bw_getData. rewrite E. cbn [obind]. repeat (destruct J as [<-|J]; [reflexivity|]). destruct J. Qed.
Lemma data_var m x t : el_type m x = Ok t -> In t counted -> bw_getData m x = obind (rd_s32 m (x + 24)) (fun n => obind (rd m (x + 24) (4 + n)) (fun d => obind (rd m (x + 28) n) (fun c => Ok (t, d, c)))).
Proof. intros E J. unfold bw_getData. rewrite E. cbn [obind]. repeat (destruct J as [<-|J]; [reflexivity|]). destruct J. Qed.

Lemma retype_top k s m T P F e ty ok m' : life k s m T P F -> In e (members F) -> 0 <= ty < 256 -> retype m e ty = Ok (ok, m') ->
  exists old, el_type m e = Ok old /\ (ok = true <-> alike old ty) /\ (ok = false -> m' = m) /\ (ok = true -> retyped s m F e old ty m') /\ ((ty = XBT_BLOB_STRING -> 44 <= s e) -> life k s m' T P F).
Proof.
  intros LI J TY E. pose proof (fun BS => life_retype k s m T P F e ty ok m' LI J TY BS E) as L'. destruct (retype_ok _ _ _ _ _ E) as (old & TO & EO & CS). exists old. split; [exact TO|]. split; [rewrite EO; apply alike_b|]. split; [|split; [|exact L']].
  { intros ->. destruct CS as [[-> _]|[Q _]]; [reflexivity|discriminate]. }
  intros ->. destruct CS as [[-> Q]|(_ & N & W)]; [rewrite (Q eq_refl) in *; split; [exact TO|]; repeat split; auto|].
  destruct (wr_kept _ _ _ _ W) as (W1 & W2 & [KL KE] & RT). change (zlen [ty]) with 1 in *. pose proof (life_whole _ _ _ _ _ _ LI) as (B & a & I & EL & _). destruct (names_pool _ _ _ _ _ _ _ I) as [PO _]. destruct (inv_in _ _ _ _ _ _ EL PO J) as (Q1 & Q2 & Q3).
  assert (TT : el_type m' e = Ok ty) by (unfold el_type, rd_u8; rewrite RT; cbn [obind unle]; f_equal; lia).
  assert (HI : forall q n, e + 24 <= q -> 0 <= n -> rd m' q n = rd m q n) by (intros; apply KE; lia).
  split; [exact TT|]. split; [unfold el_id, rd_s16; rewrite KE by lia; reflexivity|]. split; [exact HI|]. split.
  - intros d c G. symmetry in EO. apply alike_b in EO as [Q|[[J1 J2]|[[J1 J2]|[J1 J2]]]]; [congruence| | |].
    + rewrite (data_4 _ _ _ TO J1) in G. rewrite (data_4 _ _ _ TT J2), HI by lia. apply obind_inv in G as (b & R & G). rewrite R. cbn [obind]. injection G as <- <-. reflexivity.
    + rewrite (data_8 _ _ _ TO J1) in G. rewrite (data_8 _ _ _ TT J2), HI by lia. apply obind_inv in G as (b & R & G). rewrite R. cbn [obind]. injection G as <- <-. reflexivity.
    + rewrite (data_var _ _ _ TO J1) in G. rewrite (data_var _ _ _ TT J2). unfold rd_s32 in *. rewrite HI by lia. apply obind_inv in G as (n & R & G). rewrite R. cbn [obind]. apply obind_inv in G as (d' & R1 & G). apply obind_inv in G as (c' & R2 & G). injection G as <- <-.
      assert (NR : forall q n b, e + 24 <= q -> rd m q n = Ok b -> rd m' q n = Ok b).
      { intros q n0 b Q R0. destruct (Z.lt_ge_cases n0 0) as [NN|NN]; [|rewrite HI by lia; exact R0]. unfold rd in *. rewrite KL. destruct ((0 <=? q) && (q + n0 <=? zlen m)); [|discriminate]. injection R0 as <-. f_equal. unfold slice, ztake. replace (Z.to_nat n0) with O by lia. reflexivity. }
      rewrite (NR (e + 24) (4 + n) d' ltac:(lia) R1). cbn [obind]. rewrite (NR (e + 28) n c' ltac:(lia) R2). reflexivity.
  - intros x JX NX. destruct (inv_apart _ _ _ _ _ _ EL JX J NX); destruct (inv_in _ _ _ _ _ _ EL PO JX); apply KE; lia.
Qed.
Lemma retype_works k s m T P F e ty : life k s m T P F -> In e (members F) -> exists ok m', retype m e ty = Ok (ok, m').
Proof.
  intros LI J. pose proof (life_whole _ _ _ _ _ _ LI) as (B & a & I & EL & _ & SZ). destruct (names_pool _ _ _ _ _ _ _ I) as [PO _]. destruct (inv_in _ _ _ _ _ _ EL PO J) as (Q1 & Q2 & Q3). pose proof PO as (_ & _ & _ & _ & BB & _). destruct (SZ e J) as (old & _ & _ & TO & _). unfold retype. rewrite TO. cbn [obind].
  destruct (wr_some m (e + 7) [ty]) as [m1 W]; [unfold HEADER in *; lia|change (zlen [ty]) with 1; unfold HEADER in *; lia|].
  rewrite W. cbn [obind]. destruct (old =? ty); [eauto|]. destruct (XBT_IS_4 ty), (XBT_IS_4 old), (XBT_IS_8 ty), (XBT_IS_8 old), (XBT_IS_VARSIZE ty), (XBT_IS_VARSIZE old); eauto.
Qed.

(** Names *)
Lemma converts_b old ty : match XBT_ConvertableType old ty with Convertable => true | _ => false end = true <-> converts old ty.
Proof.
  unfold XBT_ConvertableType, converts, isin, existsb, XBT_NULL, XBT_STRING, XBT_BLOB, XBT_BLOB_STRING, XBT_HEX, XBT_INT32, XBT_UNIX_TIME, XBT_UNIX_DATE, XBT_FLOAT, XBT_DOUBLE.
  repeat match goal with |- context [if ?b then _ else _] => let H := fresh in destruct b eqn:H end; split; intro Q; try discriminate; try reflexivity; rewrite ?orb_false_r, ?orb_true_iff, ?orb_false_iff, ?Z.eqb_eq, ?Z.eqb_neq in *; try lia.
Qed.
Lemma alter_ok t u m L K B a fuel id ty ok m' : two t u -> BwNamesInv.inv m t u L K B a -> alter fuel m t id ty = rret (ok, m') -> (ok = true <-> may_alter L id ty).
Proof.
  intros TW I E. destruct (inv_alter _ _ _ _ _ _ _ _ _ _ _ _ TW I E) as (_ & _ & ->). rewrite !andb_true_iff. unfold may_alter, known. destruct (nth_error L (Z.to_nat id)) as [[nm old]|].
  - rewrite converts_b. split; [intros (((A1 & A2) & A3) & A4); split; [lia|]; split; [lia|]; eauto|]. intros (A1 & A2 & nm' & old' & Q & A4). injection Q as <- <-. repeat split; auto; lia.
  - split; [intros [_ Q]; discriminate|]. intros (_ & _ & nm' & old' & Q & _). discriminate.
Qed.
Lemma alter_same t u m L K B a fuel id ty m' : two t u -> BwNamesInv.inv m t u L K B a -> alter fuel m t id ty = rret (false, m') -> m' = m.
Proof.
  intros _ _ E. unfold alter in E. destruct (negb _); [apply rret_bool in E as [_ <-]; reflexivity|]. apply rbind_inv in E as ([o|] & _ & E); [|apply rret_bool in E as [_ <-]; reflexivity]. apply rbind_inv in E as (c & _ & E).
  destruct (XBT_ConvertableType c ty); try (apply rret_bool in E as [_ <-]; reflexivity). apply rbind_inv in E as (m1 & _ & E). apply rret_bool in E as [Q _]. discriminate.
Qed.
Lemma alter_works t u m L K B a id ty : two t u -> BwNamesInv.inv m t u L K B a -> exists fuel ok m', alter fuel m t id ty = rret (ok, m').
Proof.
  intros TW (n & x & n' & x' & PO & T1 & T2 & SP). pose proof PO as (_ & _ & _ & _ & BB & _). exists (S (List.length L)). unfold alter. destruct (negb _); [eauto|].
  destruct (Z.lt_ge_cases id 0) as [NG|NG]; [|destruct (Z.lt_ge_cases id (zlen L)) as [LT|GE]].
  2:{ destruct (nth_error L (Z.to_nat id)) as [[nm old]|] eqn:NE; [|apply nth_error_None in NE; unfold zlen in *; lia]. pose proof (entry_some m a t n x L _ (Z.to_nat id) (nm, old) (S (List.length L)) PO T1 SP NE ltac:(lia)) as E2. rewrite Z2Nat.id in E2 by lia. rewrite E2, rbind_rret.
      pose proof T1 as (_ & _ & _ & _ & LB & G & _ & _ & H & _). assert (LNE : L <> []) by (intros ->; destruct (Z.to_nat id); discriminate). destruct (proj1 (Forall_forall _ _) G _ (nth_error_In _ _ NE)) as [PS TO]. cbn [fst snd] in PS, TO.
      pose proof (stored_at m n L _ _ (H LNE) NE) as HE. cbn [fst snd] in HE. apply has_entry in HE as (_ & _ & T3 & _); [|unfold zlen in *; lia|exact TO|apply PS]. rewrite T3, rbind_ok. destruct (XBT_ConvertableType old ty); eauto.
      destruct (wr_some m (n + off L (Z.to_nat id) + 2) [ty]) as [m1 ->]; [| |rewrite rbind_ok; eauto]; unfold rd_u8 in T3; apply obind_inv in T3 as (b & R & _); apply rd_inv in R as (? & ? & _); change (zlen [ty]) with 1; lia. }
  all: exists false, m; pose proof T1 as (MX & _); unfold entry_at; rewrite MX, rbind_ok; replace ((id <? 0) || (zlen L - 1 <? id)) with true by lia; rewrite rbind_rret; reflexivity.
Qed.
Lemma alterTag_top k s m T P F fuel id ty ok m' : life k s m T P F -> alterTag fuel m id ty = rret (ok, m') ->
  (ok = true <-> may_alter T id ty) /\ (ok = false -> m' = m) /\ life k s m' (if ok then altered (Z.to_nat id) ty T else T) P F /\ (forall e, In e (members F) -> rd m' e (s e) = rd m e (s e)).
Proof.
  intros LI E. pose proof (life_whole _ _ _ _ _ _ LI) as (B & a & I & EL & IB & _). split; [exact (alter_ok _ _ _ _ _ _ _ _ _ _ _ _ tags_first I E)|]. split; [intros ->; exact (alter_same _ _ _ _ _ _ _ _ _ _ _ tags_first I E)|]. split; [exact (life_alter_tag _ _ _ _ _ _ _ _ _ _ _ LI E)|].
  destruct (inv_alter _ _ _ _ _ _ _ _ _ _ _ _ tags_first I E) as (KK & _). intros e J. apply KK, IB, J.
Qed.
Lemma alterAttr_top k s m T P F fuel id ty ok m' : life k s m T P F -> alterAttr fuel m id ty = rret (ok, m') ->
  (ok = true <-> may_alter P id ty) /\ (ok = false -> m' = m) /\ life k s m' T (if ok then altered (Z.to_nat id) ty P else P) F /\ (forall e, In e (members F) -> rd m' e (s e) = rd m e (s e)).
Proof.
  intros LI E. pose proof (life_whole _ _ _ _ _ _ LI) as (B & a & I & EL & IB & _). apply inv_swap in I. pose proof (two_swap _ _ tags_first) as TW. split; [exact (alter_ok _ _ _ _ _ _ _ _ _ _ _ _ TW I E)|]. split; [intros ->; exact (alter_same _ _ _ _ _ _ _ _ _ _ _ TW I E)|]. split; [exact (life_alter_attr _ _ _ _ _ _ _ _ _ _ _ LI E)|].
  destruct (inv_alter _ _ _ _ _ _ _ _ _ _ _ _ TW I E) as (KK & _). intros e J. apply KK, IB, J.
Qed.
Lemma alter_total k s m T P F id ty : life k s m T P F -> (exists fuel ok m', alterTag fuel m id ty = rret (ok, m')) /\ (exists fuel ok m', alterAttr fuel m id ty = rret (ok, m')).
Proof.
  intro LI. pose proof (life_whole _ _ _ _ _ _ LI) as (B & a & I & _). split; [exact (alter_works _ _ _ _ _ _ _ _ _ tags_first I)|]. apply inv_swap in I. exact (alter_works _ _ _ _ _ _ _ _ _ (two_swap _ _ tags_first) I).
Qed.
