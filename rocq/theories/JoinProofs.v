(** Joining types, and the inferred type of a column. *)
From Verif Require Import Base BaseFacts Types ListFacts.
From Coq Require Import Permutation.

Definition data_types : list Z :=
  [XBT_NULL; XBT_VARIANT; XBT_STRING; XBT_BLOB; XBT_INT32; XBT_INT64; XBT_FLOAT; XBT_DOUBLE; XBT_HEX; XBT_GUID; XBT_SHA1;
   XBT_UNIX_TIME; XBT_IPv4; XBT_IPv6; XBT_UNIX_TIME64_MSEC; XBT_UINT64; XBT_BLOB_STRING; XBT_UNIX_DATE; XBT_INT32_DECI;
   XBT_INT32_CENTI; XBT_INT32_MILI; XBT_INT32_MICRO; XBT_INT32_NANO; XBT_UINT32].

Lemma all1 (P : Z -> bool) : forallb P data_types = true -> forall a, In a data_types -> P a = true.
Proof. intros H a Ha. rewrite forallb_forall in H. apply H, Ha. Qed.
Lemma all2 (P : Z -> Z -> bool) : forallb (fun a => forallb (P a) data_types) data_types = true ->
  forall a b, In a data_types -> In b data_types -> P a b = true.
Proof. intros H a b Ha Hb. rewrite forallb_forall in H. specialize (H a Ha). rewrite forallb_forall in H. apply H, Hb. Qed.
Lemma all3 (P : Z -> Z -> Z -> bool) : forallb (fun a => forallb (fun b => forallb (P a b) data_types) data_types) data_types = true ->
  forall a b c, In a data_types -> In b data_types -> In c data_types -> P a b c = true.
Proof.
  intros H a b c Ha Hb Hc. rewrite forallb_forall in H. specialize (H a Ha). rewrite forallb_forall in H. specialize (H b Hb).
  rewrite forallb_forall in H. apply H, Hc.
Qed.

Lemma join_idem a : In a data_types -> XBT_JoinTypes a a = a.
Proof. intros Ha. apply Z.eqb_eq. revert a Ha. apply (all1 (fun a => XBT_JoinTypes a a =? a)). vm_compute. reflexivity. Qed.
Lemma join_comm a b : In a data_types -> In b data_types -> XBT_JoinTypes a b = XBT_JoinTypes b a.
Proof.
  intros Ha Hb. apply Z.eqb_eq. revert a b Ha Hb. apply (all2 (fun a b => XBT_JoinTypes a b =? XBT_JoinTypes b a)). vm_compute. reflexivity.
Qed.
Lemma join_assoc a b c : In a data_types -> In b data_types -> In c data_types ->
  XBT_JoinTypes a (XBT_JoinTypes b c) = XBT_JoinTypes (XBT_JoinTypes a b) c.
Proof.
  intros Ha Hb Hc. apply Z.eqb_eq. revert a b c Ha Hb Hc.
  apply (all3 (fun a b c => XBT_JoinTypes a (XBT_JoinTypes b c) =? XBT_JoinTypes (XBT_JoinTypes a b) c)). vm_compute. reflexivity.
Qed.
Lemma join_swap a b c : In a data_types -> In b data_types -> In c data_types ->
  XBT_JoinTypes a (XBT_JoinTypes b c) = XBT_JoinTypes b (XBT_JoinTypes a c).
Proof. intros. rewrite !join_assoc by assumption. rewrite (join_comm a b) by assumption. reflexivity. Qed.
Lemma join_closed a b : In a data_types -> In b data_types -> In (XBT_JoinTypes a b) data_types.
Proof.
  intros Ha Hb. apply isin_true. revert a b Ha Hb.
  apply (all2 (fun a b => isin (XBT_JoinTypes a b) data_types)). vm_compute. reflexivity.
Qed.
Lemma join_null a : In a data_types -> XBT_JoinTypes a XBT_NULL = a.
Proof. intros Ha. apply Z.eqb_eq. revert a Ha. apply (all1 (fun a => XBT_JoinTypes a XBT_NULL =? a)). vm_compute. reflexivity. Qed.

(** The types a text can have. *)
Definition text_types : list Z :=
  [XBT_NULL; XBT_STRING; XBT_INT32; XBT_INT64; XBT_FLOAT; XBT_DOUBLE; XBT_HEX; XBT_GUID; XBT_SHA1;
   XBT_UNIX_TIME; XBT_IPv4; XBT_UNIX_TIME64_MSEC; XBT_UINT64; XBT_UNIX_DATE; XBT_INT32_DECI;
   XBT_INT32_CENTI; XBT_INT32_MILI; XBT_INT32_MICRO; XBT_INT32_NANO; XBT_UINT32].

Lemma decide_range h n v s : In (decide h n v s) text_types.
Proof.
  unfold decide. destruct s. cbv zeta.
  repeat match goal with |- context [if ?c then _ else _] => destruct c end;
  unfold text_types; cbn [In]; tauto.
Qed.

Lemma Detect_range v : In (XBT_Detect v) text_types.
Proof. unfold XBT_Detect. destruct v; [left; reflexivity|]. apply decide_range. Qed.

Lemma text_data a : In a text_types -> In a data_types.
Proof. intros H. unfold text_types in H. cbn [In] in H. unfold data_types. cbn [In]. tauto. Qed.

Definition step (e d : Z) : Z := if e =? XBT_VARIANT then e else XBT_JoinTypes d e.

Lemma column_fold values : column_type values = fold_left step (map XBT_Detect values) XBT_NULL.
Proof.
  assert (H : forall l e, fold_left (fun ty v => XBT_Detect2 v ty) l e = fold_left step (map XBT_Detect l) e).
  { induction l as [|v l IH]; intros e; [reflexivity|]. cbn [fold_left map]. rewrite IH. reflexivity. }
  destruct values as [|v l]; [reflexivity|]. cbn [column_type map fold_left]. rewrite H. f_equal. unfold step.
  change (XBT_NULL =? XBT_VARIANT) with false. cbv iota. rewrite join_null; [reflexivity|apply text_data, Detect_range].
Qed.

Definition joined (ts : list Z) (e : Z) : Z := fold_left (fun e d => XBT_JoinTypes d e) ts e.

Lemma joined_closed ts : forall e, Forall (fun t => In t data_types) ts -> In e data_types -> In (joined ts e) data_types.
Proof.
  induction ts as [|t ts IH]; intros e H He; [exact He|]. inversion H; subst. cbn [joined fold_left]. apply IH; [assumption|].
  apply join_closed; assumption.
Qed.

Lemma joined_perm ts us : Permutation ts us -> forall e, Forall (fun t => In t data_types) ts -> In e data_types -> joined ts e = joined us e.
Proof.
  induction 1 as [|x l l' HP IH|x y l|l l' l'' HP1 IH1 HP2 IH2]; intros e H He; [reflexivity| | |].
  - inversion H; subst. cbn [joined fold_left]. apply IH; [assumption|apply join_closed; assumption].
  - inversion H as [|? ? Hy H']; subst. inversion H' as [|? ? Hx H'']; subst. cbn [joined fold_left]. f_equal. apply join_swap; assumption.
  - rewrite IH1 by assumption. apply IH2; [|assumption]. eapply Permutation_Forall; eassumption.
Qed.

Lemma joined_out ts : forall e d, Forall (fun t => In t data_types) ts -> In e data_types -> In d data_types ->
  joined ts (XBT_JoinTypes d e) = XBT_JoinTypes d (joined ts e).
Proof.
  induction ts as [|t ts IH]; intros e d H He Hd; [reflexivity|]. inversion H; subst. cbn [joined fold_left].
  rewrite join_swap by assumption. apply IH; try assumption. apply join_closed; assumption.
Qed.

Lemma variant_absorbs d : In d text_types -> d <> XBT_STRING -> XBT_JoinTypes d XBT_VARIANT = XBT_VARIANT.
Proof.
  intros Hd Hn. assert (H : (d =? XBT_STRING) || (XBT_JoinTypes d XBT_VARIANT =? XBT_VARIANT) = true).
  { revert d Hd Hn. intros d Hd _. assert (F : forallb (fun d => (d =? XBT_STRING) || (XBT_JoinTypes d XBT_VARIANT =? XBT_VARIANT)) text_types = true) by (vm_compute; reflexivity).
    rewrite forallb_forall in F. apply F, Hd. }
  apply orb_true_iff in H. destruct H as [H|H]; apply Z.eqb_eq in H; [contradiction|exact H].
Qed.

Lemma step_joined_plain ts : forall e, Forall (fun t => In t text_types /\ t <> XBT_STRING) ts -> fold_left step ts e = joined ts e.
Proof.
  induction ts as [|t ts IH]; intros e H; [reflexivity|]. inversion H as [|? ? [Ht Hn] H']; subst. cbn [joined fold_left].
  rewrite IH by assumption. unfold step. destruct (Z.eqb_spec e XBT_VARIANT) as [->|_]; [rewrite variant_absorbs by assumption|]; reflexivity.
Qed.

Lemma string_wins d : In d text_types -> XBT_JoinTypes d XBT_STRING = XBT_STRING.
Proof.
  intros Hd. apply Z.eqb_eq. revert d Hd.
  assert (F : forallb (fun d => XBT_JoinTypes d XBT_STRING =? XBT_STRING) text_types = true) by (vm_compute; reflexivity).
  intros d Hd. rewrite forallb_forall in F. apply F, Hd.
Qed.

Lemma joined_string ts : Forall (fun t => In t text_types) ts -> joined ts XBT_STRING = XBT_STRING.
Proof.
  induction ts as [|t ts IH]; intros H; [reflexivity|]. inversion H; subst. cbn [joined fold_left]. rewrite string_wins by assumption. apply IH. assumption.
Qed.

Lemma step_string ts : Forall (fun t => In t text_types) ts -> fold_left step ts XBT_STRING = XBT_STRING.
Proof.
  induction ts as [|t ts IH]; intros H; [reflexivity|]. inversion H; subst. cbn [fold_left]. unfold step at 2.
  change (XBT_STRING =? XBT_VARIANT) with false. cbv iota. rewrite string_wins by assumption. apply IH. assumption.
Qed.

Definition plain (ts : list Z) : list Z := filter (fun t => negb (t =? XBT_STRING)) ts.

Lemma joined_variant ts : Forall (fun t => In t text_types /\ t <> XBT_STRING) ts -> joined ts XBT_VARIANT = XBT_VARIANT.
Proof.
  induction ts as [|t ts IH]; intros H; [reflexivity|]. inversion H as [|? ? [Ht Hn] H']; subst. cbn [joined fold_left]. rewrite variant_absorbs by assumption. apply IH. assumption.
Qed.

Lemma plain_ok ts : Forall (fun t => In t text_types) ts -> Forall (fun t => In t text_types /\ t <> XBT_STRING) (plain ts).
Proof.
  intros H. apply Forall_forall. intros x Hx. apply filter_In in Hx. destruct Hx as [Hx Hn]. rewrite Forall_forall in H. split; [apply H, Hx|]. lia.
Qed.

Lemma step_joined_compatible ts : forall e, Forall (fun t => In t text_types) ts -> In e data_types -> e <> XBT_BLOB_STRING ->
  (e <> XBT_STRING -> joined (plain ts) e <> XBT_VARIANT) -> fold_left step ts e = joined ts e.
Proof.
  induction ts as [|t ts IH]; intros e H He Hb Hv; [reflexivity|]. inversion H as [|? ? Ht H']; subst.
  destruct (Z.eq_dec e XBT_STRING) as [->|Hne].
  { rewrite step_string, joined_string by assumption. reflexivity. }
  specialize (Hv Hne). cbn [joined fold_left].
  assert (He' : e <> XBT_VARIANT). { intros ->. apply Hv. apply joined_variant, plain_ok, H. }
  unfold step at 2. destruct (Z.eqb_spec e XBT_VARIANT); [contradiction|]. apply IH; [assumption|apply join_closed; [apply text_data, Ht|exact He]| |].
  - assert (F : forallb (fun t => forallb (fun e => (e =? XBT_BLOB_STRING) || negb (XBT_JoinTypes t e =? XBT_BLOB_STRING)) data_types) text_types = true) by (vm_compute; reflexivity).
    rewrite forallb_forall in F. specialize (F t Ht). rewrite forallb_forall in F. specialize (F e He). lia.
  - intros Hs. unfold plain in Hv. cbn [filter] in Hv. destruct (Z.eqb_spec t XBT_STRING) as [->|Hts].
    + exfalso. apply Hs. assert (F : forallb (fun e => (e =? XBT_BLOB_STRING) || (XBT_JoinTypes XBT_STRING e =? XBT_STRING)) data_types = true) by (vm_compute; reflexivity).
      rewrite forallb_forall in F. specialize (F e He). lia.
    + exact Hv.
Qed.

(** No value is a plain string, or the values that are not fit into one type. *)
Definition orderly (values : list (list Z)) : Prop :=
  (forall v, In v values -> XBT_Detect v <> XBT_STRING) \/
  column_type (filter (fun v => negb (XBT_Detect v =? XBT_STRING)) values) <> XBT_VARIANT.

Lemma map_filter_plain values : map XBT_Detect (filter (fun v => negb (XBT_Detect v =? XBT_STRING)) values) = plain (map XBT_Detect values).
Proof.
  induction values as [|v l IH]; [reflexivity|]. cbn [filter map plain]. unfold plain in *. cbn [filter]. destruct (negb (XBT_Detect v =? XBT_STRING)); cbn [map]; rewrite IH; reflexivity.
Qed.

Lemma detected values : Forall (fun t => In t text_types) (map XBT_Detect values).
Proof. apply Forall_forall. intros t Ht. apply in_map_iff in Ht. destruct Ht as (v & <- & _). apply Detect_range. Qed.

Lemma orderly_joined values : orderly values -> column_type values = joined (map XBT_Detect values) XBT_NULL.
Proof.
  intros [H|H]; rewrite column_fold.
  - apply step_joined_plain. apply Forall_forall. intros t Ht. apply in_map_iff in Ht. destruct Ht as (v & <- & Hv). split; [apply Detect_range|apply H, Hv].
  - apply step_joined_compatible; [apply detected|left; reflexivity|discriminate|]. intros _ E. apply H.
    rewrite column_fold, map_filter_plain. rewrite step_joined_plain; [exact E|]. apply plain_ok, detected.
Qed.

Lemma orderly_perm v w : Permutation v w -> orderly v -> orderly w.
Proof.
  intros HP H. assert (Hf : Permutation (filter (fun v => negb (XBT_Detect v =? XBT_STRING)) v) (filter (fun v => negb (XBT_Detect v =? XBT_STRING)) w)).
  { clear H. induction HP as [|x l l' HP IH|x y l|l l' l'' _ IH1 _ IH2]; cbn [filter].
    - constructor.
    - destruct (negb _); [constructor|]; exact IH.
    - destruct (negb _), (negb _); try reflexivity. apply perm_swap.
    - etransitivity; eassumption. }
  destruct H as [H|H]; [left; intros x Hx; apply H; eapply Permutation_in; [symmetry; exact HP|exact Hx]|right].
  intros E. apply H. rewrite <- E. rewrite !column_fold, !map_filter_plain. rewrite !step_joined_plain by apply plain_ok, detected.
  apply joined_perm; [rewrite <- !map_filter_plain; apply Permutation_map, Hf| |left; reflexivity].
  eapply Forall_impl; [|apply plain_ok, detected]. intros t [Ht _]. apply text_data, Ht.
Qed.

Lemma column_order v w : Permutation v w -> orderly v -> column_type v = column_type w.
Proof.
  intros HP H. rewrite (orderly_joined v H), (orderly_joined w (orderly_perm v w HP H)).
  apply joined_perm; [apply Permutation_map, HP| |left; reflexivity].
  eapply Forall_impl; [|apply detected]. intros t. apply text_data.
Qed.

Lemma column_order_refuted : exists v w, Permutation v w /\ column_type v <> column_type w.
Proof.
  exists [lit "1"; lit "2024-01-01"; lit "plain text"], [lit "plain text"; lit "1"; lit "2024-01-01"].
  split; [|vm_compute; discriminate]. apply (Permutation_cons_append [lit "1"; lit "2024-01-01"] (lit "plain text")) || (symmetry; apply (Permutation_cons_append [lit "1"; lit "2024-01-01"] (lit "plain text"))).
Qed.

(** Any two of the three orders: these are the only results. *)
Lemma column_disorderly v w : Permutation v w -> column_type v <> column_type w ->
  exists s, In s v /\ XBT_Detect s = XBT_STRING.
Proof.
  intros HP Hne. destruct (existsb (fun s => XBT_Detect s =? XBT_STRING) v) eqn:E.
  - apply existsb_exists in E. destruct E as (s & Hs & E). exists s. split; [exact Hs|]. lia.
  - exfalso. apply Hne, column_order; [exact HP|]. left. intros x Hx Hd.
    assert (existsb (fun s => XBT_Detect s =? XBT_STRING) v = true); [|congruence]. apply existsb_exists. exists x. split; [exact Hx|]. lia.
Qed.
