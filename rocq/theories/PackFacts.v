(** The tree of nodes in an image: where each of them stands. *)
From Verif Require Import Base BaseFacts ListFacts Types Sort SortProofs Xb XbSpec XbFacts XbWrite WriteProofs OpenProofs Packer.
From Coq Require Import Sorted Permutation.

(** A node at [x] with its own bytes up to [c], the nodes below it up to [e]. *)
Inductive item := It (x c e : Z) (kids : list item).
Definition ix (i : item) : Z := let '(It x _ _ _) := i in x.
Definition ic (i : item) : Z := let '(It _ c _ _) := i in c.
Definition ie (i : item) : Z := let '(It _ _ e _) := i in e.
Definition ikids (i : item) : list item := let '(It _ _ _ k) := i in k.
Fixpoint items (i : item) : list item := i :: match i with It _ _ _ kids => flat_map items kids end.
Fixpoint deep (i : item) : nat := let '(It _ _ _ kids) := i in S (fold_right Nat.max 0%nat (map deep kids)).

Lemma item_ind' (P : item -> Prop) : (forall x c e k, Forall P k -> P (It x c e k)) -> forall i, P i.
Proof. intros H. fix IH 1. intros [x c e k]. apply H. induction k as [|i r IHr]; constructor; [apply IH|exact IHr]. Qed.

Definition kids_layout (P : item -> Prop) d x e :=
  fix go p lo (l : list item) {struct l} : Prop :=
    match l with
    | [] => lo <= e
    | k :: r => lo <= ix k /\ rd_s32 d p = Ok (ix k - x) /\ P k /\ go (p + 4) (ie k) r
    end.
Fixpoint layout d (i : item) {struct i} : Prop :=
  let '(It x c e kids) := i in
  exists nm pc, 0 <= pc /\ x mod 4 = 0 /\ 0 <= x /\ x + 12 + 8 * pc + 4 * zlen kids <= c /\ c <= e /\ x + 12 < e /\ e <= zlen d /\
  it_name d x = Ok nm /\ nm <> XTNR_REFERENCE /\ nm <> XTNR_PROCESSED /\
  it_paramcount d x = Ok pc /\ it_childcount d x = Ok (zlen kids) /\ it_length d x = Ok (e - x) /\
  match kids with [] => c = e | k :: _ => c = ix k end /\
  kids_layout (fun k => layout d k) d x e (x + 12 + 8 * pc) c kids.

Lemma layout_range d i : layout d i -> 0 <= ix i /\ ix i mod 4 = 0 /\ ix i + 12 <= ic i /\ ic i <= ie i /\ ix i + 12 < ie i /\ ie i <= zlen d.
Proof. destruct i as [x c e k]. cbn [layout ix ic ie]. intros (nm & pc & A & B & C & D & E & F & G & _). pose proof (zlen_nonneg k). lia. Qed.

Lemma layout_length d i : layout d i -> it_length d (ix i) = Ok (ie i - ix i).
Proof. destruct i as [x c e k]. cbn [layout ix ic ie]. intros (nm & pc & A & B & C & D & E & F & G & I & J & K & L & M & N & _). exact N. Qed.

Lemma kids_range d x e l : forall p lo, kids_layout (fun k => layout d k) d x e p lo l -> lo <= e /\ forall k, In k l -> lo <= ix k /\ ie k <= e /\ layout d k.
Proof.
  induction l as [|k l IH]; intros p lo H; cbn [kids_layout] in H; [split; [exact H|intros ? []]|]. destruct H as (A & B & C & D). apply IH in D. destruct D as (D & E).
  pose proof (layout_range _ _ C). split; [lia|]. intros k' [<-|H']; [split; [exact A|split; [exact D|exact C]]|]. destruct (E k' H') as (E1 & E2 & E3). split; [lia|auto].
Qed.
Lemma layout_kids d x c e k : layout d (It x c e k) -> forall t, In t k -> c <= ix t /\ ie t <= e /\ layout d t.
Proof. cbn [layout]. intros (nm & pc & _ & _ & _ & _ & _ & _ & _ & _ & _ & _ & _ & _ & _ & _ & H). apply kids_range in H. apply H. Qed.

(** Everything below a node stands behind its own bytes, inside it. *)
Lemma items_range d i : layout d i -> forall j, In j (items i) -> layout d j /\ ix i <= ix j /\ ie j <= ie i /\ (j = i \/ ic i <= ix j).
Proof.
  induction i as [x c e k IH] using item_ind'. intros L j [<-|H]; [split; [exact L|split; [lia|split; [lia|left; reflexivity]]]|].
  apply in_flat_map in H. destruct H as (t & Ht & Hj). rewrite Forall_forall in IH. destruct (layout_kids _ _ _ _ _ L t Ht) as (A & B & C). destruct (IH t Ht C j Hj) as (D & E & F & _).
  pose proof (layout_range _ _ L) as R. cbn [ix ic ie] in *. split; [exact D|]. split; [lia|]. split; [lia|right; lia].
Qed.

(** In preorder the own bytes follow one another. *)
Lemma sorted_app {A} (R : A -> A -> Prop) l1 l2 : StronglySorted R l1 -> StronglySorted R l2 -> (forall a b, In a l1 -> In b l2 -> R a b) -> StronglySorted R (l1 ++ l2).
Proof.
  induction l1 as [|a l1 IH]; intros H1 H2 H; [exact H2|]. inversion H1; subst. cbn [app]. constructor; [apply IH; [assumption|assumption|intros; apply H; [right|]; assumption]|].
  apply Forall_app. split; [assumption|]. apply Forall_forall. intros b Hb. apply H; [left; reflexivity|exact Hb].
Qed.
Lemma items_sorted d i : layout d i -> StronglySorted (fun j k => ic j <= ix k) (items i).
Proof.
  induction i as [x c e k IH] using item_ind'. intros L. cbn [items]. constructor.
  - cbn [layout] in L. destruct L as (nm & pc & _ & _ & _ & _ & _ & _ & _ & _ & _ & _ & _ & _ & _ & _ & H). revert H. generalize (x + 12 + 8 * pc). revert c.
    induction k as [|t k IHk]; intros lo p H; cbn [flat_map]; [constructor|]. cbn [kids_layout] in H. destruct H as (A & B & C & D). inversion IH as [|? ? Ht Hk]; subst.
    apply sorted_app; [apply Ht, C|eapply IHk; [exact Hk|exact D]|]. intros a b Ha Hb. apply in_flat_map in Hb. destruct Hb as (u & Hu & Hb). apply kids_range in D. destruct D as (_ & D). destruct (D u Hu) as (D1 & D2 & D3).
    destruct (items_range _ _ C a Ha) as (A1 & A2 & A3 & _). destruct (items_range _ _ D3 b Hb) as (B1 & B2 & B3 & _). pose proof (layout_range _ _ A1). lia.
  - apply Forall_forall. intros j Hj. destruct (items_range _ _ L j (or_intror Hj)) as (A & B & C & [D|D]); [|exact D]. subst j. exfalso.
    apply in_flat_map in Hj. destruct Hj as (t & Ht & Hj). destruct (layout_kids _ _ _ _ _ L t Ht) as (E & F & G). destruct (items_range _ _ G _ Hj) as (_ & I & _). pose proof (layout_range _ _ L). cbn [ix ic] in *. lia.
Qed.

Lemma sorted_apart {A} (R : A -> A -> Prop) l : StronglySorted R l -> forall a b, In a l -> In b l -> a = b \/ R a b \/ R b a.
Proof.
  induction 1 as [|x l S IH F]; intros a b Ha Hb; [destruct Ha|]. rewrite Forall_forall in F. destruct Ha as [<-|Ha], Hb as [<-|Hb]; auto.
Qed.
Lemma items_apart d i a b : layout d i -> In a (items i) -> In b (items i) -> a = b \/ ic a <= ix b \/ ic b <= ix a.
Proof. intros L. apply (sorted_apart _ _ (items_sorted _ _ L)). Qed.

Lemma items_trans i j k : In j (items i) -> In k (items j) -> In k (items i).
Proof.
  revert j k. induction i as [x c e l IH] using item_ind'. intros j k [<-|H] Hk; [exact Hk|]. right. apply in_flat_map in H. destruct H as (t & Ht & Hj). apply in_flat_map. exists t. split; [exact Ht|].
  rewrite Forall_forall in IH. eapply IH; eassumption.
Qed.
Lemma items_self i : In i (items i).
Proof. destruct i. left. reflexivity. Qed.
Lemma items_kid x c e l t : In t l -> forall j, In j (items t) -> In j (items (It x c e l)).
Proof. intros Ht j Hj. right. apply in_flat_map. exists t. auto. Qed.

(** ** Copies *)
(** The [n] bytes of [m] from [p] on stand in [m'] at [q]. *)
Definition copy m p m' q n : Prop := 0 <= p /\ 0 <= n /\ p + n <= zlen m /\ has m' q (slice m p n).

Lemma slice_split m p n o k : 0 <= p -> 0 <= o -> 0 <= k -> o + k <= n -> p + n <= zlen m -> slice m p n = slice m p o ++ slice m (p + o) k ++ slice m (p + o + k) (n - o - k).
Proof.
  intros Hp Ho Hk Hn Hm. pose proof (slice_has m p o Hp Ho ltac:(lia)) as H1. pose proof (slice_has m (p + o) k ltac:(lia) Hk ltac:(lia)) as H2.
  pose proof (slice_has m (p + o + k) (n - o - k) ltac:(lia) ltac:(lia) ltac:(lia)) as H3.
  assert (H : has m p (slice m p o ++ slice m (p + o) k ++ slice m (p + o + k) (n - o - k))).
  { apply has_app. split; [exact H1|]. rewrite zlen_slice by lia. apply has_app. split; [exact H2|]. rewrite zlen_slice by lia. exact H3. }
  apply has_slice in H. rewrite !zlen_app, !zlen_slice in H by lia. replace (o + (k + (n - o - k))) with n in H by lia. exact H.
Qed.
Lemma copy_sub m p m' q n o k : copy m p m' q n -> 0 <= o -> 0 <= k -> o + k <= n -> copy m (p + o) m' (q + o) k.
Proof.
  intros (A & B & C & D) Ho Hk Hn. repeat split; try lia. rewrite (slice_split m p n o k) in D by lia. apply has_app in D. destruct D as (_ & D). rewrite zlen_slice in D by lia. apply has_app in D. apply D.
Qed.
Lemma copy_join m p m' q n k : copy m p m' q n -> copy m (p + n) m' (q + n) k -> copy m p m' q (n + k).
Proof.
  intros (A & B & C & D) (A' & B' & C' & D'). repeat split; try lia. rewrite (slice_split m p (n + k) n k) by lia. replace (n + k - n - k) with 0 by lia. replace (slice m (p + n + k) 0) with (@nil Z) by reflexivity. rewrite app_nil_r.
  apply has_app. split; [exact D|]. rewrite zlen_slice by lia. exact D'.
Qed.
Lemma copy_range m p m' q n : copy m p m' q n -> 0 <= p /\ 0 <= n /\ p + n <= zlen m /\ 0 <= q /\ q + n <= zlen m'.
Proof. intros (A & B & C & D). apply has_range in D. rewrite zlen_slice in D by lia. lia. Qed.
Lemma copy_refl m p n : 0 <= p -> 0 <= n -> p + n <= zlen m -> copy m p m p n.
Proof. intros. repeat split; try assumption. apply slice_has; assumption. Qed.
Lemma copy_slice m p m' q n : copy m p m' q n -> slice m' q n = slice m p n.
Proof. intros (A & B & C & D). apply has_slice in D. rewrite zlen_slice in D by lia. exact D. Qed.
Lemma copy_intro m p m' q n : 0 <= p -> 0 <= n -> p + n <= zlen m -> 0 <= q -> q + n <= zlen m' -> slice m' q n = slice m p n -> copy m p m' q n.
Proof. intros A B C D E F. repeat split; try lia. rewrite <- F. apply slice_has; lia. Qed.
Lemma copy_trans m p m' q m'' r n : copy m p m' q n -> copy m' q m'' r n -> copy m p m'' r n.
Proof. intros H H'. pose proof (copy_slice _ _ _ _ _ H) as E. destruct H as (A & B & C & D). destruct H' as (_ & _ & _ & D'). repeat split; try lia. rewrite <- E. exact D'. Qed.
Lemma copy_sym m p m' q n : copy m p m' q n -> copy m' q m p n.
Proof. intros H. pose proof (copy_slice _ _ _ _ _ H) as E. pose proof (copy_range _ _ _ _ _ H) as R. repeat split; try lia. rewrite E. apply slice_has; lia. Qed.
Lemma copy_has m p m' q n o bs : copy m p m' q n -> has m (p + o) bs -> 0 <= o -> o + zlen bs <= n -> has m' (q + o) bs.
Proof.
  intros H Hb Ho Hn. pose proof (zlen_nonneg bs). destruct (copy_sub _ _ _ _ _ o (zlen bs) H Ho ltac:(lia) Hn) as (_ & _ & _ & D). rewrite (has_slice _ _ _ Hb) in D. exact D.
Qed.
Lemma copy_rd m p m' q n o k : copy m p m' q n -> 0 <= o -> 0 <= k -> o + k <= n -> rd m' (q + o) k = rd m (p + o) k.
Proof.
  intros H Ho Hk Hn. pose proof (copy_sub _ _ _ _ _ o k H Ho Hk Hn) as H'. pose proof (copy_range _ _ _ _ _ H') as R. unfold rd. rewrite (copy_slice _ _ _ _ _ H').
  destruct (Z.leb_spec 0 (q + o)); [|lia]. destruct (Z.leb_spec (q + o + k) (zlen m')); [|lia]. destruct (Z.leb_spec 0 (p + o)); [|lia]. destruct (Z.leb_spec (p + o + k) (zlen m)); [|lia]. reflexivity.
Qed.
Lemma copy_s16 m p m' q n o : copy m p m' q n -> 0 <= o -> o + 2 <= n -> rd_s16 m' (q + o) = rd_s16 m (p + o).
Proof. intros H Ho Hn. unfold rd_s16. rewrite (copy_rd _ _ _ _ _ o 2 H) by lia. reflexivity. Qed.
Lemma copy_s32 m p m' q n o : copy m p m' q n -> 0 <= o -> o + 4 <= n -> rd_s32 m' (q + o) = rd_s32 m (p + o).
Proof. intros H Ho Hn. unfold rd_s32. rewrite (copy_rd _ _ _ _ _ o 4 H) by lia. reflexivity. Qed.

(** ** Equal nodes *)
Definition bytes_of d i : list Z := slice d (ix i) (ie i - ix i).
Lemma same_copy d a b : layout d a -> layout d b -> bytes_of d a = bytes_of d b -> ie a - ix a = ie b - ix b /\ copy d (ix a) d (ix b) (ie a - ix a).
Proof.
  intros La Lb E. pose proof (layout_range _ _ La) as Ra. pose proof (layout_range _ _ Lb) as Rb. unfold bytes_of in E.
  assert (El : ie a - ix a = ie b - ix b) by (apply (f_equal zlen) in E; rewrite !zlen_slice in E by lia; exact E). split; [exact El|].
  apply copy_intro; try lia. rewrite E. rewrite El. reflexivity.
Qed.
Lemma copy_bytes d a b : layout d a -> copy d (ix a) d (ix b) (ie a - ix a) -> ie a - ix a = ie b - ix b -> bytes_of d a = bytes_of d b.
Proof. intros L C E. unfold bytes_of. rewrite <- E. symmetry. apply (copy_slice _ _ _ _ _ C). Qed.

Definition twins d a b := ic a - ix a = ic b - ix b /\ Forall2 (fun s t => ix s - ix a = ix t - ix b /\ bytes_of d s = bytes_of d t) (ikids a) (ikids b).
Lemma same_twins d a b : layout d a -> layout d b -> bytes_of d a = bytes_of d b -> twins d a b.
Proof.
  intros La Lb E. destruct (same_copy _ _ _ La Lb E) as (El & C). pose proof (layout_range _ _ La) as Ra. pose proof (layout_range _ _ Lb) as Rb.
  destruct a as [x c e k]. destruct b as [x' c' e' k']. cbn [layout] in La, Lb. unfold twins. cbn [ix ic ie ikids] in *.
  destruct La as (nm & pc & A1 & A2 & A3 & A4 & A5 & A6 & A7 & A8 & A9 & A10 & A11 & A12 & A13 & A14 & A15). destruct Lb as (nm' & pc' & B1 & B2 & B3 & B4 & B5 & B6 & B7 & B8 & B9 & B10 & B11 & B12 & B13 & B14 & B15).
  pose proof (zlen_nonneg k). pose proof (zlen_nonneg k').
  assert (Ep : pc' = pc). { unfold it_paramcount in *. rewrite (copy_s16 _ _ _ _ _ 2 C) in B11 by lia. congruence. }
  assert (Ek : zlen k' = zlen k). { unfold it_childcount in *. rewrite (copy_s32 _ _ _ _ _ 4 C) in B12 by lia. congruence. }
  subst pc'.
  assert (K : forall l l' o lo lo', 12 <= o -> x <= lo -> o + 4 * zlen l <= c - x -> zlen l = zlen l' -> kids_layout (fun k => layout d k) d x e (x + o) lo l -> kids_layout (fun k => layout d k) d x' e' (x' + o) lo' l' ->
     Forall2 (fun s t => ix s - x = ix t - x' /\ bytes_of d s = bytes_of d t) l l').
  { clear - C El A5. induction l as [|s l IH]; intros [|t l'] o lo lo' Ho Hlo Hl Hz HA HB; rewrite ?zlen_cons in Hz; try (change (zlen (@nil item)) with 0 in Hz); try (pose proof (zlen_nonneg l)); try (pose proof (zlen_nonneg l')); try lia; [constructor|].
    rewrite zlen_cons in Hl. cbn [kids_layout] in HA, HB. destruct HA as (P1 & P2 & P3 & P4). destruct HB as (Q1 & Q2 & Q3 & Q4).
    rewrite (copy_s32 _ _ _ _ _ o C) in Q2 by lia. assert (Ex : ix s - x = ix t - x') by congruence.
    pose proof (kids_range _ _ _ _ _ _ P4) as (R1 & _). pose proof (layout_range _ _ P3) as R2. pose proof (layout_range _ _ Q3) as R3.
    assert (Cs : copy d (ix s) d (ix t) (ie s - ix s)).
    { replace (ix s) with (x + (ix s - x)) at 1 by lia. replace (ix t) with (x' + (ix s - x)) by lia. apply (copy_sub _ _ _ _ _ _ _ C); lia. }
    assert (Et : ie s - ix s = ie t - ix t).
    { pose proof (layout_length _ _ P3) as L1. pose proof (layout_length _ _ Q3) as L2. unfold it_length in *. rewrite (copy_s32 _ _ _ _ _ 8 Cs) in L2 by lia. congruence. }
    constructor; [split; [exact Ex|apply copy_bytes; assumption]|].
    rewrite <- Z.add_assoc in P4, Q4. apply (IH l' (o + 4) (ie s) (ie t)); try assumption; lia. }
  assert (F := K k k' (12 + 8 * pc) c c' ltac:(lia) ltac:(lia) ltac:(lia) ltac:(lia)).
  rewrite !Z.add_assoc in F. specialize (F A15 B15). split; [|exact F].
  destruct F as [|s t l l' (F1 & F2) F]; lia.
Qed.
Lemma Forall2_find {A B} (P : A -> B -> Prop) xs ys : Forall2 P xs ys -> forall x, In x xs -> exists y, In y ys /\ P x y.
Proof. induction 1 as [|x y xs ys H _ IH]; intros z Hz; [destruct Hz|]. destruct Hz as [<-|Hz]; [exists y; split; [left; reflexivity|exact H]|]. destruct (IH z Hz) as (w & Hw & E). exists w. split; [right; exact Hw|exact E]. Qed.
(** Everything in [a] has its double in [b]. *)
Lemma double d a : forall b, layout d a -> layout d b -> bytes_of d a = bytes_of d b -> forall j, In j (items a) -> exists j', In j' (items b) /\ ix j' - ix b = ix j - ix a /\ bytes_of d j' = bytes_of d j.
Proof.
  induction a as [x c e k IH] using item_ind'. intros b La Lb E j [<-|Hj]; [exists b; split; [apply items_self|split; [cbn [ix]; lia|symmetry; exact E]]|].
  destruct (same_twins _ _ _ La Lb E) as (_ & T). apply in_flat_map in Hj. destruct Hj as (s & Hs & Hj). destruct b as [x' c' e' k']. cbn [ix ikids] in *.
  rewrite Forall_forall in IH. destruct (Forall2_find _ _ _ T s Hs) as (t & Ht & E1 & E2).
  destruct (layout_kids _ _ _ _ _ La s Hs) as (_ & _ & Ls). destruct (layout_kids _ _ _ _ _ Lb t Ht) as (_ & _ & Lt).
  destruct (IH s Hs t Ls Lt E2 j Hj) as (j' & Hj' & E3 & E4). exists j'. split; [eapply items_kid; eassumption|]. split; [lia|exact E4].
Qed.
