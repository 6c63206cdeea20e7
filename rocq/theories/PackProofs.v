(** Copying the nodes: each different one once, the others become pointers to it. *)
From Verif Require Import Base BaseFacts ListFacts Types Sort SortSpec SortProofs Sha1Spec Xb XbSpec XbFacts XbWrite WriteProofs OpenProofs Packer PackFacts MarkProofs.
From Coq Require Import Sorted Permutation.

(** ** Two nodes of a tree are nested or apart *)
Lemma nested d i : layout d i -> forall a b, In a (items i) -> In b (items i) -> In a (items b) \/ In b (items a) \/ ie a <= ix b \/ ie b <= ix a.
Proof.
  induction i as [x c e k IH] using item_ind'. intros L a b Ha Hb. destruct Ha as [<-|Ha]; [right; left; exact Hb|]. destruct Hb as [<-|Hb]; [left; right; exact Ha|].
  cbn [layout] in L. destruct L as (nm & pc & _ & _ & _ & _ & _ & _ & _ & _ & _ & _ & _ & _ & _ & _ & H). revert H. generalize (x + 12 + 8 * pc). clear nm pc. revert c.
  induction k as [|t k IHk]; intros lo p H; [destruct Ha|]. cbn [kids_layout] in H. destruct H as (A & B & C & D). inversion IH as [|? ? Ht Hk]; subst. cbn [flat_map] in Ha, Hb. apply in_app_or in Ha. apply in_app_or in Hb.
  pose proof (kids_range _ _ _ _ _ _ D) as (_ & KR).
  assert (far : forall u v, In u (items t) -> In v (flat_map items k) -> ie u <= ix v).
  { intros u v Hu Hv. apply in_flat_map in Hv. destruct Hv as (w & Hw & Hv). destruct (KR w Hw) as (R1 & R2 & R3). destruct (items_range _ _ C u Hu) as (_ & _ & Y & _). destruct (items_range _ _ R3 v Hv) as (_ & Z' & _). lia. }
  destruct Ha as [Ha|Ha], Hb as [Hb|Hb]; [apply (Ht C); assumption|right; right; left; apply far; assumption|right; right; right; apply far; assumption|].
  eapply IHk; [assumption|exact Ha|exact Hb|exact D].
Qed.

(** ** A stored node *)
Definition kids_packed (P : item -> Z -> Prop) d (Pl : list Z -> Z -> Prop) o y :=
  fix go p (l : list item) {struct l} : Prop :=
    match l with
    | [] => True
    | k :: r => (exists z, has o p (le 4 (z - y)) /\ Pl (bytes_of d k) z /\ P k z) /\ go (p + 4) r
    end.
(** The node [i] of [d] is stored at [y] in [o]; its own bytes are in [U], the nodes below it are where [Pl] says. *)
Fixpoint packed d (U : Z -> Prop) Pl o (i : item) (y : Z) {struct i} : Prop :=
  let '(It x c e kids) := i in
  0 <= y /\ y mod 4 = 0 /\ y + (c - x) <= zlen o /\ (forall b, y <= b < y + (c - x) -> U b) /\
  copy d x o y 8 /\ (exists len, has o (y + 8) (le 4 len) /\ c - x <= len /\ y + len <= zlen o /\ (kids = [] -> len = e - x)) /\
  exists pc, it_paramcount d x = Ok pc /\ copy d (x + 12) o (y + 12) (8 * pc) /\
  copy d (x + 12 + 8 * pc + 4 * zlen kids) o (y + 12 + 8 * pc + 4 * zlen kids) (c - (x + 12 + 8 * pc + 4 * zlen kids)) /\
  kids_packed (fun k z => packed d U Pl o k z) d Pl o y (y + 12 + 8 * pc) kids.

Definition held (U : Z -> Prop) o o' : Prop := zlen o' = zlen o /\ forall q cs, has o q cs -> (forall b, q <= b < q + zlen cs -> U b) -> has o' q cs.
Lemma held_trans U a b c : held U a b -> held U b c -> held U a c.
Proof. intros (A & B) (A' & B'). split; [congruence|]. intros q cs H I. apply B'; [apply B; assumption|exact I]. Qed.
Lemma held_fewer (U V : Z -> Prop) a b : (forall x, V x -> U x) -> held U a b -> held V a b.
Proof. intros I (A & B). split; [exact A|]. intros q cs H J. apply B; [exact H|]. intros b0 Hb. apply I, J, Hb. Qed.
Lemma copy_held U o o' d p q n : held U o o' -> (forall b, q <= b < q + n -> U b) -> copy d p o q n -> copy d p o' q n.
Proof. intros (_ & H) I (A & B & C & D). repeat split; try assumption. apply H; [exact D|]. rewrite zlen_slice by lia. exact I. Qed.

Lemma packed_mono d (U U' : Z -> Prop) (Pl Pl' : list Z -> Z -> Prop) o o' i : layout d i -> (forall b, U b -> U' b) -> (forall b z, Pl b z -> Pl' b z) -> held U o o' -> forall y, packed d U Pl o i y -> packed d U' Pl' o' i y.
Proof.
  intros L IU IP H. induction i as [x c e k IH] using item_ind'. intros y P. cbn [packed] in P |- *. destruct P as (A & B & C & D & E & (len & F1 & F2 & F3 & F4) & pc & G1 & G2 & G3 & G4).
  pose proof (layout_range _ _ L) as R. cbn [ix ic ie] in R. pose proof (layout_kids _ _ _ _ _ L) as LK. assert (Pc : 0 <= pc /\ x + 12 + 8 * pc + 4 * zlen k <= c).
  { cbn [layout] in L. destruct L as (nm & pc' & X1 & X2 & X3 & X4 & X5 & X6 & X7 & X8 & X9 & X10 & X11 & _). rewrite G1 in X11. inversion X11; subst pc'. lia. }
  pose proof (zlen_nonneg k) as Zk. pose proof (proj1 H) as Hz. rewrite Hz.
  split; [exact A|]. split; [exact B|]. split; [exact C|]. split; [auto|]. split; [apply (copy_held U o); [exact H|intros b Hb; apply D; lia|exact E]|].
  split; [exists len; split; [apply H; [exact F1|rewrite le_zlen; intros b Hb; apply D; lia]|auto]|].
  exists pc. split; [exact G1|]. split; [apply (copy_held U o); [exact H|intros b Hb; apply D; lia|exact G2]|]. split; [apply (copy_held U o); [exact H|intros b Hb; apply D; lia|exact G3]|].
  assert (S : forall l p, incl l k -> y + 12 <= p -> p + 4 * zlen l <= y + (c - x) -> kids_packed (fun k z => packed d U Pl o k z) d Pl o y p l -> kids_packed (fun k z => packed d U' Pl' o' k z) d Pl' o' y p l).
  { induction l as [|t l IHl]; intros p Il Hp He K; [exact I|]. rewrite zlen_cons in He. pose proof (zlen_nonneg l). cbn [kids_packed] in K |- *. destruct K as ((z & K1 & K2 & K3) & K4). split.
    - exists z. split; [apply H; [exact K1|rewrite le_zlen; intros b Hb; apply D; lia]|]. split; [apply IP, K2|]. rewrite Forall_forall in IH. apply IH; [apply Il; left; reflexivity|apply LK, Il; left; reflexivity|exact K3].
    - apply IHl; [intros u Hu; apply Il; right; exact Hu|lia|lia|exact K4]. }
  apply S; [apply incl_refl|lia|lia|exact G4].
Qed.

Lemma Forall2_zlen {A B} (P : A -> B -> Prop) xs ys : Forall2 P xs ys -> zlen ys = zlen xs.
Proof. induction 1 as [|x y xs ys H _ IH]; [reflexivity|]. rewrite !zlen_cons. lia. Qed.

(** An equal node is stored at the same place. *)
Lemma packed_twin d U Pl o i : forall j y, layout d i -> layout d j -> bytes_of d i = bytes_of d j -> packed d U Pl o i y -> packed d U Pl o j y.
Proof.
  induction i as [x c e k IH] using item_ind'. intros [x' c' e' k'] y Li Lj E P. destruct (same_copy _ _ _ Li Lj E) as (Ee & Cp). destruct (same_twins _ _ _ Li Lj E) as (Ec & T).
  pose proof (layout_range _ _ Li) as R. pose proof (layout_kids _ _ _ _ _ Li) as LKi. pose proof (layout_kids _ _ _ _ _ Lj) as LKj. cbn [ix ic ie ikids] in *. cbn [packed] in P |- *.
  destruct P as (A & B & C & D & F & (len & F1 & F2 & F3 & F4) & pc & G1 & G2 & G3 & G4).
  assert (Pc : 0 <= pc /\ x + 12 + 8 * pc + 4 * zlen k <= c).
  { cbn [layout] in Li. destruct Li as (nm & pc' & X1 & X2 & X3 & X4 & X5 & X6 & X7 & X8 & X9 & X10 & X11 & _). rewrite G1 in X11. inversion X11; subst pc'. lia. }
  assert (Zk : zlen k' = zlen k) by (apply (Forall2_zlen _ _ _ T)). rewrite Zk. pose proof (zlen_nonneg k).
  assert (Sub : forall o' n q, copy d (x + o') o q n -> 0 <= o' -> o' + n <= e - x -> copy d (x' + o') o q n).
  { intros o' n q Cq H1 H2. apply (copy_trans _ _ d (x + o')); [|exact Cq]. apply copy_sym. apply (copy_sub _ _ _ _ _ o' n Cp); [lia| |lia]. apply copy_range in Cq. lia. }
  split; [exact A|]. split; [exact B|]. split; [lia|]. split; [intros b Hb; apply D; lia|]. split; [rewrite <- (Z.add_0_r x'); apply Sub; [rewrite Z.add_0_r; exact F|lia|lia]|].
  split; [exists len; split; [exact F1|split; [lia|split; [lia|intros Hk; rewrite <- Ee; apply F4; destruct T; [reflexivity|discriminate]]]]|].
  exists pc. split; [unfold it_paramcount; rewrite (copy_s16 _ _ _ _ _ 2 Cp) by lia; exact G1|]. split; [apply Sub; [exact G2|lia|lia]|].
  split; [replace (x' + 12 + 8 * pc + 4 * zlen k) with (x' + (12 + 8 * pc + 4 * zlen k)) by lia; replace (c' - (x' + (12 + 8 * pc + 4 * zlen k))) with (c - (x + 12 + 8 * pc + 4 * zlen k)) by lia; apply Sub; [replace (x + (12 + 8 * pc + 4 * zlen k)) with (x + 12 + 8 * pc + 4 * zlen k) by lia; exact G3|lia|lia]|].
  clear - G4 T IH LKi LKj. revert G4. generalize (y + 12 + 8 * pc). revert IH LKi LKj. induction T as [|s t l l' (T1 & T2) T IHT]; intros IH LKi LKj p K; [exact I|]. cbn [kids_packed] in K |- *. inversion IH as [|? ? Is Il]; subst. destruct K as ((z & K1 & K2 & K3) & K4). split.
  - exists z. split; [exact K1|]. rewrite <- T2. split; [exact K2|]. apply Is; [apply LKi; left; reflexivity|apply LKj; left; reflexivity|exact T2|exact K3].
  - apply IHT; [exact Il|intros u Hu; apply LKi; right; exact Hu|intros u Hu; apply LKj; right; exact Hu|exact K4].
Qed.

(** ** The loop over the children, on its own *)
Definition pack_children (pk : list Z -> list Z -> Z -> Z -> run (list Z * list Z * Z * Z)) x y :=
  fix children (n : nat) (p : Z) data data2 wp : run (list Z * list Z * Z) :=
  match n with
  | O => rret (data, data2, wp)
  | S n' =>
      rbind (Some (rd_s32 data (x + p))) (fun c =>
      rbind (pk data data2 wp (x + c)) (fun '(data, data2, wp, y') =>
      rbind (Some (wr data2 (y + p) (le 4 (y' - y)))) (fun data2 =>
      if negb ((y' - y) mod 4 =? 0) then Some Ub else children n' (p + 4) data data2 wp)))
  end.
Lemma PackNode_unfold k data data2 wp x : PackNode (S k) data data2 wp x =
      let y := align_up 4 wp in
      rbind (Some (it_name data x)) (fun name =>
      if name =? XTNR_PROCESSED then Some Ub
      else if name =? XTNR_REFERENCE then
        rbind (Some (rd_s32 data (x + 4))) (fun ref =>
        rbind (Some (it_name data (x + ref))) (fun name2 =>
        if negb (name2 =? XTNR_PROCESSED) then Some Ub
        else rbind (Some (rd_s32 data (x + ref + 4))) (fun ref2 => rret (data, data2, y, ref2))))
      else
        rbind (Some (it_length data x)) (fun len => rbind (Some (rd data x len)) (fun bs => rbind (Some (wr data2 y bs)) (fun data2 =>
        rbind (Some (it_childcount data x)) (fun cc => rbind (Some (it_paramcount data x)) (fun pc =>
        rbind (if 0 <? cc then
          let p := 12 + 8 * pc in
          rbind (Some (rd_s32 data (x + p))) (fun first => pack_children (PackNode k) x y (Z.to_nat cc) p data data2 (y + first))
        else rret (data, data2, y + len)) (fun '(data, data2, wp) =>
        rbind (Some (wr data x (le 2 XTNR_PROCESSED))) (fun data => rbind (Some (wr data (x + 4) (le 4 y))) (fun data =>
        rbind (Some (wr data2 (y + 8) (le 4 (wp - y)))) (fun data2 => rret (data, data2, wp, y))))))))))).
Proof. reflexivity. Qed.

Section PACK.
  Context (d : list Z) (I0 : item) (Zo : Z) (L0 : layout d I0) (Hz : zlen d <= INT_MAX) (Sep : separated d (items I0)) (HZ : ie I0 <= Zo <= INT_MAX).
  Let L := items I0.
  Let Sane : sane d L := items_sane d I0 L0 Hz Sep.

  Definition processed U Pl data o J : Prop := exists y, has data (ix J) (le 2 XTNR_PROCESSED) /\ has data (ix J + 4) (le 4 y) /\ Pl (bytes_of d J) y /\ packed d U Pl o J y.
  (** Nodes that end at or before [pos] are done, except for those in [anc]. *)
  Definition Inv data o U (Pl : list Z -> Z -> Prop) pos anc : Prop :=
    zlen data = zlen d /\ zlen o = Zo /\ bytes data /\ bytes o /\
    (forall J, In J L -> leads d L J J \/ exists F, leads d L F J /\ ix F < ix J /\ refers data J F) /\
    (forall J, In J L -> leads d L J J -> pos < ie J \/ In J anc -> plain d data J) /\
    (forall J, In J L -> leads d L J J -> ie J <= pos -> ~ In J anc -> processed U Pl data o J) /\
    (forall b y z, Pl b y -> Pl b z -> y = z) /\
    (forall b y, Pl b y -> exists J, In J L /\ bytes_of d J = b /\ leads d L J J /\ ie J <= pos /\ ~ In J anc).

  Lemma in_layout J : In J L -> layout d J.
  Proof. intros H. apply (items_range _ _ L0 J H). Qed.

  Lemma in_end J : In J L -> ie J <= Zo.
  Proof. intros H. pose proof (items_range _ _ L0 J H). lia. Qed.

  Lemma Inv_held data o o' U Pl pos anc : held U o o' -> bytes o' -> Inv data o U Pl pos anc -> Inv data o' U Pl pos anc.
  Proof.
    intros H Hb (A & B & C & D & E & F & G & I & J). split; [exact A|]. split; [destruct H; lia|]. split; [exact C|]. split; [exact Hb|]. split; [exact E|]. split; [exact F|]. split; [|split; assumption].
    intros K HK HL Hp Ha. destruct (G K HK HL Hp Ha) as (y & G1 & G2 & G3 & G4). exists y. split; [exact G1|]. split; [exact G2|]. split; [exact G3|]. apply (packed_mono d U U Pl Pl o o' K); auto. apply in_layout, HK.
  Qed.

  Definition packs (fuel : nat) T : Prop := forall data o wp U Pl pos anc, Inv data o U Pl pos anc -> pos <= ix T -> 0 <= wp <= ix T -> (forall b, U b -> 0 <= b < wp) ->
    (forall J, In J L -> ie J <= pos \/ In J anc \/ In J (items T) \/ ie T <= ix J) -> (forall A, In A anc -> In A L /\ ix A < ix T /\ ie T <= ie A) ->
    exists data' o' wp' y (U' : Z -> Prop) Pl', PackNode fuel data o wp (ix T) = rret (data', o', wp', y) /\ Inv data' o' U' Pl' (ie T) anc /\ align_up 4 wp <= wp' <= ie T /\
      (forall b, U b -> U' b) /\ (forall b, U' b -> U b \/ align_up 4 wp <= b < wp') /\ (forall b z, Pl b z -> Pl' b z) /\ held (fun b => b < align_up 4 wp) o o' /\ Pl' (bytes_of d T) y /\ packed d U' Pl' o' T y /\
      (leads d L T T -> y = align_up 4 wp /\ has o' (y + 8) (le 4 (wp' - y))).

  Lemma loop_ok fuel x c e kids anc y : In (It x c e kids) L -> leads d L (It x c e kids) (It x c e kids) -> 0 <= y -> y mod 4 = 0 ->
    (forall A, In A anc -> In A L /\ ix A < x /\ e <= ie A) ->
    forall l p data o wp U Pl pos lo, incl l kids -> Forall (packs fuel) l -> kids_layout (fun k => layout d k) d x e (x + p) lo l -> 12 <= p -> p + 4 * zlen l <= c - x -> c <= lo ->
    Inv data o U Pl pos (It x c e kids :: anc) -> pos <= lo -> y + (c - x) <= wp <= lo -> (forall b, U b -> 0 <= b < y \/ y + (c - x) <= b < wp) ->
    (forall J, In J L -> ie J <= pos \/ In J (It x c e kids :: anc) \/ In J (flat_map items l) \/ e <= ix J) ->
    exists data' o' wp' (U' : Z -> Prop) Pl' pos', pack_children (PackNode fuel) x y (List.length l) p data o wp = rret (data', o', wp') /\ Inv data' o' U' Pl' pos' (It x c e kids :: anc) /\
      pos <= pos' <= e /\ wp <= wp' <= e /\ (forall b, U b -> U' b) /\ (forall b, U' b -> U b \/ wp <= b < wp') /\ (forall b z, Pl b z -> Pl' b z) /\
      held (fun b => U b \/ b < y \/ (y <= b < y + (c - x) /\ ~ (y + p <= b < y + p + 4 * zlen l))) o o' /\ kids_packed (fun k z => packed d U' Pl' o' k z) d Pl' o' y (y + p) l /\
      (forall J, In J L -> ie J <= pos' \/ In J (It x c e kids :: anc) \/ e <= ix J).
  Proof.
    intros HT Lead Hy Hy4 HA. set (T := It x c e kids) in *. pose proof (layout_range _ _ (in_layout _ HT)) as RT. pose proof (in_end _ HT) as ET. cbn [ix ic ie T] in RT, ET.
    induction l as [|k l IH]; intros p data o wp U Pl pos lo Il FP KL Hp Hpc Hclo V Hpos Hwp HU HC.
    - cbn [kids_layout] in KL. exists data, o, wp, U, Pl, pos. cbn [List.length pack_children kids_packed]. split; [reflexivity|]. split; [exact V|]. split; [lia|]. split; [lia|]. split; [auto|]. split; [auto|]. split; [auto|]. split; [split; [reflexivity|auto]|]. split; [exact I|].
      intros J HJ. destruct (HC J HJ) as [X|[X|[[]|X]]]; auto.
    - inversion FP as [|? ? Pk Pl0]; subst. rewrite zlen_cons in Hpc. pose proof (zlen_nonneg l) as Zl. pose proof KL as KL'. cbn [kids_layout] in KL. destruct KL as (K1 & K2 & K3 & K4). pose proof (kids_range _ _ _ _ _ _ K4) as (K5 & K6). pose proof (layout_range _ _ K3) as Rk.
      assert (HkL : In k L). { eapply items_trans; [exact HT|]. right. apply in_flat_map. exists k. split; [apply Il; left; reflexivity|apply items_self]. }
      assert (PT : plain d data T). { destruct V as (_ & _ & _ & _ & _ & V & _). apply V; [exact HT|exact Lead|right; left; reflexivity]. }
      cbn [List.length pack_children]. unfold plain in PT. cbn [ix ic T] in PT. rewrite (copy_s32 _ _ _ _ _ p PT) by lia. rewrite K2, rbind_ok. replace (x + (ix k - x)) with (ix k) by lia.
      destruct (Pk data o wp U Pl pos (T :: anc) V) as (data1 & o1 & wp1 & z & U1 & Pl1 & E1 & V1 & W1 & W2 & W3 & W4 & W5 & W6 & W7 & _).
      { lia. } { lia. } { intros b Hb. destruct (HU b Hb); lia. }
      { intros J HJ. destruct (HC J HJ) as [X|[X|[X|X]]]; [auto|auto| |right; right; right; lia]. cbn [flat_map] in X. apply in_app_or in X. destruct X as [X|X]; [auto|]. right. right. right. apply in_flat_map in X. destruct X as (t & Ht & HJt). destruct (K6 t Ht) as (K7 & K8 & K9). pose proof (items_range _ _ K9 _ HJt) as (_ & K10 & _). lia. }
      { intros A [<-|HAA]; [split; [exact HT|]; cbn [ix ie T]; lia|]. destruct (HA A HAA) as (X1 & X2 & X3). split; [exact X1|lia]. }
      rewrite E1. unfold rret at 1. rewrite rbind_ok. pose proof (align_up_ge 4 wp ltac:(lia)) as Al. pose proof (proj1 (proj2 V1)) as Zo1.
      destruct (wr_off o1 (y + p) (le 4 (z - y))) as (o2 & E2 & H2 & O2); [lia|rewrite le_zlen; lia|apply le_bytes|]. rewrite E2, rbind_ok. rewrite le_zlen in O2.
      assert (Z4 : z mod 4 = 0 /\ 0 <= z) by (destruct k; cbn [packed] in W7; lia). replace ((z - y) mod 4 =? 0) with true by (symmetry; apply Z.eqb_eq; rewrite Zminus_mod, Hy4; destruct Z4 as (-> & _); reflexivity). cbn [negb].
      assert (HU1 : forall b, U1 b -> 0 <= b < y \/ y + (c - x) <= b < wp1). { intros b Hb. destruct (W3 b Hb) as [X|X]; [destruct (HU b X); lia|lia]. }
      assert (H12 : forall W : Z -> Prop, (forall b, W b -> b < y + p \/ y + p + 4 <= b) -> held W o1 o2).
      { intros W HW. destruct O2 as (O21 & _ & O22). split; [exact O21|]. intros q cs Hq Hc. destruct cs as [|c0 cs]; [apply has_nil; apply has_range in Hq; change (zlen (@nil Z)) with 0 in Hq; lia|]. apply O22; [exact Hq|]. rewrite zlen_cons in *. destruct (Z_le_gt_dec (q + (1 + zlen cs)) (y + p)); [auto|]. destruct (Z_le_gt_dec (y + p + Z.of_nat 4) q); [auto|]. exfalso.
        pose proof (zlen_nonneg cs). destruct (Z_le_gt_dec q (y + p)) as [Q|Q]; [destruct (HW (y + p)); [apply Hc; lia|lia|lia]|destruct (HW q); [apply Hc; lia|lia|lia]]. }
      assert (V2 : Inv data1 o2 U1 Pl1 (ie k) (T :: anc)).
      { apply (Inv_held _ o1); [apply H12; intros b Hb; destruct (HU1 b Hb); lia|apply O2, V1|exact V1]. }
      destruct (IH (p + 4) data1 o2 wp1 U1 Pl1 (ie k) (ie k)) as (data' & o' & wp' & U' & Pl' & pos' & E' & V' & X1 & X2 & X3 & X4 & X5 & X6 & X7 & X8).
      { intros t Ht. apply Il. right. exact Ht. } { exact Pl0. } { replace (x + (p + 4)) with (x + p + 4) by lia. exact K4. } { lia. } { lia. } { lia. } { exact V2. } { lia. } { lia. } { exact HU1. }
      { intros J HJ. destruct (HC J HJ) as [X|[X|[X|X]]]; [left; lia|auto| |auto]. cbn [flat_map] in X. apply in_app_or in X. destruct X as [X|X]; [left; apply (items_range _ _ K3 _ X)|auto]. }
      exists data', o', wp', U', Pl', pos'. split; [exact E'|]. split; [exact V'|]. split; [lia|]. split; [lia|]. split; [auto|]. split; [intros b Hb; destruct (X4 b Hb) as [X|X]; [destruct (W3 b X) as [Y|Y]; [auto|right; lia]|right; lia]|]. split; [auto|].
      rewrite zlen_cons.
      assert (HH : held (fun b => U b \/ b < y \/ (y <= b < y + (c - x) /\ ~ (y + p <= b < y + p + 4 * (1 + zlen l)))) o o').
      { apply (held_trans _ o o1); [apply (held_fewer (fun b => b < align_up 4 wp)); [|exact W5]; intros b Hb; destruct Hb as [Hb|[Hb|Hb]]; [destruct (HU b Hb); lia|lia|lia]|].
        apply (held_trans _ o1 o2); [apply H12; intros b [Hb|[Hb|Hb]]; [destruct (HU b Hb); lia|lia|lia]|].
        eapply held_fewer; [|exact X6]. intros b [Hb|[Hb|Hb]]; [left; auto|right; left; exact Hb|right; right; lia]. }
      split; [exact HH|]. split; [|exact X8]. cbn [kids_packed]. split.
      + exists z. split; [apply X6; [exact H2|]; rewrite le_zlen; intros b Hb; right; right; lia|]. split; [apply X5, W6|]. apply (packed_mono d U1 U' Pl1 Pl' o1 o' k K3); [exact X3|exact X5| |exact W7].
        apply (held_trans _ o1 o2); [apply H12; intros b Hb; destruct (HU1 b Hb); lia|]. eapply held_fewer; [|exact X6]. intros b Hb. left. exact Hb.
      + replace (y + p + 4) with (y + (p + 4)) by lia. exact X7.
  Qed.

  Lemma kid_deep x c e kids k : In k kids -> (deep k < deep (It x c e kids))%nat.
  Proof.
    intros H. cbn [deep]. apply Nat.lt_succ_r. induction kids as [|t l IH]; [destruct H|]. cbn [map fold_right]. destruct H as [<-|H]; [apply Nat.le_max_l|]. etransitivity; [apply IH, H|apply Nat.le_max_r].
  Qed.

  Lemma PackNode_ok T : forall fuel, In T L -> (deep T <= fuel)%nat -> packs fuel T.
  Proof.
    induction T as [x c e kids IH] using item_ind'. intros fuel HT Hf data o wp U Pl pos anc V Hpos Hwp HU HC HA. set (T := It x c e kids) in *.
    destruct fuel as [|k]; [cbn [deep T] in Hf; lia|]. pose proof (in_layout _ HT) as LT. pose proof (layout_range _ _ LT) as RT. pose proof (in_end _ HT) as ET. pose proof (layout_kids _ _ _ _ _ LT) as LK. rewrite PackNode_unfold. cbv zeta.
    set (y := align_up 4 wp). assert (Hy : wp <= y /\ y mod 4 = 0 /\ y <= ix T). { unfold y. pose proof (align_up_ge 4 wp ltac:(lia)). split; [lia|]. split; [apply align_up_mod; lia|apply align_up_least; lia]. }
    pose proof V as V0. destruct V as (V1 & V2 & V3 & V4 & V5 & V6 & V7 & V8 & V9). unfold INT_MAX in Hz, HZ.
    destruct (V5 T HT) as [Lead|(F & LF & HF & RF1 & RF2)].
    - (* the first of its kind *)
      clear V5 V7 V8. pose proof (V6 T HT Lead) as PT0. assert (PT : plain d data T) by (apply PT0; left; lia). clear PT0. unfold plain in PT. cbn [ix ic ie T] in *.
      pose proof LT as LT'. cbn [layout T] in LT'. destruct LT' as (nm & pc & A1 & A2 & A3 & A4 & A5 & A6 & A7 & A8 & A9 & A10 & A11 & A12 & A13 & A14 & A15). pose proof (zlen_nonneg kids) as Zk.
      unfold it_name, it_length, it_childcount, it_paramcount in *. rewrite <- (Z.add_0_r x) in A8. rewrite <- (copy_s16 _ _ _ _ _ 0 PT) in A8 by lia. rewrite Z.add_0_r in A8. rewrite A8, rbind_ok.
      destruct (Z.eqb_spec nm XTNR_PROCESSED); [congruence|]. destruct (Z.eqb_spec nm XTNR_REFERENCE); [congruence|].
      rewrite (copy_s32 _ _ _ _ _ 8 PT) by lia. rewrite A13, rbind_ok.
      assert (RB : exists bs, rd data x (e - x) = Ok bs /\ has data x bs /\ zlen bs = e - x /\ bytes bs).
      { exists (slice data x (e - x)). pose proof (slice_has data x (e - x) ltac:(lia) ltac:(lia) ltac:(lia)) as H. pose proof (zlen_slice data x (e - x) ltac:(lia) ltac:(lia) ltac:(lia)) as H'. split; [rewrite <- H' at 1; apply has_rd, H|]. split; [exact H|]. split; [exact H'|]. unfold slice. apply bytes_take, bytes_skip, V3. }
      destruct RB as (bs & B1 & B2 & B3 & B4). rewrite B1, rbind_ok. destruct (wr_off o y bs) as (o1 & E1 & H1 & O1); [lia|lia|exact B4|]. rewrite E1, rbind_ok. rewrite B3 in O1.
      rewrite (copy_s32 _ _ _ _ _ 4 PT) by lia. rewrite A12, rbind_ok. rewrite (copy_s16 _ _ _ _ _ 2 PT) by lia. rewrite A11, rbind_ok.
      assert (Own : copy d x o1 y (c - x)).
      { apply (copy_trans _ _ data x); [exact PT|]. assert (copy data x o1 y (e - x)). { repeat split; try lia. replace (slice data x (e - x)) with bs; [exact H1|]. symmetry. rewrite <- B3. apply has_slice, B2. }
        pose proof (copy_sub _ _ _ _ _ 0 (c - x) H ltac:(lia) ltac:(lia) ltac:(lia)) as H'. rewrite !Z.add_0_r in H'. exact H'. }
      assert (HO1 : held (fun b => b < y) o o1). { split; [apply O1|]. intros q cs Hq Hc. destruct cs as [|c0 cs]; [apply has_nil; apply has_range in Hq; change (zlen (@nil Z)) with 0 in Hq; destruct O1; lia|]. apply O1; [exact Hq|]. left. specialize (Hc (q + zlen cs)). rewrite zlen_cons in *. pose proof (zlen_nonneg cs). lia. }
      assert (IV : Inv data o1 U Pl pos (T :: anc)).
      { apply (Inv_held _ o); [apply (held_fewer (fun b => b < y)); [intros b Hb; specialize (HU b Hb); lia|exact HO1]|apply O1, V4|].
        destruct V0 as (W1 & W2 & W3 & W4 & W5 & W6 & W7 & W8 & W9). split; [exact W1|]. split; [exact W2|]. split; [exact W3|]. split; [exact W4|]. split; [exact W5|]. split; [intros J HJ HL [X|[<-|X]]; apply W6; auto; left; cbn [ie T]; lia|].
        split; [intros J HJ HL X N; apply W7; auto; intros Y; apply N; right; exact Y|]. split; [exact W8|]. intros b z Hb. destruct (W9 b z Hb) as (J & J1 & J2 & J3 & J4 & J5). exists J. repeat split; try assumption; try apply J3. intros [<-|N]; [cbn [ie T] in J4; lia|auto]. }
      assert (HC1 : forall J, In J L -> ie J <= pos \/ In J (T :: anc) \/ In J (flat_map items kids) \/ e <= ix J).
      { intros J HJ. destruct (HC J HJ) as [X|[X|[[X|X]|X]]]; [auto|right; left; right; exact X|right; left; left; exact X|auto|auto]. }
      assert (Loop : exists data' o' wp' (U' : Z -> Prop) Pl' pos',
        (if 0 <? zlen kids then rbind (Some (rd_s32 data (x + (12 + 8 * pc)))) (fun first => pack_children (PackNode k) x y (Z.to_nat (zlen kids)) (12 + 8 * pc) data o1 (y + first)) else rret (data, o1, y + (e - x))) = rret (data', o', wp') /\
        Inv data' o' U' Pl' pos' (T :: anc) /\ pos <= pos' <= e /\ y + (c - x) <= wp' <= e /\ (forall b, U b -> U' b) /\ (forall b, U' b -> U b \/ y + (c - x) <= b < wp') /\ (forall b z, Pl b z -> Pl' b z) /\
        held (fun b => U b \/ b < y \/ (y <= b < y + (c - x) /\ ~ (y + (12 + 8 * pc) <= b < y + (12 + 8 * pc) + 4 * zlen kids))) o1 o' /\ kids_packed (fun k z => packed d U' Pl' o' k z) d Pl' o' y (y + (12 + 8 * pc)) kids /\
        (forall J, In J L -> ie J <= pos' \/ In J (T :: anc) \/ e <= ix J) /\ (kids = [] -> wp' = y + (e - x))).
      { destruct kids as [|k0 kids0].
        - exists data, o1, (y + (e - x)), U, Pl, pos. change (0 <? zlen (@nil item)) with false. cbv iota. split; [reflexivity|]. split; [exact IV|]. split; [lia|]. split; [lia|]. split; [auto|]. split; [auto|]. split; [auto|]. split; [split; [reflexivity|auto]|]. split; [exact I|].
          split; [|auto]. intros J HJ. destruct (HC1 J HJ) as [X|[X|[[]|X]]]; auto.
        - destruct (Z.ltb_spec 0 (zlen (k0 :: kids0))) as [_|N]; [|rewrite zlen_cons in N; pose proof (zlen_nonneg kids0); lia]. rewrite (copy_s32 _ _ _ _ _ (12 + 8 * pc) PT); [|lia|rewrite zlen_cons in *; pose proof (zlen_nonneg kids0); lia].
          pose proof A15 as KL. cbn [kids_layout] in KL. destruct KL as (_ & KL & _). replace (x + (12 + 8 * pc)) with (x + 12 + 8 * pc) by lia. rewrite KL, rbind_ok. rewrite <- A14.
          replace (Z.to_nat (zlen (k0 :: kids0))) with (List.length (k0 :: kids0)) by (unfold zlen; rewrite Nat2Z.id; reflexivity).
          destruct (loop_ok k x c e (k0 :: kids0) anc y HT Lead ltac:(lia) ltac:(lia) HA (k0 :: kids0) (12 + 8 * pc) data o1 (y + (c - x)) U Pl pos c) as (data' & o' & wp' & U' & Pl' & pos' & X0 & X1 & X2 & X3 & X4 & X5 & X6 & X7 & X8 & X9).
          { apply incl_refl. } { apply Forall_forall. intros t Ht. rewrite Forall_forall in IH. apply IH; [exact Ht| |]. { eapply items_trans; [exact HT|]. right. apply in_flat_map. exists t. split; [exact Ht|apply items_self]. } pose proof (kid_deep x c e _ t Ht) as Dt. unfold T in Hf. apply Nat.lt_succ_r. eapply Nat.lt_le_trans; [exact Dt|exact Hf]. }
          { replace (x + (12 + 8 * pc)) with (x + 12 + 8 * pc) by lia. exact A15. } { lia. } { lia. } { lia. } { exact IV. } { lia. } { lia. } { intros b Hb. specialize (HU b Hb). lia. } { exact HC1. }
          exists data', o', wp', U', Pl', pos'. split; [exact X0|]. split; [exact X1|]. split; [lia|]. split; [lia|]. split; [exact X4|]. split; [exact X5|]. split; [exact X6|]. split; [exact X7|]. split; [exact X8|]. split; [exact X9|discriminate]. }
      destruct Loop as (data1 & o2 & wp1 & U1 & Pl1 & pos1 & EL & IV1 & X2 & X3 & X4 & X5 & X6 & X7 & X8 & X9 & X10). rewrite EL. unfold rret at 1. rewrite rbind_ok.
      pose proof IV1 as IV1'. destruct IV1' as (W1 & W2 & W3 & W4 & W5 & W6 & W7 & W8 & W9).
      destruct (wr_off data1 x (le 2 XTNR_PROCESSED)) as (data2 & E2 & H2 & O2); [lia|rewrite le_zlen; lia|apply le_bytes|]. rewrite E2, rbind_ok.
      destruct (wr_off data2 (x + 4) (le 4 y)) as (data3 & E3 & H3 & O3); [lia|rewrite le_zlen; destruct O2; lia|apply le_bytes|]. rewrite E3, rbind_ok.
      destruct (wr_off o2 (y + 8) (le 4 (wp1 - y))) as (o3 & E4 & H4 & O4); [lia|rewrite le_zlen; lia|apply le_bytes|]. rewrite E4, rbind_ok. rewrite le_zlen in O2, O3, O4.
      assert (OD : off data1 data3 (ix T) (ic T)) by (cbn [ix ic T]; eapply off_trans; [apply (off_wider _ _ _ _ _ _ O2); lia|apply (off_wider _ _ _ _ _ _ O3); lia]).
      assert (HU1 : forall b, U1 b -> 0 <= b < y \/ y + (c - x) <= b < wp1). { intros b Hb. destruct (X5 b Hb) as [X|X]; [specialize (HU b X)|]; lia. }
      assert (H23 : forall W : Z -> Prop, (forall b, W b -> b < y + 8 \/ y + 12 <= b) -> held W o2 o3).
      { intros W HW. destruct O4 as (O21 & _ & O22). split; [exact O21|]. intros q cs Hq Hc. destruct cs as [|c0 cs]; [apply has_nil; apply has_range in Hq; change (zlen (@nil Z)) with 0 in Hq; lia|]. apply O22; [exact Hq|]. rewrite zlen_cons in *. destruct (Z_le_gt_dec (q + (1 + zlen cs)) (y + 8)); [auto|]. destruct (Z_le_gt_dec (y + 8 + Z.of_nat 4) q); [auto|]. exfalso.
        pose proof (zlen_nonneg cs). destruct (Z_le_gt_dec q (y + 8)) as [Q|Q]; [destruct (HW (y + 8)); [apply Hc; lia|lia|lia]|destruct (HW q); [apply Hc; lia|lia|lia]]. }
      assert (HU23 : held U1 o2 o3) by (apply H23; intros b Hb; destruct (HU1 b Hb); lia).
      assert (NPl : forall z, Pl1 (bytes_of d T) z -> False).
      { intros z Hb. destruct (W9 _ _ Hb) as (J & J1 & J2 & J3 & J4 & J5). assert (J = T); [|subst J; apply J5; left; reflexivity]. eapply (ix_inj d L); [exact Sane|exact J1|exact HT|]. destruct Lead as (_ & _ & LeadT). destruct J3 as (_ & _ & J3). specialize (LeadT J J1 J2). specialize (J3 T HT (eq_sym J2)). lia. }
      set (U2 := fun b => U1 b \/ y <= b < y + (c - x)). set (Pl2 := fun b z => Pl1 b z \/ (b = bytes_of d T /\ z = y)).
      assert (PackT : packed d U2 Pl2 o3 T y).
      { cbn [packed T]. split; [lia|]. split; [lia|]. pose proof (proj1 O4) as ZO4. split; [lia|]. split; [intros b Hb; right; exact Hb|].
        assert (CO : forall oo n, 0 <= oo -> 0 <= n -> oo + n <= c - x -> (oo + n <= 8 \/ 12 <= oo) -> (oo + n <= 12 + 8 * pc \/ 12 + 8 * pc + 4 * zlen kids <= oo) -> copy d (x + oo) o3 (y + oo) n).
        { intros oo nn G1 G2 G3 G4 G5. pose proof (copy_sub _ _ _ _ _ oo nn Own G1 G2 G3) as C1. assert (C2 : copy d (x + oo) o2 (y + oo) nn) by (eapply copy_held; [exact X7| |exact C1]; intros b Hb; right; right; lia). clear C1. rename C2 into C1. apply (copy_held (fun b => y + oo <= b < y + oo + nn) o2 o3) in C1; [exact C1|apply H23; intros b Hb; lia|auto]. }
        split; [pose proof (CO 0 8) as C0; rewrite !Z.add_0_r in C0; apply C0; lia|]. split; [exists (wp1 - y); split; [exact H4|]; split; [lia|]; split; [lia|]; intros Hk; rewrite (X10 Hk); lia|].
        exists pc. split; [exact A11|]. split; [apply CO; lia|]. split; [replace (x + 12 + 8 * pc + 4 * zlen kids) with (x + (12 + 8 * pc + 4 * zlen kids)) by lia; replace (y + 12 + 8 * pc + 4 * zlen kids) with (y + (12 + 8 * pc + 4 * zlen kids)) by lia; apply CO; lia|].
        replace (y + 12 + 8 * pc) with (y + (12 + 8 * pc)) by lia.
        assert (G : forall l p, incl l kids -> y + 12 <= p -> kids_packed (fun k z => packed d U1 Pl1 o2 k z) d Pl1 o2 y p l -> kids_packed (fun k z => packed d U2 Pl2 o3 k z) d Pl2 o3 y p l).
        { induction l as [|t l IHl]; intros p Il Hp K; [exact I|]. cbn [kids_packed] in K |- *. destruct K as ((z & K1 & K2 & K3) & K4). split; [|apply IHl; [intros u Hu; apply Il; right; exact Hu|lia|exact K4]].
          exists z. split; [apply O4; [exact K1|lia]|]. split; [left; exact K2|]. apply (packed_mono d U1 U2 Pl1 Pl2 o2 o3 t); [apply LK, Il; left; reflexivity|intros b Hb; left; exact Hb|intros b v Hb; left; exact Hb|exact HU23|exact K3]. }
        apply G; [apply incl_refl|lia|exact X8]. }
      exists data3, o3, wp1, y, U2, Pl2. split; [reflexivity|]. split.
      { split; [destruct OD; congruence|]. split; [pose proof (proj1 O4); congruence|]. split; [apply OD, W3|]. split; [apply O4, W4|].
        split. { intros J HJ. destruct (W5 J HJ) as [X|(F & F1 & F2 & F3)]; [auto|]. right. exists F. split; [exact F1|]. split; [exact F2|]. eapply refers_off; [exact Sane|exact HJ|exact HT| |exact OD|exact F3]. intros ->. destruct Lead as (_ & _ & LeadT). destruct F1 as (G1 & G2 & _). specialize (LeadT F G1 G2). lia. }
        split. { intros J HJ HL HJc. eapply plain_off; [exact Sane|exact HJ|exact HT| |exact OD|]; [intros ->; destruct HJc as [HJc|HJc]; [cbn [ie T] in HJc; lia|destruct (HA _ HJc) as (_ & G & _); cbn [ix T] in G; lia]|]. apply W6; [exact HJ|exact HL|]. destruct HJc as [HJc|HJc]; [left; lia|right; right; exact HJc]. }
        split. { intros J HJ HL HJc HN. destruct (X9 J HJ) as [X|[[X|X]|X]]; [|subst J|contradiction|pose proof (layout_range _ _ (in_layout _ HJ)); lia].
          - destruct (Z.eq_dec (ix J) (ix T)) as [EJ|NJ]; [apply (ix_inj d L J T Sane HJ HT) in EJ; subst J|].
            + exists y. split; [apply O3; [exact H2|rewrite !le_zlen; cbn [ix T]; lia]|]. split; [exact H3|]. split; [right; auto|exact PackT].
            + destruct (W7 J HJ HL X) as (z & Z1 & Z2 & Z3 & Z4); [intros [G|G]; [subst J; auto|auto]|]. destruct Sane as (SA & _). pose proof (layout_range _ _ (in_layout _ HJ)) as RJ. assert (Ap : ic J <= ix T \/ ic T <= ix J) by (destruct (SA J T HJ HT) as [->|Ap]; [congruence|exact Ap]).
              exists z. split; [apply OD; [exact Z1|rewrite le_zlen; lia]|]. split; [apply OD; [exact Z2|rewrite le_zlen; lia]|]. split; [left; exact Z3|]. apply (packed_mono d U1 U2 Pl1 Pl2 o2 o3 J); [apply in_layout, HJ|intros b Hb; left; exact Hb|intros b v Hb; left; exact Hb|exact HU23|exact Z4].
          - exists y. split; [apply O3; [exact H2|rewrite !le_zlen; cbn [ix T]; lia]|]. split; [exact H3|]. split; [right; auto|exact PackT]. }
        split. { intros b u v [Hu|(Hu1 & Hu2)] [Hv|(Hv1 & Hv2)]; [eapply W8; eassumption|subst b; destruct (NPl _ Hu)|subst b; destruct (NPl _ Hv)|congruence]. }
        { intros b z [Hb|(Hb1 & Hb2)]; [destruct (W9 b z Hb) as (J & J1 & J2 & J3 & J4 & J5); exists J; split; [exact J1|]; split; [exact J2|]; split; [exact J3|]; split; [lia|intros N; apply J5; right; exact N]|].
          exists T. split; [exact HT|]. split; [auto|]. split; [exact Lead|]. split; [cbn [ie T]; lia|]. intros N. destruct (HA _ N) as (_ & G & _). cbn [ix T] in G. lia. } }
      split; [cbn [ie T]; lia|]. split; [intros b Hb; left; auto|]. split; [intros b [Hb|Hb]; [destruct (X5 b Hb) as [X|X]; [auto|right; lia]|right; lia]|]. split; [intros b z Hb; left; auto|].
      split; [apply (held_trans _ o o1); [exact HO1|]; apply (held_trans _ o1 o2); [eapply held_fewer; [|exact X7]; intros b Hb; right; left; exact Hb|apply H23; intros b Hb; lia]|].
      split; [right; auto|]. split; [exact PackT|]. intros _. split; [reflexivity|exact H4].
    - (* a double of an earlier one *)
      assert (FL : In F L) by apply LF. pose proof (in_layout _ FL) as LF'. pose proof (layout_range _ _ LF') as RF. assert (EB : bytes_of d F = bytes_of d T) by apply LF. destruct (same_copy _ _ _ LF' LT EB) as (Len & _).
      assert (FF : leads d L F F). { destruct LF as (G1 & G2 & G3). split; [exact G1|]. split; [reflexivity|]. intros K HK EK. apply G3; [exact HK|congruence]. }
      assert (PF : processed U Pl data o F).
      { apply V7; [exact FL|exact FF| |].
        - destruct (HC F FL) as [X|[X|[X|X]]]; [exact X|destruct (HA F X) as (_ & G2 & G3); lia|destruct (items_range _ _ LT F X) as (_ & G & _); lia|lia].
        - intros X. destruct (HA F X) as (_ & G2 & G3). lia. }
      destruct PF as (z & Z1 & Z2 & Z3 & Z4).
      assert (Rz : int32 z). { destruct F as [fx fc fe fk]. cbn [packed ix ic ie] in Z4, RF. unfold int32, INT_MIN, INT_MAX. lia. }
      assert (Rr : int32 (ix F - ix T)) by (unfold int32, INT_MIN, INT_MAX; lia).
      cbn [ix T] in *. unfold it_name. rewrite (has_s16 _ _ XTNR_REFERENCE ltac:(unfold XTNR_REFERENCE; lia) RF1), rbind_ok. change (XTNR_REFERENCE =? XTNR_PROCESSED) with false. change (XTNR_REFERENCE =? XTNR_REFERENCE) with true. cbv iota.
      rewrite (has_s32 _ _ _ Rr RF2), rbind_ok. replace (x + (ix F - x)) with (ix F) by lia. rewrite (has_s16 _ _ XTNR_PROCESSED ltac:(unfold XTNR_PROCESSED; lia) Z1), rbind_ok. change (XTNR_PROCESSED =? XTNR_PROCESSED) with true. cbn [negb]. rewrite (has_s32 _ _ _ Rz Z2), rbind_ok.
      exists data, o, y, z, U, Pl. split; [reflexivity|]. split.
      { assert (pos <= e) by (cbn [ix ie ic T] in *; lia). cbn [ie T]. split; [exact V1|]. split; [exact V2|]. split; [exact V3|]. split; [exact V4|]. split; [exact V5|]. split; [intros J HJ HL [X|X]; apply V6; auto; left; lia|].
        split; [|split; [exact V8|intros b v Hb; destruct (V9 b v Hb) as (J & J1 & J2 & J3 & J4 & J5); exists J; split; [exact J1|split; [exact J2|split; [exact J3|split; [lia|exact J5]]]]]].
        intros J HJ HL X N. apply V7; auto. destruct (HC J HJ) as [Y|[Y|[Y|Y]]]; [exact Y|contradiction| |pose proof (layout_range _ _ (in_layout _ HJ)); cbn [ie T] in Y; lia].
        exfalso. destruct (double d T F LT LF' (eq_sym EB) J Y) as (J' & D1 & D2 & D3). assert (In J' L) by (eapply items_trans; [exact FL|exact D1]). destruct HL as (_ & _ & HL). specialize (HL J' H0 D3). cbn [ix T] in D2. lia. }
      split; [cbn [ix ie ic T] in *; lia|]. split; [auto|]. split; [auto|]. split; [auto|]. split; [split; [reflexivity|auto]|]. split; [rewrite <- EB; exact Z3|]. split; [apply (packed_twin d U Pl o F T z LF' LT EB Z4)|].
      intros (_ & _ & HL). specialize (HL F FL EB). cbn [ix T] in HL. lia.
  Qed.
End PACK.

(** ** The packer *)
(** What Pack leaves in the first [size] bytes: the tree, each different node of it once. *)
Definition packed_tree d I0 o size : Prop :=
  exists (U : Z -> Prop) Pl, packed d U Pl o I0 0 /\ Pl (bytes_of d I0) 0 /\ (forall b y z, Pl b y -> Pl b z -> y = z) /\ has o 8 (le 4 size) /\ (forall b, U b -> 0 <= b < size).

Lemma Pack_ok W d I0 scratch depth data2 : zlen W = 64 -> bytes d -> bytes data2 -> zlen d <= INT_MAX -> layout d I0 -> ix I0 = 0 -> separated d (items I0) -> zlen scratch = zlen (items I0) ->
  (deep I0 <= depth)%nat -> ie I0 <= zlen data2 <= INT_MAX ->
  exists data' o size, Pack W (zlen (items I0)) scratch depth d data2 = rret (data', size) /\ 0 < size <= ie I0 /\ zlen data' = zlen d /\ bytes data' /\ zlen o = zlen data2 /\ bytes o /\ ztake size data' = ztake size o /\ packed_tree d I0 o size.
Proof.
  intros HW Hb Hb2 Hz L E0 Sep Hs Hdp Hz2. destruct (MarkReferences_ok W d I0 scratch HW Hb Hz L E0 Sep Hs) as (d1 & M1 & M2 & M3 & M4). pose proof (layout_range _ _ L) as R. rewrite E0 in R.
  unfold Pack. rewrite M1. unfold rret at 1. rewrite rbind_ok.
  assert (Lpos : forall J, In J (items I0) -> 0 < ie J). { intros J HJ. pose proof (layout_range _ _ (proj1 (items_range _ _ L J HJ))). lia. }
  destruct (PackNode_ok d I0 (zlen data2) L Hz Sep Hz2 I0 depth (items_self I0) Hdp d1 data2 0 (fun _ => False) (fun _ _ => False) 0 []) as (d2 & o & wp & y & U & Pl & P1 & P2 & P3 & P4 & P5 & P6 & P7 & P8 & P9 & P10).
  { split; [exact M2|]. split; [reflexivity|]. split; [exact M3|]. split; [exact Hb2|].
    split; [intros J HJ; destruct (M4 J HJ) as [(A & B)|A]; [left; exact A|right; exact A]|].
    split; [intros J HJ HL _; destruct (M4 J HJ) as [(A & B)|(F & (A1 & A2 & _) & A3 & _)]; [exact B|destruct HL as (_ & _ & HL); specialize (HL F A1 A2); lia]|].
    split; [intros J HJ _ X; specialize (Lpos J HJ); lia|]. split; [contradiction|contradiction]. }
  { lia. } { lia. } { contradiction. } { intros J HJ. right. right. left. exact HJ. } { contradiction. }
  assert (Lead : leads d (items I0) I0 I0). { split; [apply items_self|]. split; [reflexivity|]. intros K HK _. pose proof (layout_range _ _ (proj1 (items_range _ _ L K HK))). lia. }
  destruct (P10 Lead) as (Ey & H8). change (align_up 4 0) with 0 in *. subst y. rewrite E0 in P1. rewrite P1. unfold rret at 1. rewrite rbind_ok. rewrite Z.sub_0_r in H8. change (0 + 8) with 8 in H8.
  destruct P2 as (Q1 & Q2 & Q3 & Q4 & _ & _ & _ & Q5 & _). destruct I0 as [x c e k]. cbn [ix ic ie] in *.
  assert (Hwp : 0 < wp). { cbn [packed] in P9. destruct P9 as (_ & _ & _ & Hu & _). subst x. specialize (Hu 0 ltac:(lia)). specialize (P5 0 Hu). lia. }
  unfold it_length. change (0 + 8) with 8. unfold INT_MAX in *. rewrite (has_s32 _ _ wp) by (try exact H8; unfold int32, INT_MIN, INT_MAX; lia). rewrite rbind_ok.
  pose proof (slice_has o 0 wp ltac:(lia) ltac:(lia) ltac:(lia)) as SO. pose proof (zlen_slice o 0 wp ltac:(lia) ltac:(lia) ltac:(lia)) as ZO. pose proof (has_rd _ _ _ SO) as RO. rewrite ZO in RO. rewrite RO, rbind_ok.
  destruct (wr_put d2 0 (slice o 0 wp)) as (d3 & W1 & W2 & W3 & W4 & W5); [lia|lia|unfold slice; apply bytes_take, bytes_skip, Q4|]. rewrite W1, rbind_ok.
  exists d3, o, wp. split; [reflexivity|]. split; [lia|]. split; [lia|]. split; [apply W4, Q3|]. split; [exact Q2|]. split; [exact Q4|]. split.
  { apply has_slice in W2. rewrite ZO in W2. exact W2. }
  exists U, Pl. split; [exact P9|]. split; [exact P8|]. split; [exact Q5|]. split; [exact H8|]. intros b Hbb. destruct (P5 b Hbb) as [[]|X]. exact X.
Qed.
