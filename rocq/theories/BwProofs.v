(** Every history keeps the rings. *)
From Verif Require Import Base BaseFacts Types ListFacts Sort Xb XbSpec XbFacts XbWrite WriteProofs Bw BwFacts BwRing BwSpec BwHist BwAlloc.

Section Keep.
Variable kind : Z -> bool.
Variable size : Z -> Z.

Definition unowned (F : forest) p k : Prop := forall L, ~ In (Some (p, k), L) F.
Definition owners (F : forest) : list (Z * bool) := flat_map (fun c => match fst c with Some o => [o] | None => [] end) F.
(** The links say what the forest says. *)
Record shape (h : heap) (F : forest) : Prop := mkshape {
  sh_nodup : NoDup (members F);
  sh_owners : NoDup (owners F);
  sh_ring : forall o L, In (o, L) F -> ring h L;
  sh_head : forall p k L, In (Some (p, k), L) F -> In p (members F) /\ h p (field_of k) = hd 0 L;
  sh_none : forall p k, In p (members F) -> unowned F p k -> h p (field_of k) = 0 }.
(** The elements are in the pool, do not overlap, and have the kind they were made with. *)
Record placed (E : list Z) m a : Prop := mkplaced {
  pl_pool : pool m a;
  pl_in : forall e, In e E -> HEADER <= e /\ 24 <= size e /\ e + size e <= a;
  pl_apart : forall e e', In e E -> In e' E -> e <> e' -> e + size e <= e' \/ e' + size e' <= e;
  pl_kind : forall e, In e E -> exists f, el_flags m e = Ok f /\ is_element f = kind e }.
Definition inv m F : Prop := exists h a, placed (members F) m a /\ rep (members F) m h /\ shape h F.

Lemma members_perm F F' : Permutation F F' -> Permutation (members F) (members F').
Proof. apply Permutation_flat_map. Qed.
Lemma owners_perm F F' : Permutation F F' -> Permutation (owners F) (owners F').
Proof. apply Permutation_flat_map. Qed.
Lemma shape_perm h F F' : Permutation F F' -> shape h F -> shape h F'.
Proof.
  intros P S. assert (P' := Permutation_sym P). constructor.
  - eapply Permutation_NoDup; [apply members_perm; eauto|apply S].
  - eapply Permutation_NoDup; [apply owners_perm; eauto|apply S].
  - intros o L I. apply (sh_ring _ _ S o). eapply Permutation_in; eauto.
  - intros p k L I. destruct (sh_head _ _ S p k L) as [A B]; [eapply Permutation_in; eauto|]. split; [|exact B]. eapply Permutation_in; [apply members_perm; eauto|exact A].
  - intros p k I U. apply S; [eapply Permutation_in; [apply members_perm; eauto|exact I]|]. intros L J. apply (U L). eapply Permutation_in; eauto.
Qed.
Lemma members_in F o L e : In (o, L) F -> In e L -> In e (members F).
Proof. intros I J. apply in_flat_map. exists (o, L). auto. Qed.
Lemma placed_sub E E' m a : (forall e, In e E' -> In e E) -> placed E m a -> placed E' m a.
Proof. intros S P. destruct P. constructor; auto. Qed.
Lemma rep_sub E E' m h : (forall e, In e E' -> In e E) -> rep E m h -> rep E' m h.
Proof. intros S P. destruct P. constructor; auto. Qed.
Lemma members_cons o L F : members ((o, L) :: F) = L ++ members F.
Proof. reflexivity. Qed.
Lemma inv_perm m F F' : Permutation F F' -> inv m F -> inv m F'.
Proof.
  intros P (h & a & PL & R & S). assert (Q : forall e, In e (members F') -> In e (members F)) by (intros e I; eapply Permutation_in; [apply members_perm, Permutation_sym; eauto|exact I]).
  exists h, a. split; [eapply placed_sub; eauto|]. split; [eapply rep_sub; eauto|eapply shape_perm; eauto].
Qed.

(** *** Stores that touch no link *)
Lemma placed_framed E m m' a h : placed E m a -> rep E m h -> framed E m m' -> placed E m' a.
Proof.
  intros P R F. constructor; try apply P.
  - pose proof (pl_pool _ _ _ P) as PO. unfold pool, p_allocator, p_limit, p_file_size, p_mmap_size in *.
    assert (G : forall q, q + 4 <= HEADER -> rd_s32 m' q = rd_s32 m q).
    { intros q Q. destruct F as [_ F]. unfold rd_s32. rewrite F; [reflexivity|lia|]. intros e I. destruct (pl_in _ _ _ P e I). lia. }
    unfold HEADER in *. rewrite !G by lia. destruct F as [-> _]. exact PO.
  - intros e I. rewrite (framed_flags _ _ _ _ _ F R I). apply P; auto.
Qed.
Lemma extends_s32 m a m' q : extends m a m' -> 60 <= q -> q + 4 <= a -> rd_s32 m' q = rd_s32 m q.
Proof. intros [_ H] A B. unfold rd_s32. rewrite H by lia. reflexivity. Qed.
Lemma placed_extends E m m' a a' : placed E m a -> pool m' a' -> a <= a' -> extends m a m' -> placed E m' a'.
Proof.
  intros P PO A X. constructor; auto; try apply P.
  - intros e I. destruct (pl_in _ _ _ P e I). lia.
  - intros e I. destruct (pl_in _ _ _ P e I) as (Q1 & Q2 & Q3). unfold HEADER in *. destruct (pl_kind _ _ _ P e I) as (f & Ef & K). exists f. split; [|exact K].
    unfold el_flags, rd_u8 in *. destruct X as [_ X]. rewrite X by lia. exact Ef.
Qed.
Lemma rep_extends E m m' a h : placed E m a -> extends m a m' -> rep E m h -> rep E m' h.
Proof.
  intros P X R. constructor.
  - intros e I. destruct (rep_in _ _ _ R e I). destruct X. lia.
  - apply R.
  - intros e I. destruct (pl_in _ _ _ P e I) as (Q1 & Q2 & Q3). unfold HEADER in *. unfold el_offset. rewrite (extends_s32 _ _ _ _ X) by lia. apply R; auto.
  - intros e f I F. destruct (pl_in _ _ _ P e I) as (Q1 & Q2 & Q3). unfold HEADER, link in *. rewrite (extends_s32 _ _ _ _ X) by lia. apply R; auto.
Qed.
Lemma inv_extends m m' F : inv m F -> (forall a, pool m a -> exists a', pool m' a' /\ a <= a' /\ extends m a m') -> inv m' F.
Proof.
  intros (h & a & P & R & S) X. destruct (X a (pl_pool _ _ _ P)) as (a' & PO & A & E). exists h, a'. split; [eapply placed_extends; eauto|]. split; [eapply rep_extends; eauto|exact S].
Qed.
Lemma inv_write m F e q bs m' : inv m F -> In e (members F) -> e + 24 <= q -> q + zlen bs <= e + size e -> wr m q bs = Ok m' -> inv m' F.
Proof.
  intros (h & a & P & R & S) I Q1 Q2 W. destruct (wr_kept _ _ _ _ W) as (_ & _ & K & _). destruct (pl_in _ _ _ P e I) as (B1 & B2 & B3). unfold HEADER in *.
  assert (D : forall e', In e' (members F) -> q + zlen bs <= e' \/ e' + 24 <= q).
  { intros e' I'. destruct (Z.eq_dec e e') as [->|N]; [lia|]. destruct (pl_in _ _ _ P e' I') as (C1 & C2 & C3). destruct (pl_apart _ _ _ P e e' I I' N); lia. }
  exists h, a. split; [|split; [|exact S]].
  - constructor; try apply P; [eapply pool_wr; [apply P|exact W|lia]|]. intros e' I'. destruct (pl_kind _ _ _ P e' I') as (f & Ef & Kf). exists f. split; [|exact Kf].
    unfold el_flags in *. rewrite (kept_u8 _ _ _ _ _ K); [exact Ef|]. destruct (D e' I'); lia.
  - eapply rep_keep; [exact R|exact K|]. intros e' I'. destruct (D e' I'); lia.
Qed.

(** *** A new element *)
Lemma inv_made m F x m' a a' id ty flags : inv m F -> 0 <= flags < 256 -> pool m a -> a <= x -> x mod 4 = 0 -> 24 <= size x -> x + size x <= a' -> pool m' a' -> extends m a m' ->
  rd m' x 24 = Ok (le 4 x ++ le 2 id ++ [flags; ty] ++ le 4 x ++ le 4 x ++ le 4 0 ++ le 4 0) -> kind x = is_element flags -> inv m' ((None, [x]) :: F).
Proof.
  intros (h & a2 & P & R & S) FL P0 AX X4 S24 XA PO X HD KX. assert (a2 = a) as -> by (destruct (pl_pool _ _ _ P) as (A1 & _), P0 as (A2 & _); congruence).
  assert (IX : int32 x). { destruct (pool_len _ _ PO) as [_ IA]. pose proof (pl_pool _ _ _ P) as (_ & _ & _ & _ & B & _). unfold HEADER, int32 in *. lia. }
  pose proof (pl_pool _ _ _ P) as (_ & _ & _ & _ & B0 & _). unfold HEADER in B0.
  destruct (header_fields _ _ _ _ _ HD IX FL) as (HO & HF & _ & _ & HN & HP & HC & HA).
  assert (P' : placed (members F) m' a') by (eapply placed_extends; eauto; lia). assert (R' : rep (members F) m' h) by (eapply (rep_extends _ m m'); eauto).
  assert (NX : ~ In x (members F)) by (intro I; destruct (pl_in _ _ _ P x I) as (? & ? & ?); lia).
  set (h' := upd (upd (upd (upd h x 8 x) x 12 x) x 16 0) x 20 0).
  exists h', a'. rewrite members_cons. cbn [app]. split; [|split].
  - constructor; auto.
    + intros e [<-|I]; [unfold HEADER; lia|apply P'; auto].
    + intros e e' [<-|I] [<-|I'] N; try congruence; [| |apply P'; auto].
      * destruct (pl_in _ _ _ P e' I') as (? & ? & ?). lia.
      * destruct (pl_in _ _ _ P e I) as (? & ? & ?). lia.
    + intros e [<-|I]; [exists flags; auto|apply P'; auto].
  - constructor.
    + intros e [<-|I]; [|apply R'; auto]. destruct PO as (_ & _ & _ & _ & B1 & _). lia.
    + intros e e' [<-|I] [<-|I'] N; try congruence; [| |apply (rep_apart _ _ _ R'); auto].
      * destruct (pl_in _ _ _ P e' I') as (? & ? & ?). lia.
      * destruct (pl_in _ _ _ P e I) as (? & ? & ?). lia.
    + intros e [<-|I]; [exact HO|apply R'; auto].
    + intros e f [<-|I] L.
      * unfold h'. destruct L as [->|[->|[->| ->]]]; uo; auto.
      * assert (e <> x) by (intro; subst; auto). unfold h'. uo. apply R'; auto.
  - assert (HX : forall e f, In e (members F) -> h' e f = h e f). { intros e f I. assert (e <> x) by (intro; subst; auto). unfold h'. uo. auto. }
    constructor.
    + rewrite members_cons. constructor; [exact NX|apply S].
    + apply S.
    + intros o L [I|I]; [injection I as <- <-|]. { split; [discriminate|]. cbn. unfold h'. uo. auto. }
      apply (ring_ext h); [|eapply sh_ring; eauto]. intros e J. rewrite !HX by (eapply members_in; eauto). auto.
    + intros p k L [I|I]; [discriminate|]. destruct (sh_head _ _ S p k L I) as [A1 A2]. rewrite members_cons. split; [right; exact A1|]. rewrite HX; auto.
    + intros p k I U. rewrite members_cons in I. destruct I as [<-|I]; [unfold h'; destruct k; cbn [field_of]; uo; auto|]. rewrite HX by exact I. apply S; [exact I|]. intros L J. apply (U L). right. exact J.
Qed.
Lemma inv_new m F x m' disk id ty n flags : inv m F -> 0 <= flags < 256 -> fresh disk m id ty n flags = Ok (Some x, m') ->
  kind x = is_element flags -> (exists z, XBT_Size2 ty n = Ok z /\ 24 + z <= size x <= 24 + align_up 4 z) -> inv m' ((None, [x]) :: F).
Proof.
  intros I FL E KX (z & SX & SZ). pose proof I as (h & a & P & _). pose proof (pl_pool _ _ _ P) as PO0. apply (fresh_ok _ _ a) in E; [|exact PO0].
  destruct E as (s2 & a' & S2 & S0 & AX & X4 & _ & XA0 & PO & X & _ & HD). rewrite S2 in SX. injection SX as <-.
  assert (XA : x + size x <= a'). { pose proof PO as (_ & _ & _ & _ & _ & A4 & _). unfold align_up in SZ. lia. }
  apply (inv_made m F x m' a a' id ty flags); auto. lia.
Qed.

(** *** Changing lists *)
Lemma members_app F G : members (F ++ G) = members F ++ members G.
Proof. apply flat_map_app. Qed.
Lemma owners_app F G : owners (F ++ G) = owners F ++ owners G.
Proof. apply flat_map_app. Qed.
Lemma owners_in F o L : In (Some o, L) F -> In o (owners F).
Proof. intro I. apply in_flat_map. exists (Some o, L). split; [exact I|left; reflexivity]. Qed.
Lemma shape_frame h h' X Y R : shape h (X ++ R) -> Permutation (members Y) (members X) -> NoDup (owners (Y ++ R)) ->
  (forall o L, In (o, L) Y -> ring h' L) ->
  (forall p k L, In (Some (p, k), L) Y -> In p (members (X ++ R)) /\ h' p (field_of k) = hd 0 L) ->
  (forall p k L, In (Some (p, k), L) X -> unowned Y p k -> h' p (field_of k) = 0) ->
  (forall p k, unowned X p k -> unowned Y p k -> h' p (field_of k) = h p (field_of k)) ->
  (forall e, ~ In e (members X) -> h' e 8 = h e 8 /\ h' e 12 = h e 12) -> shape h' (Y ++ R).
Proof.
  intros S PM NO RY HY HX HU HE.
  assert (PM' : Permutation (members (Y ++ R)) (members (X ++ R))) by (rewrite !members_app; apply Permutation_app_tail; exact PM).
  assert (IM : forall p, In p (members (X ++ R)) -> In p (members (Y ++ R))) by (intros p I; eapply Permutation_in; [apply Permutation_sym; exact PM'|exact I]).
  pose proof (sh_nodup _ _ S) as ND. pose proof (sh_owners _ _ S) as NX. rewrite members_app in ND. destruct (nodup_app _ _ ND) as (_ & _ & DM).
  rewrite owners_app in NX, NO. destruct (nodup_app _ _ NX) as (_ & _ & DX). destruct (nodup_app _ _ NO) as (_ & _ & DY).
  constructor.
  - eapply Permutation_NoDup; [apply Permutation_sym; exact PM'|apply S].
  - rewrite owners_app. exact NO.
  - intros o L I. apply in_app_or in I as [I|I]; [eauto|]. apply (ring_ext h); [|apply (sh_ring _ _ S o); apply in_or_app; auto].
    intros e J. apply HE. intro K. apply (DM e K). eapply members_in; eauto.
  - intros p k L I. apply in_app_or in I as [I|I]; [destruct (HY p k L I); auto|].
    destruct (sh_head _ _ S p k L) as [A B]; [apply in_or_app; auto|]. split; [auto|]. rewrite HU; [exact B| |].
    + intros L' J. apply (DX (p, k)); eapply owners_in; eauto.
    + intros L' J. apply (DY (p, k)); eapply owners_in; eauto.
  - intros p k I U. assert (UY : unowned Y p k) by (intros L J; apply (U L); apply in_or_app; auto).
    assert (UR : unowned R p k) by (intros L J; apply (U L); apply in_or_app; auto).
    destruct (in_dec (fun x y : Z * bool => ltac:(decide equality; [apply Bool.bool_dec|apply Z.eq_dec])) (p, k) (owners X)) as [J|NJ].
    + apply in_flat_map in J as ([o L] & J1 & J2). destruct o as [o|]; [|contradiction]. destruct J2 as [->|[]]. eapply HX; eauto.
    + assert (UX : unowned X p k) by (intros L J; apply NJ; eapply owners_in; eauto). rewrite HU by auto.
      apply S; [eapply Permutation_in; eauto|]. intros L J. apply in_app_or in J as [J|J]; [apply (UX L J)|apply (UR L J)].
Qed.

Lemma placed_perm E E' m a : Permutation E E' -> placed E m a -> placed E' m a.
Proof. intros P. apply placed_sub. intros e I. eapply Permutation_in; [apply Permutation_sym|]; eauto. Qed.
Lemma rep_perm E E' m h : Permutation E E' -> rep E m h -> rep E' m h.
Proof. intros P. apply rep_sub. intros e I. eapply Permutation_in; [apply Permutation_sym|]; eauto. Qed.
Lemma framed_perm E E' m m' : Permutation E E' -> framed E m m' -> framed E' m m'.
Proof. intros P [L F]. split; [exact L|]. intros q k K D. apply F; auto. intros e I. apply D. eapply Permutation_in; eauto. Qed.

Lemma lor8_odd f : is_element (Z.lor f BIN_DELETED) = is_element f.
Proof. unfold is_element. rewrite <- !Z.bit0_odd, Z.lor_spec. change (Z.testbit BIN_DELETED 0) with false. apply Bool.orb_false_r. Qed.
Lemma placed_flag E m m' a h t f : placed E m a -> rep E m h -> In t E -> el_flags m t = Ok f -> wr m (t + 6) [Z.lor f BIN_DELETED] = Ok m' -> placed E m' a.
Proof.
  intros P R I Ef W. destruct (wr_kept _ _ _ _ W) as (_ & _ & K & G). change (zlen [Z.lor f BIN_DELETED]) with 1 in *.
  destruct (pl_in _ _ _ P t I) as (B1 & B2 & B3). unfold HEADER in *. constructor; try apply P; [eapply pool_wr; [apply P|exact W|lia]|].
  intros e J. destruct (Z.eq_dec e t) as [->|N].
  - destruct (pl_kind _ _ _ P t I) as (f' & Ef' & Kf). rewrite Ef in Ef'. injection Ef' as <-. exists (Z.lor f BIN_DELETED). split; [|rewrite lor8_odd; exact Kf].
    unfold el_flags, rd_u8. rewrite G. cbn [obind unle]. f_equal. lia.
  - destruct (pl_kind _ _ _ P e J) as (f' & Ef' & Kf). exists f'. split; [|exact Kf]. unfold el_flags in *. rewrite (kept_u8 _ _ _ _ _ K); [exact Ef'|].
    destruct (rep_apart _ _ _ R e t J I N); lia.
Qed.

(** Neighbours are in the ring. *)
Lemma ring_in h L e : ring h L -> In e L -> In (h e 8) L /\ In (h e 12) L.
Proof.
  intros R I. apply in_split in I as (l1 & l2 & ->). destruct (ring_mid _ _ _ _ R) as [-> ->]. split.
  - destruct l2 as [|y l2]; cbn [hd]; [|apply in_or_app; right; right; left; reflexivity]. destruct l1 as [|y l1]; left; reflexivity.
  - destruct l1 as [|y l1]; [change (In (last (e :: l2) 0) (e :: l2)); apply last_in; discriminate|]. apply in_or_app. left. apply last_in. discriminate.
Qed.
Lemma perm_mid {A} (x : A) l1 l2 : Permutation (l1 ++ x :: l2) ((x :: l2) ++ l1).
Proof. apply Permutation_app_comm. Qed.

Lemma join_shape h o A1 a A2 B1 b B2 R N :
  shape h ((o, A1 ++ a :: A2) :: (None, B1 ++ b :: B2) :: R) ->
  (A1 = [] /\ N = (a :: A2) ++ (b :: B2) ++ B1) \/ (A1 <> [] /\ N = A1 ++ ((b :: B2) ++ B1) ++ a :: A2) ->
  shape (join_links h a b) ((o, N) :: R) /\ Permutation (members ((o, N) :: R)) (members ((o, A1 ++ a :: A2) :: (None, B1 ++ b :: B2) :: R)).
Proof.
  intros S NN. set (A := A1 ++ a :: A2) in *. set (B := B1 ++ b :: B2) in *.
  assert (RA : ring h A) by (eapply sh_ring; [exact S|left; reflexivity]). assert (RB : ring h B) by (eapply sh_ring; [exact S|right; left; reflexivity]).
  pose proof (sh_nodup _ _ S) as ND. rewrite !members_cons, app_assoc in ND. destruct (nodup_app _ _ ND) as (NAB & _ & _).
  assert (RN : ring (join_links h a b) ((a :: A2 ++ A1) ++ b :: B2 ++ B1)).
  { apply join_ring; [apply (ring_rotate h A1 (a :: A2)); exact RA|apply (ring_rotate h B1 (b :: B2)); exact RB|].
    eapply Permutation_NoDup; [|exact NAB]. apply Permutation_app; apply perm_mid. }
  assert (PN : Permutation N (A ++ B)).
  { destruct NN as [[-> ->]|[_ ->]].
    - unfold A, B. cbn [app]. constructor. apply Permutation_app_head. apply Permutation_sym. apply perm_mid.
    - unfold A, B. rewrite <- (app_assoc A1 (a :: A2)). apply Permutation_app_head. eapply Permutation_trans; [apply Permutation_app_comm|]. apply Permutation_app_head. apply Permutation_sym. apply perm_mid. }
  assert (RN' : ring (join_links h a b) N).
  { destruct NN as [[-> ->]|[_ ->]]; [rewrite app_nil_r in RN; exact RN|].
    replace ((a :: A2 ++ A1) ++ b :: B2 ++ B1) with ((a :: A2) ++ (A1 ++ (b :: B2) ++ B1)) in RN by (cbn [app]; rewrite <- app_assoc; reflexivity).
    apply ring_rotate in RN. rewrite <- !app_assoc in *. exact RN. }
  assert (HN : hd 0 N = hd 0 A). { unfold A. destruct NN as [[-> ->]|[NE ->]]; [reflexivity|]. rewrite !hd_app' by exact NE. reflexivity. }
  assert (PM : Permutation (members ((o, N) :: R)) (members ((o, A) :: (None, B) :: R))). { rewrite !members_cons, app_assoc. apply Permutation_app_tail. exact PN. }
  split; [|exact PM].
  apply (shape_frame h _ [(o, A); (None, B)] [(o, N)] R); auto.
  - cbn. rewrite !app_nil_r. exact PN.
  - exact (sh_owners _ _ S).
  - intros o' L [I|[]]. injection I as <- <-. exact RN'.
  - intros p k L [I|[]]. injection I as -> <-. destruct (sh_head _ _ S p k A) as [I1 I2]; [left; reflexivity|]. split; [exact I1|].
    destruct (field_not k). rewrite join_links_heads by auto. congruence.
  - intros p k L [I|[I|[]]] U; [|discriminate]. injection I as -> <-. exfalso. apply (U N). left. reflexivity.
  - intros p k _ _. destruct (field_not k). apply join_links_heads; auto.
  - intros e NI. cbn in NI. rewrite app_nil_r, in_app_iff in NI. assert (Ia : In a A) by (apply in_or_app; right; left; reflexivity).
    assert (Ib : In b B) by (apply in_or_app; right; left; reflexivity). destruct (ring_in _ _ _ RA Ia) as [_ Pa]. destruct (ring_in _ _ _ RB Ib) as [_ Pb].
    rewrite !join_links_other; auto; intro; subst e; tauto.
Qed.

(** *** What a reader is shown *)
Definition shows m p (L : list Z) : Prop :=
  el_offset m p = Ok p /\ el_child m p = Ok (hd 0 L) /\ NoDup L /\ forall l1 e l2, L = l1 ++ e :: l2 -> 0 < e /\ el_next m e = Ok (hd (hd 0 L) l2).
Lemma owned_ring h F p k L : shape h F -> In p (members F) -> owned F p k L -> h p (field_of k) = hd 0 L /\ NoDup L /\ (forall e, In e L -> In e (members F)) /\
  forall l1 e l2, L = l1 ++ e :: l2 -> h e 8 = hd (hd 0 L) l2.
Proof.
  intros S I [O|[-> U]].
  - destruct (sh_head _ _ S p k L O) as [_ ->]. split; [reflexivity|]. split; [|split].
    + apply in_split in O as (F1 & F2 & ->). pose proof (sh_nodup _ _ S) as ND. rewrite members_app, members_cons in ND.
      destruct (nodup_app _ _ ND) as (_ & N2 & _). destruct (nodup_app _ _ N2) as (N3 & _ & _). exact N3.
    + intros e J. eapply members_in; eauto.
    + intros l1 e l2 ->. pose proof (sh_ring _ _ S _ _ O) as R. destruct (ring_mid _ _ _ _ R) as [-> _]. destruct l1; reflexivity.
  - cbn [hd]. split; [apply S; auto|]. split; [constructor|]. split; [contradiction|]. intros l1 e l2 E. destruct l1; discriminate.
Qed.
Lemma rep_shows E m h h' F p L : shape h F -> rep E m h' -> (forall e, In e (members F) -> In e E) -> In p (members F) -> owned F p true L ->
  (forall e, In e L -> h' e 8 = h e 8) -> h' p 16 = h p 16 -> shows m p L.
Proof.
  intros S R SU I O H8 H16. destruct (owned_ring _ _ _ _ _ S I O) as (HD & ND & IN & NX). cbn [field_of] in HD. unfold shows.
  rewrite (rep_off _ _ _ R p), (rep_child _ _ _ p R) by auto. rewrite H16, HD. repeat split; auto.
  - apply (rep_in _ _ _ R). apply SU, IN. rewrite H. apply in_or_app. right. left. reflexivity.
  - assert (J : In e L) by (rewrite H; apply in_or_app; right; left; reflexivity). rewrite (rep_next _ _ _ e R) by auto. rewrite H8 by exact J. f_equal. eapply NX; eauto.
Qed.
Lemma inv_shows m F p L : inv m F -> In p (members F) -> owned F p true L -> shows m p L.
Proof. intros (h & a & _ & R & S) I O. eapply rep_shows; eauto. Qed.
Lemma owned_perm F F' p k L : Permutation F F' -> owned F p k L -> owned F' p k L.
Proof.
  intros P [O|[-> U]]; [left; eapply Permutation_in; eauto|]. right. split; [reflexivity|]. intros L' J. apply (U L'). eapply Permutation_in; [apply Permutation_sym|]; eauto.
Qed.

Lemma only_trans E m1 m2 m3 : only_links E m1 m2 -> only_links E m2 m3 -> only_links E m1 m3.
Proof. intros [L1 H1] [L2 H2]. split; [lia|]. intros q k K D. rewrite H2, H1 by auto. reflexivity. Qed.
Lemma framed_only E m m' : framed E m m' -> only_links E m m'.
Proof. intros [L H]. split; [exact L|]. intros q n N D. apply H; [exact N|]. intros e I. specialize (D e I). lia. Qed.
Lemma flag_only E m m' t f : In t E -> wr m (t + 6) [f] = Ok m' -> only_links E m m'.
Proof. intros I W. destruct (wr_kept _ _ _ _ W) as (_ & _ & [L K] & _). change (zlen [f]) with 1 in *. split; [exact L|]. intros q n N D. apply K; [exact N|]. specialize (D t I). lia. Qed.
Lemma only_perm E E' m m' : Permutation E E' -> only_links E m m' -> only_links E' m m'.
Proof. intros P [L H]. split; [exact L|]. intros q n N D. apply H; [exact N|]. intros e I. apply D. eapply Permutation_in; eauto. Qed.
Lemma inv_join_at m o A1 a A2 B1 b B2 R N : let F := (o, A1 ++ a :: A2) :: (None, B1 ++ b :: B2) :: R in inv m F ->
  (A1 = [] /\ N = (a :: A2) ++ (b :: B2) ++ B1) \/ (A1 <> [] /\ N = A1 ++ ((b :: B2) ++ B1) ++ a :: A2) ->
  exists m1 m2 m3 m4, join m a b = Ok (true, [m1; m2; m3; m4]) /\ inv m4 ((o, N) :: R) /\
    (forall mi p L, In mi [m1; m2; m3] -> In p (members F) -> owned F p true L -> shows mi p L) /\ only_links (members F) m m4.
Proof.
  intros F (h & ad & P & RP & S) NN. set (A := A1 ++ a :: A2) in *. set (B := B1 ++ b :: B2) in *.
  assert (RA : ring h A) by (eapply sh_ring; [exact S|left; reflexivity]). assert (RB : ring h B) by (eapply sh_ring; [exact S|right; left; reflexivity]).
  assert (Ia : In a A) by (apply in_or_app; right; left; reflexivity). assert (Ib : In b B) by (apply in_or_app; right; left; reflexivity).
  assert (SA : forall e, In e A -> In e (members F)) by (intros; eapply members_in; [left; reflexivity|auto]).
  assert (SB : forall e, In e B -> In e (members F)) by (intros; eapply members_in; [right; left; reflexivity|auto]).
  destruct (ring_in _ _ _ RA Ia) as [_ Pa]. destruct (ring_in _ _ _ RB Ib) as [_ Pb].
  destruct (join_rep _ _ _ a b RP (SA _ Ia) (SB _ Ib) (SA _ Pa) (SB _ Pb)) as (m1 & m2 & m3 & m4 & J & R1 & R2 & R3 & R4 & F1 & F2 & F3 & F4).
  exists m1, m2, m3, m4. split; [exact J|]. destruct (join_shape h o A1 a A2 B1 b B2 R N S NN) as [S4 PM]. split.
  - exists (join_links h a b), ad. split; [|split; [|exact S4]].
    + eapply placed_perm; [apply Permutation_sym; exact PM|]. eapply placed_framed; eauto.
    + eapply rep_perm; [apply Permutation_sym; exact PM|]. exact R4.
  - split; [|apply framed_only; exact F4]. intros mi p L I Ip O.
    assert (DB : forall e, In e L -> ~ In e B).
    { destruct O as [O|[-> _]]; [|contradiction]. intros e Ie Je. pose proof (sh_nodup _ _ S) as ND.
      assert (PF : Permutation F ((None, B) :: (o, A) :: R)) by apply perm_swap. apply members_perm in PF. apply (Permutation_NoDup PF) in ND.
      rewrite members_cons in ND. destruct (nodup_app _ _ ND) as (_ & _ & D). apply (D e Je). destruct O as [O|[O|O]]; [|discriminate|].
      - eapply members_in; [left; exact O|exact Ie].
      - eapply members_in; [right; exact O|exact Ie]. }
    destruct I as [<-|[<-|[<-|[]]]].
    + eapply (rep_shows _ m1 h _ F); eauto; intros; uo; auto.
    + eapply (rep_shows _ m2 h _ F); eauto; intros; uo; auto.
    + eapply (rep_shows _ m3 h _ F); eauto; intros; [|uo; auto]. assert (e <> h b 12) by (intro; subst; eapply DB; eauto). uo; auto.
Qed.
Lemma inv_join m F a b F' : inv m F -> joins a b F F' ->
  exists m1 m2 m3 m4, join m a b = Ok (true, [m1; m2; m3; m4]) /\ inv m4 F' /\
    (forall mi p L, In mi [m1; m2; m3] -> In p (members F) -> owned F p true L -> shows mi p L) /\ only_links (members F) m m4.
Proof.
  intros I J.
  assert (G : forall o A1 A2 B1 B2 R N, Permutation F ((o, A1 ++ a :: A2) :: (None, B1 ++ b :: B2) :: R) ->
     (A1 = [] /\ N = (a :: A2) ++ (b :: B2) ++ B1) \/ (A1 <> [] /\ N = A1 ++ ((b :: B2) ++ B1) ++ a :: A2) ->
     exists m1 m2 m3 m4, join m a b = Ok (true, [m1; m2; m3; m4]) /\ inv m4 ((o, N) :: R) /\
       (forall mi p L, In mi [m1; m2; m3] -> In p (members F) -> owned F p true L -> shows mi p L) /\ only_links (members F) m m4).
  { intros o A1 A2 B1 B2 R N P NN. destruct (inv_join_at m o A1 a A2 B1 b B2 R N (inv_perm _ _ _ P I) NN) as (m1 & m2 & m3 & m4 & J1 & J2 & J3 & J4).
    exists m1, m2, m3, m4. split; [exact J1|]. split; [exact J2|]. split; [|eapply only_perm; [apply Permutation_sym, members_perm; exact P|exact J4]]. intros mi p L Im Ip O. eapply J3; eauto; [eapply Permutation_in; [apply members_perm; exact P|exact Ip]|eapply owned_perm; eauto]. }
  inversion J; subst; [apply (G o [] A B1 B2 R); auto|eapply (G o A1 A2 B1 B2 R); auto].
Qed.

Lemma pos_in m F h a e : placed (members F) m a -> rep (members F) m h -> In e (members F) -> e <> 0.
Proof. intros _ R I. destruct (rep_in _ _ _ R e I). lia. Qed.
Lemma nodup_owner_cons (F : forest) o L R : Permutation F ((Some o, L) :: R) -> NoDup (owners F) -> ~ In o (owners R).
Proof. intros P N. apply (Permutation_NoDup (owners_perm _ _ P)) in N. inversion N; subst. auto. Qed.

Lemma inv_add m F p t F' : inv m F -> In p (members F) -> adds kind p t F F' ->
  exists pre m', add m p t = Ok (true, pre ++ [m']) /\ inv m' F' /\
    (forall mi q L, In mi pre -> In q (members F) -> owned F q true L -> shows mi q L) /\ only_links (members F) m m'.
Proof.
  intros IV Ip AD. inversion AD as [F0 B1 B2 R P U|F0 B1 B2 L R P]; subst.
  - assert (IV' := inv_perm _ _ _ P IV). destruct IV' as (h & a & PL & RP & S). set (F1 := (None, B1 ++ t :: B2) :: R) in *.
    assert (Ip' : In p (members F1)) by (eapply Permutation_in; [apply members_perm; exact P|exact Ip]).
    assert (It : In t (members F1)) by (eapply members_in; [left; reflexivity|apply in_or_app; right; left; reflexivity]).
    destruct (pl_kind _ _ _ PL t It) as (f & Ef & Kf).
    assert (UF : unowned F1 p (kind t)) by (intros L [J|J]; [discriminate|apply (U L J)]).
    assert (Z0 : h p (field_of (is_element f)) = 0) by (rewrite Kf; apply S; auto).
    destruct (add_first_rep _ _ _ p t f RP Ip' It Ef Z0) as (m1 & A & R1 & FR1). rewrite Kf in *. exists [], m1. split; [exact A|]. split; [|split; [contradiction|eapply only_perm; [apply Permutation_sym, members_perm; exact P|apply framed_only; exact FR1]]].
    assert (PM : Permutation (members ((Some (p, kind t), (t :: B2) ++ B1) :: R)) (members F1)). { unfold F1. rewrite !members_cons. apply Permutation_app_tail, Permutation_sym, perm_mid. }
    exists (upd h p (field_of (kind t)) t), a. destruct (field_not (kind t)) as [K8 K12]. split; [|split].
    + eapply placed_perm; [apply Permutation_sym; exact PM|]. eapply placed_framed; eauto.
    + eapply rep_perm; [apply Permutation_sym; exact PM|]. exact R1.
    + apply (shape_frame h _ [(None, B1 ++ t :: B2)] [(Some (p, kind t), (t :: B2) ++ B1)] R); auto.
      * cbn [members flat_map snd]. rewrite !app_nil_r. apply Permutation_sym, perm_mid.
      * cbn. constructor; [|exact (sh_owners _ _ S)]. intro J. apply in_flat_map in J as ([o L] & J1 & J2). destruct o as [o|]; [|contradiction]. destruct J2 as [->|[]]. exact (U L J1).
      * intros o L [J|[]]. injection J as <- <-. apply (ring_ext h); [intros; uo; auto|]. apply (ring_rotate h B1 (t :: B2)). eapply sh_ring; [exact S|left; reflexivity].
      * intros p' k L [J|[]]. injection J as <- <- <-. split; [exact Ip'|]. uo. reflexivity.
      * intros p' k L [J|[]]. discriminate.
      * intros p' k _ U'. apply upd_other. destruct (Z.eq_dec p' p) as [->|N]; [|auto]. destruct (Bool.bool_dec k (kind t)) as [->|N]; [|right; destruct k, (kind t); cbn; congruence].
        exfalso. eapply U'. left. reflexivity.
      * intros e _. uo; auto.
  - assert (P' : Permutation F ((Some (p, kind t), L) :: (None, B1 ++ t :: B2) :: R)) by (eapply Permutation_trans; [exact P|apply perm_swap]).
    assert (IV' := inv_perm _ _ _ P' IV). pose proof IV' as (h & a & PL & RP & S). set (F1 := (Some (p, kind t), L) :: (None, B1 ++ t :: B2) :: R) in *.
    assert (Ip' : In p (members F1)) by (eapply Permutation_in; [apply members_perm; exact P'|exact Ip]).
    assert (It : In t (members F1)) by (eapply members_in; [right; left; reflexivity|apply in_or_app; right; left; reflexivity]).
    destruct (pl_kind _ _ _ PL t It) as (f & Ef & Kf).
    destruct (sh_ring _ _ S (Some (p, kind t)) L (or_introl eq_refl)) as [NE _]. destruct L as [|x A]; [congruence|].
    destruct (sh_head _ _ S p (kind t) (x :: A) (or_introl eq_refl)) as [_ HD]. cbn [hd] in HD.
    destruct (inv_join_at m (Some (p, kind t)) [] x A B1 t B2 R ((x :: A) ++ (t :: B2) ++ B1) IV' (or_introl (conj eq_refl eq_refl))) as (m1 & m2 & m3 & m4 & J1 & J2 & J3 & J4).
    exists [m1; m2; m3], m4. split; [|split; [exact J2|split; [|eapply only_perm; [apply Permutation_sym, members_perm; exact P'|exact J4]]]].
    + rewrite <- HD, <- Kf in J1. eapply (add_join m p t f _ h RP Ip' Ef); [|exact J1]. rewrite Kf, HD. eapply pos_in; eauto. eapply members_in; [left; reflexivity|left; reflexivity].
    + intros mi q L Im Iq O. eapply J3; eauto; [eapply Permutation_in; [apply members_perm; exact P'|exact Iq]|eapply owned_perm; eauto].
Qed.

Lemma inv_remove m F p t F' : inv m F -> removes kind p t F F' -> exists tr, remove m p t = Ok (true, tr) /\ inv (final m tr) F' /\ only_links (members F) m (final m tr).
Proof.
  intros IV RM.
  assert (G : forall L1 L2 R, Permutation F ((Some (p, kind t), L1 ++ t :: L2) :: R) ->
     let Y := if L1 ++ L2 then [] else [(Some (p, kind t), L1 ++ L2)] in
     exists tr, remove m p t = Ok (true, tr) /\ inv (final m tr) ((None, [t]) :: Y ++ R) /\ only_links (members F) m (final m tr)).
  { intros L1 L2 R P Y. assert (IV' := inv_perm _ _ _ P IV). destruct IV' as (h & a & PL & RP & S). set (L := L1 ++ t :: L2) in *. set (F1 := (Some (p, kind t), L) :: R) in *.
    assert (It : In t L) by (apply in_or_app; right; left; reflexivity). assert (SL : forall e, In e L -> In e (members F1)) by (intros; eapply members_in; [left; reflexivity|auto]).
    assert (RL : ring h L) by (eapply sh_ring; [exact S|left; reflexivity]). destruct (ring_in _ _ _ RL It) as [I8 I12].
    destruct (sh_head _ _ S p (kind t) L (or_introl eq_refl)) as [Ip HD]. destruct (pl_kind _ _ _ PL t (SL _ It)) as (f & Ef & Kf).
    assert (NL : L <> []) by apply RL. assert (IH : In (hd 0 L) L) by (apply hd_in; exact NL).
    assert (HN : h p (field_of (is_element f)) <> 0) by (rewrite Kf, HD; eapply pos_in; eauto).
    destruct (remove_rep _ _ _ p t f RP Ip (SL _ It) Ef (SL _ I8) (SL _ I12) HN) as (tr & m5 & m6 & RM1 & FM & R6 & F5 & W6); [rewrite Kf, HD; eapply rep_int; eauto|].
    rewrite Kf in *. set (k := field_of (kind t)) in *. destruct (field_not (kind t)) as [K8 K12]. fold k in K8, K12.
    exists tr. split; [exact RM1|]. rewrite FM.
    pose proof (sh_nodup _ _ S) as ND. unfold F1 in ND. rewrite members_cons in ND. destruct (nodup_app _ _ ND) as (NDL & _ & DR).
    assert (RT : ring h (t :: L2 ++ L1)) by (apply (ring_rotate h L1 (t :: L2)); exact RL).
    assert (NDT : NoDup (t :: L2 ++ L1)) by (eapply Permutation_NoDup; [apply perm_mid|exact NDL]).
    assert (YM : members Y = L1 ++ L2). { unfold Y. destruct (L1 ++ L2); [reflexivity|]. cbn. rewrite app_nil_r. reflexivity. }
    assert (PY : Permutation (members ((None, [t]) :: Y)) (members [(Some (p, kind t), L)])). { rewrite !members_cons, YM, app_nil_r. cbn [app]. apply Permutation_middle. }
    assert (PM : Permutation (members (((None, [t]) :: Y) ++ R)) (members F1)). { unfold F1. change ((Some (p, kind t), L) :: R) with ([(Some (p, kind t), L)] ++ R). rewrite !members_app. apply Permutation_app_tail. exact PY. }
    match type of R6 with rep _ _ ?hh => set (h4 := hh) in * end.
    assert (HK : forall e g, g <> 8 -> g <> 12 -> h4 e g = (if h p k =? t then upd h p k (if (h t 8 =? t) && (h t 12 =? t) then 0 else h t 8) else h) e g).
    { intros e g G1 G2. unfold h4. uo. reflexivity. }
    assert (H8 : forall e g, g = 8 \/ g = 12 -> h4 e g = drop_links h t e g).
    { intros e g G1. unfold h4, drop_links. unfold upd at 1 2 3 4. unfold upd at 2 3 4 5.
      assert (X : (if h p k =? t then upd h p k (if (h t 8 =? t) && (h t 12 =? t) then 0 else h t 8) else h) e g = h e g).
      { destruct (h p k =? t); [apply upd_other; right; destruct G1; subst; auto|reflexivity]. }
      rewrite X. reflexivity. }
    (* the new head *)
    assert (HHD : h4 p k = hd 0 (L1 ++ L2)).
    { rewrite HK by auto. rewrite HD. destruct L1 as [|y L1].
      - cbn [app hd] in *. unfold L. cbn [app hd]. rewrite Z.eqb_refl. uo. rewrite (ring_next _ _ _ RT), (ring_prev _ _ _ RT). rewrite app_nil_r in *.
        destruct L2 as [|z L2]; [cbn; rewrite Z.eqb_refl; reflexivity|]. cbn [hd]. replace (z =? t) with false; [reflexivity|].
        inversion NDT as [|? ? NI _]; subst. symmetry. apply Z.eqb_neq. intro; subst. apply NI. left. reflexivity.
      - unfold L. cbn [app hd]. replace (y =? t) with false; [rewrite HD; reflexivity|]. symmetry. apply Z.eqb_neq. intro; subst. unfold L in NDL. cbn [app] in NDL.
        inversion NDL as [|? ? NI _]; subst. apply NI. apply in_or_app. right. left. reflexivity. }
    split; [|eapply only_perm; [apply Permutation_sym, members_perm; exact P|eapply only_trans; [apply framed_only; exact F5|eapply flag_only; [exact (SL _ It)|exact W6]]]].
    exists h4, a. split; [|split].
    - eapply placed_perm; [apply Permutation_sym; exact PM|]. assert (P5 : placed (members F1) m5 a) by (eapply placed_framed; eauto).
      assert (Ef5 : el_flags m5 t = Ok f) by (rewrite (framed_flags _ _ _ _ _ F5 RP (SL _ It)); exact Ef).
      destruct (wr_kept _ _ _ _ W6) as (_ & _ & K & G'). change (zlen [Z.lor f BIN_DELETED]) with 1 in *.
      destruct (pl_in _ _ _ P5 t (SL _ It)) as (B1 & B2 & B3). unfold HEADER in *. constructor; try apply P5; [eapply pool_wr; [apply P5|exact W6|lia]|].
      intros e J. destruct (Z.eq_dec e t) as [->|N].
      + exists (Z.lor f BIN_DELETED). split; [|rewrite lor8_odd; exact Kf]. unfold el_flags, rd_u8. rewrite G'. cbn [obind unle]. f_equal. lia.
      + destruct (pl_kind _ _ _ P5 e J) as (f' & Ef' & Kf'). exists f'. split; [|exact Kf']. unfold el_flags in *. rewrite (kept_u8 _ _ _ _ _ K); [exact Ef'|].
        destruct (rep_apart _ _ _ RP e t J (SL _ It) N); lia.
    - eapply rep_perm; [apply Permutation_sym; exact PM|]. exact R6.
    - apply (shape_frame h _ [(Some (p, kind t), L)] ((None, [t]) :: Y) R); auto.
      + pose proof (sh_owners _ _ S) as NO. cbn [F1 owners flat_map fst app] in NO. unfold Y. destruct (L1 ++ L2); cbn; [inversion NO; auto|exact NO].
      + intros o L' [J|J].
        * injection J as <- <-. apply (ring_ext (drop_links h t)); [intros; rewrite !H8 by auto; auto|apply drop_self].
        * assert (L' = L1 ++ L2 /\ L1 ++ L2 <> []) as [-> NE]. { unfold Y in J. destruct (L1 ++ L2); [contradiction|]. destruct J as [J|[]]. injection J as _ <-. split; [reflexivity|discriminate]. }
          apply (ring_ext (drop_links h t)); [intros; rewrite !H8 by auto; auto|]. apply ring_rotate. apply drop_rest; auto.
          intro E. apply app_eq_nil in E as [-> ->]. apply NE. reflexivity.
      + intros p' k' L' [J|J]; [discriminate|]. unfold Y in J. destruct (L1 ++ L2) as [|z l] eqn:EL; [contradiction|]. destruct J as [J|[]]. injection J as <- <- <-.
        split; [exact Ip|]. fold k. rewrite HHD. reflexivity.
      + intros p' k' L' [J|[]] U. injection J as <- <- <-. fold k. rewrite HHD. unfold Y in U. destruct (L1 ++ L2) as [|z l] eqn:EL; [reflexivity|]. exfalso. eapply U. right. left. reflexivity.
      + intros p' k' U _. destruct (field_not k') as [K1 K2]. rewrite HK by auto. destruct (h p k =? t); [|reflexivity]. apply upd_other.
        destruct (Z.eq_dec p' p) as [->|N]; [|auto]. destruct (Bool.bool_dec k' (kind t)) as [->|N]; [|right; unfold k; destruct k', (kind t); cbn; congruence].
        exfalso. eapply U. left. reflexivity.
      + intros e NI. cbn in NI. rewrite app_nil_r in NI. rewrite !H8 by auto. rewrite !drop_other; auto; intro; subst e; auto. }
  inversion RM as [F0 R P|F0 L1 L2 R NE P]; subst.
  - exact (G [] [] R P).
  - destruct (G L1 L2 R P) as (tr & A & B & C). exists tr. split; [exact A|]. split; [|exact C]. destruct (L1 ++ L2); [congruence|exact B].
Qed.

Lemma inv_replace m F p old new k F' : inv m F -> replaces p old new k F F' -> ~ In (Some (p, k), [old]) F -> exists tr, replace m p old new = Ok (true, tr) /\ inv (final m tr) F' /\ only_links (members F) m (final m tr).
Proof.
  intros IV RP0 NS. inversion RP0 as [F0 L1 L2 R P]; subst. assert (IV' := inv_perm _ _ _ P IV). destruct IV' as (h & a & PL & RP & S).
  set (L := L1 ++ old :: L2) in *. set (F1 := (Some (p, k), L) :: (None, [new]) :: R) in *.
  assert (Io : In old L) by (apply in_or_app; right; left; reflexivity). assert (SL : forall e, In e L -> In e (members F1)) by (intros; eapply members_in; [left; reflexivity|auto]).
  assert (Inw : In new (members F1)) by (eapply members_in; [right; left; reflexivity|left; reflexivity]).
  assert (RL : ring h L) by (eapply sh_ring; [exact S|left; reflexivity]). destruct (ring_in _ _ _ RL Io) as [I8 I12].
  assert (RN : ring h [new]) by (eapply sh_ring; [exact S|right; left; reflexivity]). destruct RN as [_ (N12 & N8 & _)]. cbn in N12, N8.
  destruct (sh_head _ _ S p k L (or_introl eq_refl)) as [Ip HD]. destruct (pl_kind _ _ _ PL old (SL _ Io)) as (f & Ef & Kf).
  pose proof (sh_nodup _ _ S) as ND. unfold F1 in ND. rewrite !members_cons in ND. destruct (nodup_app _ _ ND) as (NDL & _ & DR).
  assert (NN : forall e, In e L -> e <> new) by (intros e I E; subst; apply (DR new I); left; reflexivity).
  assert (NE : L2 ++ L1 <> []). { intro E. apply app_eq_nil in E as [E1 E2]. subst L1 L2. apply NS. eapply Permutation_in; [apply Permutation_sym; exact P|left; reflexivity]. }
  destruct (replace_rep _ _ _ p old new f RP Ip (SL _ Io) Inw (NN _ Io) N8 N12 (SL _ I8) (SL _ I12) (NN _ I8) (NN _ I12) Ef) as (tr & m4 & m5 & RM1 & R9 & F4 & W5 & F5).
  exists tr. split; [exact RM1|].
  match type of R9 with rep _ _ ?hh => set (h9 := hh) in * end. set (m9 := final m tr) in *.
  assert (RT : ring h (old :: L2 ++ L1)) by (apply (ring_rotate h L1 (old :: L2)); exact RL).
  assert (NDT : NoDup (old :: L2 ++ L1)) by (eapply Permutation_NoDup; [apply perm_mid|exact NDL]).
  assert (H8 : forall e g, g = 8 \/ g = 12 -> h9 e g = swap_links h old new e g).
  { intros e g G1. unfold h9. assert (g <> 16 /\ g <> 20) as [G16 G20] by lia. destruct (h p 20 =? old); destruct (h p 16 =? old); uo; reflexivity. }
  assert (HK : forall e g, g = 16 \/ g = 20 -> h9 e g = if (e =? p) && (h p g =? old) then new else h e g).
  { assert (X : forall e g, g = 16 \/ g = 20 -> swap_links h old new e g = h e g) by (intros e g G1; apply swap_heads; lia). fold (swap_links h old new) in h9.
    intros e g G1. unfold h9. destruct (Z.eqb_spec e p) as [->|N].
    - destruct G1 as [-> | ->]; cbn [andb]; destruct (h p 20 =? old); destruct (h p 16 =? old); uo; auto.
    - cbn [andb]. destruct (h p 20 =? old); destruct (h p 16 =? old); uo; auto. }
  assert (F16 : forall k', field_of k' = 16 \/ field_of k' = 20) by (intros []; auto).
  (* nobody else's head is [old] *)
  assert (HO : forall k', h p (field_of k') = old -> k' = k).
  { intros k' E. destruct (in_dec (fun x y : Z * bool => ltac:(decide equality; [apply Bool.bool_dec|apply Z.eq_dec])) (p, k') (owners F1)) as [J|NJ].
    - apply in_flat_map in J as ([o L'] & J1 & J2). destruct o as [o|]; [|contradiction]. destruct J2 as [->|[]]. destruct (sh_head _ _ S p k' L' J1) as [_ HD']. rewrite E in HD'.
      destruct J1 as [J1|[J1|J1]]; [congruence|discriminate|]. exfalso. destruct (sh_ring _ _ S _ _ (or_intror (or_intror J1))) as [NE' _].
      apply (DR old Io). right. eapply members_in; [exact J1|]. rewrite HD'. apply hd_in. exact NE'.
    - assert (old = 0); [|destruct (rep_in _ _ _ RP old (SL _ Io)); lia]. rewrite <- E. apply S; [exact Ip|]. intros L' J. apply NJ. eapply owners_in; eauto. }
  assert (HHD : h9 p (field_of k) = hd 0 (L1 ++ new :: L2)).
  { rewrite HK by auto. rewrite Z.eqb_refl, HD. cbn [andb]. unfold L. destruct L1 as [|y L1]; cbn [app hd]; [rewrite Z.eqb_refl; reflexivity|].
    replace (y =? old) with false; [reflexivity|]. symmetry. apply Z.eqb_neq. intro; subst. unfold L in NDL. cbn [app] in NDL. inversion NDL as [|? ? NI _]; subst. apply NI. apply in_or_app. right. left. reflexivity. }
  assert (PX : Permutation (members [(Some (p, k), L1 ++ new :: L2); (None, [old])]) (members [(Some (p, k), L); (None, [new])])).
  { cbn. unfold L. rewrite <- !app_assoc. apply Permutation_app_head. cbn [app].
    eapply Permutation_trans; [apply perm_skip, Permutation_sym, Permutation_cons_append|].
    eapply Permutation_trans; [|apply perm_skip, Permutation_cons_append]. apply perm_swap. }
  assert (PM : Permutation (members ((Some (p, k), L1 ++ new :: L2) :: (None, [old]) :: R)) (members F1)).
  { change (Permutation (members ([(Some (p, k), L1 ++ new :: L2); (None, [old])] ++ R)) (members ([(Some (p, k), L); (None, [new])] ++ R))). rewrite !members_app. apply Permutation_app_tail. exact PX. }
  split; [|eapply only_perm; [apply Permutation_sym, members_perm; exact P|eapply only_trans; [eapply only_trans; [apply framed_only; exact F4|eapply flag_only; [exact (SL _ Io)|exact W5]]|apply framed_only; exact F5]]].
  exists h9, a. split; [|split].
  - eapply placed_perm; [apply Permutation_sym; exact PM|]. assert (P4 : placed (members F1) m4 a) by (eapply placed_framed; eauto).
    assert (Ef4 : el_flags m4 old = Ok f) by (rewrite (framed_flags _ _ _ _ _ F4 RP (SL _ Io)); exact Ef).
    assert (P5 : placed (members F1) m5 a).
    { destruct (wr_kept _ _ _ _ W5) as (_ & _ & K & G'). change (zlen [Z.lor f BIN_DELETED]) with 1 in *.
      destruct (pl_in _ _ _ P4 old (SL _ Io)) as (B1 & B2 & B3). unfold HEADER in *. constructor; try apply P4; [eapply pool_wr; [apply P4|exact W5|lia]|].
      intros e J. destruct (Z.eq_dec e old) as [->|N].
      + exists (Z.lor f BIN_DELETED). split; [|rewrite lor8_odd; exact Kf]. unfold el_flags, rd_u8. rewrite G'. cbn [obind unle]. f_equal. lia.
      + destruct (pl_kind _ _ _ P4 e J) as (f' & Ef' & Kf'). exists f'. split; [|exact Kf']. unfold el_flags in *. rewrite (kept_u8 _ _ _ _ _ K); [exact Ef'|].
        destruct (rep_apart _ _ _ RP e old J (SL _ Io) N); lia. }
    destruct F5 as [L5 F5]. constructor; try apply P5.
    + pose proof (pl_pool _ _ _ P5) as PO. unfold pool, p_allocator, p_limit, p_file_size, p_mmap_size in *.
      assert (G : forall q, q + 4 <= HEADER -> rd_s32 m9 q = rd_s32 m5 q).
      { intros q Q. unfold rd_s32. rewrite F5; [reflexivity|lia|]. intros e I. destruct (pl_in _ _ _ P5 e I). lia. }
      unfold HEADER in *. rewrite !G by lia. rewrite L5. exact PO.
    + intros e I. destruct (pl_kind _ _ _ P5 e I) as (f' & Ef' & Kf'). exists f'. split; [|exact Kf']. unfold el_flags, rd_u8 in *. rewrite F5; [exact Ef'|lia|].
      intros e' I'. destruct (Z.eq_dec e e') as [->|N]; [lia|]. destruct (rep_apart _ _ _ RP e e' I I' N); lia.
  - eapply rep_perm; [apply Permutation_sym; exact PM|]. exact R9.
  - apply (shape_frame h _ [(Some (p, k), L); (None, [new])] [(Some (p, k), L1 ++ new :: L2); (None, [old])] R); auto.
    + exact (sh_owners _ _ S).
    + intros o L' [J|[J|[]]]; injection J as <- <-; (apply (ring_ext (swap_links h old new)); [intros; rewrite !H8 by auto; auto|]); [|apply swap_self].
      apply (ring_rotate _ (new :: L2) L1). apply swap_rest; auto. intros [E|E]; [exact (NN _ Io E)|]. apply (NN new); [|reflexivity].
      apply in_app_or in E as [E|E]; apply in_or_app; [right; right; exact E|left; exact E].
    + intros p' k' L' [J|[J|[]]]; [|discriminate]. injection J as <- <- <-. split; [exact Ip|exact HHD].
    + intros p' k' L' [J|[J|[]]] U; [|discriminate]. injection J as <- <- <-. exfalso. eapply U. left. reflexivity.
    + intros p' k' U _. rewrite HK by auto. destruct (Z.eqb_spec p' p) as [->|N]; [|reflexivity]. cbn [andb]. destruct (Z.eqb_spec (h p (field_of k')) old) as [E|N]; [|reflexivity].
      exfalso. rewrite (HO k' E) in U. eapply U. left. reflexivity.
    + intros e NI. cbn in NI. rewrite in_app_iff in NI. assert (In new [new]) by (left; reflexivity). assert (e <> new /\ ~ In e L) as [E1 E2] by (split; intro; subst; tauto).
      rewrite !H8 by auto. rewrite !swap_other; auto; intro; subst e; auto.
Qed.

Theorem built_inv m F : built kind size m F -> inv m F.
Proof.
  induction 1 as [m a PO|m F disk id ty n flags x m' _ IH FL E KX SX|m F disk id ty n flags m' _ IH E|m F e q bs m' _ IH I Q1 Q2 W|m F n r m' _ IH E|m F n r m' _ IH E|m F disk n r m' _ IH E
    |m F p t F' ok tr _ IH Ip A E|m F a b F' ok tr _ IH J E|m F p t F' ok tr _ IH R E|m F p old new k F' ok tr _ IH R N E].
  - exists (fun _ _ => 0), a. split; [|split]; constructor; try contradiction; try exact PO; constructor.
  - eapply inv_new; eauto. pose proof (align4_ge (size x - 24)). eexists. split; [eassumption|]. lia.
  - apply (inv_extends m); [exact IH|]. intros a PO. apply (fresh_ok _ _ a) in E; [exact E|exact PO].
  - eapply inv_write; eauto.
  - apply (inv_extends m); [exact IH|]. intros a PO. apply (allocate_ok _ a) in E; [|exact PO]. destruct r as [x|].
    + destruct E as (N & -> & P & X & _). pose proof (align4_ge n). exists (a + align_up 4 n). split; [exact P|]. split; [lia|exact X].
    + destruct E as (-> & _). exists a. split; [exact PO|]. split; [lia|apply extends_refl].
  - apply (inv_extends m); [exact IH|]. intros a PO. apply (allocate8_ok _ a) in E; [|exact PO]. destruct r as [x|].
    + destruct E as (N & -> & P & X & _). pose proof (align8_ge n). pose proof (align8_ge a). exists (align_up 8 a + align_up 8 n). split; [exact P|]. split; [lia|exact X].
    + destruct E as ((a' & P & L) & X & _). eauto.
  - apply (inv_extends m); [exact IH|]. intros a PO. apply (makeSpace_ok _ _ a) in E; [|exact PO]. destruct E as (P & X & _). exists a. split; [exact P|]. split; [lia|exact X].
  - destruct (inv_add _ _ _ _ _ IH Ip A) as (pre & m' & E' & IV & _). rewrite E' in E. injection E as _ <-. unfold final. rewrite last_last. exact IV.
  - destruct (inv_join _ _ _ _ _ IH J) as (m1 & m2 & m3 & m4 & E' & IV & _). rewrite E' in E. injection E as _ <-. exact IV.
  - destruct (inv_remove _ _ _ _ _ IH R) as (tr' & E' & IV & _). rewrite E' in E. injection E as _ <-. exact IV.
  - destruct (inv_replace _ _ _ _ _ _ _ IH R N) as (tr' & E' & IV & _). rewrite E' in E. injection E as _ <-. exact IV.
Qed.
End Keep.
