(** What the writer leaves in the buffer. *)
From Verif Require Import Base BaseFacts ListFacts Scan ScanProofs Types Sort SortProofs Symtab Xb XbSpec XbFacts XbWrite DocSpec JoinProofs.

(** ** Single stores *)

(** [m'] is [m] except inside [a, b) and [c, d). *)
Definition except (m m' : list Z) (a b c d : Z) : Prop :=
  zlen m' = zlen m /\ (bytes m -> bytes m') /\
  forall q cs, has m q cs -> q + zlen cs <= a \/ b <= q -> q + zlen cs <= c \/ d <= q -> has m' q cs.

Lemma except_refl m a b c d : except m m a b c d.
Proof. repeat split; auto. Qed.
Lemma except_trans m1 m2 m3 a b c d a1 b1 c1 d1 a2 b2 c2 d2 :
  except m1 m2 a1 b1 c1 d1 -> except m2 m3 a2 b2 c2 d2 ->
  (a <= a1 /\ b1 <= b) \/ (c <= a1 /\ b1 <= d) -> (a <= c1 /\ d1 <= b) \/ (c <= c1 /\ d1 <= d) ->
  (a <= a2 /\ b2 <= b) \/ (c <= a2 /\ b2 <= d) -> (a <= c2 /\ d2 <= b) \/ (c <= c2 /\ d2 <= d) ->
  except m1 m3 a b c d.
Proof.
  intros (L1 & B1 & H1) (L2 & B2 & H2) R1 R2 R3 R4. split; [congruence|]. split; [auto|]. intros q cs H Ha Hc.
  apply H2; [apply H1; [exact H| |]| |]; lia.
Qed.

Lemma bput_has m p bs : 0 <= p -> p + zlen bs <= zlen m -> has (bput m p bs) p bs.
Proof. intros Hp H. pose proof (zlen_nonneg bs). exists (ztake p m), (zskip (p + zlen bs) m). split; [reflexivity|]. rewrite zlen_take; lia. Qed.
Lemma bput_keeps m p bs q cs : 0 <= p -> p + zlen bs <= zlen m -> has m q cs -> q + zlen cs <= p \/ p + zlen bs <= q -> has (bput m p bs) q cs.
Proof.
  intros Hp H (a & b & -> & <-) Hd. pose proof (zlen_nonneg bs). pose proof (zlen_nonneg cs). pose proof (zlen_nonneg a). pose proof (zlen_nonneg b).
  rewrite !zlen_app in H. unfold bput. destruct Hd as [Hd|Hd].
  - rewrite ztake_app_ge by lia. rewrite ztake_app_ge by lia.
    exists a, (ztake (p - zlen a - zlen cs) b ++ bs ++ zskip (p + zlen bs) (a ++ cs ++ b)). rewrite <- !app_assoc. auto.
  - rewrite ztake_app_l by lia. rewrite zskip_app_le by lia.
    exists (ztake p a ++ bs ++ zskip (p + zlen bs) a), b. rewrite <- !app_assoc. split; [reflexivity|].
    rewrite !zlen_app, zlen_take, zlen_skip by lia. lia.
Qed.

Lemma wr_ok m p bs m' : bytes bs -> wr m p bs = Ok m' ->
  0 <= p /\ p + zlen bs <= zlen m /\ has m' p bs /\ forall c d, except m m' p (p + zlen bs) c d.
Proof.
  unfold wr. intros Hb H. destruct (Z.leb_spec 0 p); [|discriminate]. destruct (Z.leb_spec (p + zlen bs) (zlen m)); [|discriminate]. cbn [andb] in H. inversion H; subst m'.
  split; [assumption|]. split; [assumption|]. split; [apply bput_has; assumption|]. intros c d. split; [apply bput_len; assumption|].
  split; [intros; apply bput_bytes; assumption|]. intros q cs Hq Hd _. apply bput_keeps; assumption.
Qed.

Lemma has_except m m' a b c d q cs : except m m' a b c d -> has m q cs -> q + zlen cs <= a \/ b <= q -> q + zlen cs <= c \/ d <= q -> has m' q cs.
Proof. intros (_ & _ & H). apply H. Qed.

(** ** The elements *)

(** Bytes that stand inside [lo, hi). *)
Definition inside m lo hi p bs : Prop := has m p bs /\ lo <= p /\ p + zlen bs <= hi.

Section WRITER.
Context (fl : floats) (cr : creator).

Definition value_at m p (value : option (list Z)) (limit e : Z) : Prop :=
  p < e /\
  match value with
  | None => inside m p e p [XBT_NULL] /\ e = p + 1
  | Some v => inside m p e p [XBT_Detect v] /\
      exists st, XBT_FromString fl v (XBT_Detect v) (p + 1) limit = Ok st /\ inside m p e (st_pos st) (st_bytes st) /\ e = st_wp st
  end.

(** The type an attribute value is stored with, if it is not stored as text. *)
Definition attr_type (id : Z) (v : list Z) (ty : Z) : Prop :=
  exists ty0, (if 0 <=? s16 id then type_at (cr_params cr) (s16 id) else Ok XBT_UNKNOWN) = Ok ty0 /\ ty = XBT_Detect2 v ty0.

(** The record at [q] of the element at [x]; texts begin at [wp], the next one at [e]. *)
Definition attr_at m x q (a : list Z * list Z) (limit wp e : Z) : Prop :=
  wp <= e /\
  exists id, find_ (fst a) (cr_params cr) = Ok id /\ inside m q (q + 8) q (le 2 id) /\
  ((snd a = [] /\ inside m q (q + 8) (q + 2) [XBT_NULL] /\ inside m q (q + 8) (q + 4) (le 4 0) /\ e = wp)
   \/ (snd a <> [] /\ exists ty, attr_type id (snd a) ty /\
       ((XBT_Size2 ty 0 = Ok 4 /\ inside m q (q + 8) (q + 2) [ty] /\ e = wp /\
         exists st, XBT_FromString fl (snd a) ty (q + 4) limit = Ok st /\ inside m q (q + 8) (st_pos st) (st_bytes st))
        \/ ((XBT_Size2 ty 0 <> Ok 4 \/ XBT_FromString fl (snd a) ty (q + 4) limit = Fail) /\
            inside m q (q + 8) (q + 2) [XBT_STRING] /\ inside m q (q + 8) (q + 4) (le 4 (wp - x)) /\
            inside m wp e wp (snd a ++ [0]) /\ e = wp + zlen (snd a) + 1)))).
Fixpoint attrs_at m x q l limit wp e : Prop :=
  match l with
  | [] => e = wp
  | a :: r => exists e1, attr_at m x q a limit wp e1 /\ attrs_at m x (q + 8) r limit e1 e
  end.

Definition kids_at (P : Z -> Z -> node -> Prop) m x :=
  fix go c (l : list node) wp e {struct l} : Prop :=
    match l with
    | [] => e = wp
    | k :: r => exists e1, P (align_up 4 wp) e1 k /\ align_up 4 wp <= e1 /\ inside m c (c + 4) c (le 4 (align_up 4 wp - x)) /\ go (c + 4) r e1 e
    end.

Fixpoint node_at m limit x e (t : node) {struct t} : Prop :=
  let '(Node name value attrs kids) := t in
  exists id e1 e2, find_ name (cr_tags cr) = Ok id /\ x mod 4 = 0 /\ 0 <= x /\ zlen attrs <= 32767 /\ zlen kids <= INT_MAX /\
  inside m x (x + 8) x (le 2 id ++ le 2 (zlen attrs) ++ le 4 (zlen kids)) /\ inside m (x + 8) (x + 12) (x + 8) (le 4 (e - x)) /\
  value_at m (x + 12 + 8 * zlen attrs + 4 * zlen kids) value limit e1 /\
  attrs_at m x (x + 12) attrs limit e1 e2 /\
  kids_at (fun y e t => node_at m limit y e t) m x (x + 12 + 8 * zlen attrs) kids e2 e.

Lemma node_ind' (P : node -> Prop) : (forall n v a k, Forall P k -> P (Node n v a k)) -> forall t, P t.
Proof.
  intros H. fix IH 1. intros [n v a k]. apply H. induction k as [|t r IHr]; constructor; [apply IH|exact IHr].
Qed.

Lemma attrs_mono m x limit l : forall q wp e, attrs_at m x q l limit wp e -> wp <= e.
Proof. induction l as [|a l IH]; intros q wp e; cbn [attrs_at]; [lia|]. intros (e1 & (A & _) & B). apply IH in B. lia. Qed.
Lemma kids_mono P m x l : forall c wp e, kids_at P m x c l wp e -> wp <= e.
Proof.
  induction l as [|k l IH]; intros c wp e; cbn; [lia|]. intros (e1 & _ & A & _ & B). apply IH in B. pose proof (align_up_ge 4 wp ltac:(lia)). lia.
Qed.
Lemma node_mono m limit t x e : node_at m limit x e t -> x + 13 <= e /\ x mod 4 = 0 /\ 0 <= x.
Proof.
  destruct t as [name value attrs kids]. cbn [node_at]. intros (id & e1 & e2 & _ & X & X0 & _ & _ & _ & _ & (V & _) & A & K).
  apply attrs_mono in A. apply kids_mono in K. pose proof (zlen_nonneg attrs). pose proof (zlen_nonneg kids). lia.
Qed.

(** ** Framing *)
Definition moves m m' lo hi : Prop := forall q cs, has m q cs -> lo <= q -> q + zlen cs <= hi -> has m' q cs.
Lemma moves_in m m' lo hi lo' hi' : moves m m' lo hi -> lo <= lo' -> hi' <= hi -> moves m m' lo' hi'.
Proof. intros S A B q cs H C D. apply S; [exact H|lia|lia]. Qed.
Lemma inside_frame m m' lo hi p bs : moves m m' lo hi -> inside m lo hi p bs -> inside m' lo hi p bs.
Proof. intros S (H & A & B). split; [apply S; assumption|lia]. Qed.
Lemma value_frame m m' p v limit e : moves m m' p e -> value_at m p v limit e -> value_at m' p v limit e.
Proof.
  intros S. unfold value_at. intros (L & H). split; [exact L|]. destruct v as [v|].
  - destruct H as (A & st & B & C & D). split; [eapply inside_frame; eassumption|]. exists st. split; [exact B|]. split; [eapply inside_frame; eassumption|exact D].
  - destruct H as (A & B). split; [eapply inside_frame; eassumption|exact B].
Qed.
Lemma attr_frame m m' x q a limit wp e : moves m m' q (q + 8) -> moves m m' wp e ->
  attr_at m x q a limit wp e -> attr_at m' x q a limit wp e.
Proof.
  intros S S' (L & id & A & B & C). split; [exact L|]. exists id. split; [exact A|]. split; [eapply inside_frame; eassumption|].
  destruct C as [(C & D & E & F)|(C & ty & T & D)]; [left|right].
  - split; [exact C|]. split; [eapply inside_frame; eassumption|]. split; [eapply inside_frame; eassumption|exact F].
  - split; [exact C|]. exists ty. split; [exact T|]. destruct D as [(D & E & F & st & G & I)|(D & E & F & G & I)]; [left|right].
    + split; [exact D|]. split; [eapply inside_frame; eassumption|]. split; [exact F|]. exists st. split; [exact G|eapply inside_frame; eassumption].
    + split; [exact D|]. repeat (split; [eapply inside_frame; eassumption|]). exact I.
Qed.
Lemma attrs_frame m m' x limit l : forall q wp e, moves m m' q (q + 8 * zlen l) -> moves m m' wp e ->
  attrs_at m x q l limit wp e -> attrs_at m' x q l limit wp e.
Proof.
  induction l as [|a l IH]; intros q wp e S S'; cbn [attrs_at]; [auto|]. rewrite zlen_cons in S. pose proof (zlen_nonneg l).
  intros (e1 & A & B). pose proof (attrs_mono _ _ _ _ _ _ _ B). pose proof (proj1 A). exists e1.
  split; [eapply attr_frame; [eapply moves_in; [exact S|lia|lia]|eapply moves_in; [exact S'|lia|lia]|exact A]|].
  apply IH; [eapply moves_in; [exact S|lia|lia]|eapply moves_in; [exact S'|lia|lia]|exact B].
Qed.
Lemma kids_frame (P P' : Z -> Z -> node -> Prop) m m' x l : forall c wp e, moves m m' c (c + 4 * zlen l) ->
  Forall (fun k => forall y e1, wp <= y -> e1 <= e -> P y e1 k -> P' y e1 k) l ->
  kids_at P m x c l wp e -> kids_at P' m' x c l wp e.
Proof.
  induction l as [|k l IH]; intros c wp e S F; cbn; [auto|]. rewrite zlen_cons in S. pose proof (zlen_nonneg l).
  intros (e1 & A & L & B & R). pose proof (kids_mono _ _ _ _ _ _ _ R). pose proof (align_up_ge 4 wp ltac:(lia)). inversion F; subst.
  exists e1. split; [apply H4; [lia|lia|exact A]|]. split; [exact L|].
  split; [eapply inside_frame; [eapply moves_in; [exact S|lia|lia]|exact B]|].
  apply IH; [eapply moves_in; [exact S|lia|lia]| |exact R]. eapply Forall_impl; [|exact H5]. intros t Ht y e3 Hy He. apply Ht; lia.
Qed.
Lemma node_frame m m' limit t : forall x e, moves m m' x e -> node_at m limit x e t -> node_at m' limit x e t.
Proof.
  induction t as [name value attrs kids IH] using node_ind'. intros x e S. cbn [node_at].
  intros (id & e1 & e2 & F & X & X0 & PC & CC & H1 & H2 & V & A & K). pose proof (attrs_mono _ _ _ _ _ _ _ A). pose proof (kids_mono _ _ _ _ _ _ _ K).
  pose proof (proj1 V). pose proof (zlen_nonneg attrs). pose proof (zlen_nonneg kids).
  exists id, e1, e2. split; [exact F|]. split; [exact X|]. split; [exact X0|]. split; [exact PC|]. split; [exact CC|].
  split; [eapply inside_frame; [eapply moves_in; [exact S|lia|lia]|exact H1]|]. split; [eapply inside_frame; [eapply moves_in; [exact S|lia|lia]|exact H2]|].
  split; [eapply value_frame; [eapply moves_in; [exact S|lia|lia]|exact V]|].
  split; [eapply attrs_frame; [eapply moves_in; [exact S|lia|lia]|eapply moves_in; [exact S|lia|lia]|exact A]|].
  eapply kids_frame; [eapply moves_in; [exact S|lia|lia]| |exact K]. eapply Forall_impl; [|exact IH]. intros k Hk y e3 L U Hn. apply Hk; [|exact Hn].
  eapply moves_in; [exact S|lia|lia].
Qed.
Lemma except_moves m m' a b c d lo hi : except m m' a b c d -> hi <= a \/ b <= lo -> hi <= c \/ d <= lo -> moves m m' lo hi.
Proof. intros (_ & _ & H) A B q cs Hq Hl Hh. apply H; [exact Hq|lia|lia]. Qed.

(** ** Values *)
Lemma from_pos v ty wp limit st : cstring v -> 0 <= wp -> XBT_FromString fl v ty wp limit = Ok st ->
  wp <= st_pos st <= wp + 7 /\ st_wp st = st_pos st + zlen (st_bytes st) /\ bytes (st_bytes st).
Proof.
  intros Hv Hw. pose proof (align_up_ge 4 wp ltac:(lia)). pose proof (align_up_ge 8 wp ltac:(lia)).
  assert (A4 : align_up 4 wp <= wp + 7) by (unfold align_up; lia). assert (A8 : align_up 8 wp <= wp + 7) by (unfold align_up; lia).
  assert (D : forall p n v' st', p = align_up 4 wp \/ p = align_up 8 wp -> Ok (mkstored p (le n v') (p + zlen (le n v'))) = Ok st' ->
    wp <= st_pos st' <= wp + 7 /\ st_wp st' = st_pos st' + zlen (st_bytes st') /\ bytes (st_bytes st')).
  { intros p n v' st' Hp E. inversion E. cbn [st_pos st_wp st_bytes]. split; [lia|]. split; [reflexivity|apply le_bytes]. }
  assert (X : forall n, bytes (snd (fst (ScanHex v n)))).
  { intros n. assert (E : ScanHex v n = ScanHex v (Z.max 0 n)).
    { unfold ScanHex. destruct v; [reflexivity|]. replace (Z.to_nat (Z.max 0 n)) with (Z.to_nat n) by lia. reflexivity. }
    rewrite E. pose proof (ScanHex_bound v (Z.max 0 n) ltac:(lia)) as B. destruct (ScanHex v (Z.max 0 n)) as [[c bs] r]. apply B. }
  assert (F : forall bs, bytes bs -> Ok (mkstored (align_up 4 wp) bs (align_up 4 wp + zlen bs)) = Ok st ->
    wp <= st_pos st <= wp + 7 /\ st_wp st = st_pos st + zlen (st_bytes st) /\ bytes (st_bytes st)).
  { intros bs B E. inversion E. cbn [st_pos st_wp st_bytes]. split; [lia|]. split; [reflexivity|exact B]. }
  unfold XBT_FromString. cbv zeta.
  repeat match goal with
  | |- match v with _ => _ end = Ok st -> _ => destruct v
  | |- (let '(_, _) := ScanHex v ?n in _) = Ok st -> _ => specialize (X n); destruct (ScanHex v n) as [[? ?] ?]; cbn [fst snd] in X
  | |- (if ?b then _ else _) = Ok st -> _ => destruct b
  | |- obind ?o _ = Ok st -> _ => destruct o as [?| |]; cbn [obind]; [|discriminate|discriminate]
  | |- (let '(_, _) := ?p in _) = Ok st -> _ => destruct p
  | |- Fail = Ok st -> _ => discriminate
  | |- Ub = Ok st -> _ => discriminate
  end; try (eapply D; auto; fail); try (apply F; first [exact X | apply bytes_app; split; [apply le_bytes|exact X]]).
  - intros E. inversion E. cbn [st_pos st_wp st_bytes]. change (zlen (@nil Z)) with 0. split; [lia|]. split; [lia|constructor].
  - intros E. inversion E. cbn [st_pos st_wp st_bytes]. split; [lia|]. split; [reflexivity|]. apply bytes_app. split; [apply cstring_bytes, Hv|repeat constructor; lia].
Qed.


(** A value of a type of four bytes, stored in place: four bytes, except for HEX and BLOB. *)
Lemma from_four v ty wp limit st : XBT_Size2 ty 0 = Ok 4 -> ty <> XBT_HEX -> wp mod 4 = 0 -> XBT_FromString fl v ty wp limit = Ok st ->
  st_pos st = wp /\ zlen (st_bytes st) = 4.
Proof.
  intros Hs Hh Ha H. assert (A : align_up 4 wp = wp) by (apply align_up_id; [lia|exact Ha]).
  assert (C : In ty [XBT_INT32; XBT_UINT32; XBT_INT32_DECI; XBT_INT32_CENTI; XBT_INT32_MILI; XBT_INT32_MICRO; XBT_INT32_NANO;
                   XBT_FLOAT; XBT_UNIX_TIME; XBT_UNIX_DATE; XBT_IPv4; XBT_BLOB; XBT_BLOB_STRING]).
  { unfold XBT_Size2 in Hs. cbv zeta in Hs. change (0 =? 0) with true in Hs. cbn [orb] in Hs. cbn [In].
    destruct (isin ty [XBT_NULL; XBT_UNKNOWN; XBT_LAST]); [discriminate Hs|]. destruct (ty =? XBT_VARIANT); [discriminate Hs|].
    destruct (ty =? XBT_STRING); [discriminate Hs|]. destruct (Z.eqb_spec ty XBT_BLOB_STRING) as [E|_]; [rewrite E; intuition|].
    destruct (isin ty [XBT_BLOB; XBT_HEX]) eqn:E1; [apply isin_true in E1; cbn [In] in E1; intuition congruence|].
    match type of Hs with (if ?b then _ else _) = _ => destruct b eqn:E2 end; [apply isin_true in E2; cbn [In] in E2; clear - E2; tauto|].
    repeat (match type of Hs with (if ?b then _ else _) = _ => destruct b end; [discriminate Hs|]). discriminate Hs. }
  assert (D : forall x st', Ok (mkstored (align_up 4 wp) (le 4 x) (align_up 4 wp + zlen (le 4 x))) = Ok st' -> st_pos st' = wp /\ zlen (st_bytes st') = 4).
  { intros x st' E. inversion E. cbn [st_pos st_bytes]. split; [exact A|reflexivity]. }
  cbn [In] in C. unfold XBT_FromString in H. cbv zeta in H.
  repeat (destruct C as [<-|C];
    [repeat (match type of H with (if ?b then _ else _) = _ => change b with false in H || change b with true in H; cbv iota in H end);
     try discriminate H;
     repeat match type of H with
     | obind ?o _ = _ => destruct o as [?| |]; cbn [obind] in H; [|discriminate H|discriminate H]
     | (let '(_, _) := ?p in _) = _ => destruct p
     end; try discriminate H; eapply D, H|]).
  contradiction.
Qed.

Lemma detect_type v : 0 <= XBT_Detect v < 25.
Proof.
  pose proof (Detect_range v) as R. assert (F : forallb (fun t => (0 <=? t) && (t <? 25)) text_types = true) by reflexivity.
  rewrite forallb_forall in F. specialize (F _ R). lia.
Qed.

Lemma store_value_ok m wp value m' wp' : (forall v, value = Some v -> cstring v) -> 0 <= wp ->
  store_value fl m wp value = Ok (m', wp') ->
  wp < wp' /\ except m m' wp wp' wp wp' /\ value_at m' wp value (zlen m) wp' /\ wp' <= zlen m.
Proof.
  intros Hc Hw H. destruct value as [v|]; cbn [store_value] in H; cbv zeta in H.
  - destruct (wr m wp [XBT_Detect v]) as [m1| |] eqn:E1; cbn [obind] in H; try discriminate H.
    assert (T : bytes [XBT_Detect v]).
    { constructor; [|constructor]. pose proof (detect_type v). unfold is_byte. lia. }
    destruct (wr_ok _ _ _ _ T E1) as (A1 & A2 & A3 & A4). change (zlen [XBT_Detect v]) with 1 in *.
    destruct (XBT_FromString fl v (XBT_Detect v) (wp + 1) (zlen m1)) as [st| |] eqn:E2; cbn [obind] in H; try discriminate H.
    destruct (wr m1 (st_pos st) (st_bytes st)) as [m2| |] eqn:E3; cbn [obind] in H; try discriminate H. inversion H; subst m' wp'. clear H.
    assert (W1 : 0 <= wp + 1) by lia. destruct (from_pos _ _ _ _ _ (Hc v eq_refl) W1 E2) as (P1 & P2 & P3).
    destruct (wr_ok _ _ _ _ P3 E3) as (B1 & B2 & B3 & B4). pose proof (zlen_nonneg (st_bytes st)). rewrite P2.
    pose proof (A4 wp (wp + 1)) as X1. pose proof (B4 (st_pos st) (st_pos st + zlen (st_bytes st))) as X2.
    assert (L1 : zlen m1 = zlen m) by apply X1.
    split; [lia|]. split; [eapply except_trans; [exact X1|exact X2|lia|lia|lia|lia]|]. split; [|lia]. unfold value_at. split; [lia|].
    split; [split; [|change (zlen [XBT_Detect v]) with 1; lia]; eapply has_except; [exact X2|exact A3|change (zlen [XBT_Detect v]) with 1; lia|change (zlen [XBT_Detect v]) with 1; lia]|].
    exists st. rewrite L1 in E2. split; [exact E2|]. split; [split; [exact B3|lia]|lia].
  - destruct (wr m wp [XBT_NULL]) as [m1| |] eqn:E1; cbn [obind] in H; try discriminate H. inversion H; subst m' wp'. clear H.
    assert (T : bytes [XBT_NULL]) by (constructor; [unfold is_byte, XBT_NULL; lia|constructor]).
    destruct (wr_ok _ _ _ _ T E1) as (A1 & A2 & A3 & A4). change (zlen [XBT_NULL]) with 1 in *.
    split; [lia|]. split; [apply A4|]. split; [|lia]. unfold value_at. split; [lia|]. split; [|reflexivity]. split; [exact A3|]. change (zlen [XBT_NULL]) with 1. lia.
Qed.

Lemma join_type a b : 0 <= a < 256 -> 0 <= b < 256 -> 0 <= XBT_JoinTypes a b < 256.
Proof.
  intros Ha Hb. unfold XBT_JoinTypes. cbv zeta.
  repeat match goal with |- context [if ?c then _ else _] => destruct c; [try assumption|] end; try assumption;
  try (unfold XBT_VARIANT, XBT_INT32_NANO, XBT_INT32_MICRO, XBT_INT32_MILI, XBT_INT32_CENTI, XBT_INT32_DECI, XBT_INT32; lia).
  unfold num_mask. repeat match goal with |- context [if ?c then _ else _] => destruct c end; vm_compute; split; congruence.
Qed.
Lemma join_hex a b : XBT_JoinTypes a b = XBT_HEX -> a = XBT_HEX \/ b = XBT_HEX.
Proof.
  unfold XBT_JoinTypes. cbv zeta.
  repeat match goal with |- (if ?c then _ else _) = _ -> _ => destruct c; [try (intros ->; auto; fail)|] end; try (intros ->; auto; fail);
  try (intros E; vm_compute in E; discriminate E).
  unfold num_mask. repeat match goal with |- context [if ?c then _ else _] => destruct c end; intros E; vm_compute in E; discriminate E.
Qed.

Definition types_ok (t : table) : Prop := forall n ty, In (n, ty) t -> 0 <= ty < 256 /\ ty <> XBT_HEX.
Lemma attr_type_ok id v ty : types_ok (cr_params cr) -> XBT_Detect v <> XBT_HEX -> attr_type id v ty -> 0 <= ty < 256 /\ ty <> XBT_HEX.
Proof.
  intros T D (ty0 & A & ->). assert (B : 0 <= ty0 < 256 /\ ty0 <> XBT_HEX).
  { destruct (0 <=? s16 id).
    - unfold type_at in A. destruct (s16 id <? 0); [discriminate A|]. destruct (nth_error _ _) as [[n t]|] eqn:E; [|discriminate A].
      inversion A; subst t. apply (T n). eapply nth_error_In, E.
    - inversion A. split; [unfold XBT_UNKNOWN; lia|discriminate]. }
  unfold XBT_Detect2. destruct (ty0 =? XBT_VARIANT) eqn:E; [exact B|]. pose proof (detect_type v). split; [apply join_type; lia|].
  intros F. apply join_hex in F. tauto.
Qed.

Lemma one_byte b : 0 <= b < 256 -> bytes [b].
Proof. intros H. constructor; [exact H|constructor]. Qed.
Lemma cstr0_bytes v : cstring v -> bytes (v ++ [0]).
Proof. intros H. apply bytes_app. split; [apply cstring_bytes, H|apply one_byte; lia]. Qed.

Tactic Notation "step" hyp(H) ident(E) simple_intropattern(n) := match type of H with obind ?o _ = _ => destruct o as [n| |] eqn:E; cbn [obind] in H; try discriminate H end.

Lemma store_param_ok m wp x q a m' wp' : types_ok (cr_params cr) -> XBT_Detect (snd a) <> XBT_HEX -> cstring (snd a) ->
  q mod 4 = 0 -> q + 8 <= wp ->
  store_param fl cr m wp x q a = Ok (m', wp') ->
  wp <= wp' <= Z.max wp (zlen m) /\ except m m' q (q + 8) wp wp' /\
  attr_at m' x q a (zlen m) wp wp'.
Proof.
  intros T D C Q W H. destruct a as [name v]. cbn [fst snd] in *. unfold store_param in H.
  step H E1 id. step H E2 m1.
  destruct (wr_ok _ _ _ _ (le_bytes _ _) E2) as (A1 & A2 & A3 & A4). rewrite le_zlen in *. change (Z.of_nat 2) with 2 in *.
  pose proof (A4 q (q + 2)) as X1. assert (L1 : zlen m1 = zlen m) by apply X1.
  assert (Hv : v = [] \/ v <> []) by (destruct v; [left; reflexivity|right; discriminate]). destruct Hv as [->|Hv].
  - step H E3 m2. step H E4 m3. inversion H; subst m' wp'. clear H.
    destruct (wr_ok _ _ _ _ (one_byte XBT_NULL ltac:(unfold XBT_NULL; lia)) E3) as (B1 & B2 & B3 & B4). change (zlen [XBT_NULL]) with 1 in *.
    destruct (wr_ok _ _ _ _ (le_bytes _ _) E4) as (C1 & C2 & C3 & C4). rewrite le_zlen in *. change (Z.of_nat 4) with 4 in *.
    pose proof (B4 q (q + 3)) as X2. pose proof (C4 q (q + 8)) as X3.
    assert (X : except m1 m3 (q + 2) (q + 8) (q + 2) (q + 8)).
    { eapply except_trans; [apply (B4 (q + 2) (q + 3))|apply (C4 (q + 4) (q + 8))|lia|lia|lia|lia]. }
    split; [lia|]. split; [eapply except_trans; [exact X1|exact X|lia|lia|lia|lia]|]. split; [lia|]. exists id. cbn [fst snd].
    split; [exact E1|]. split; [split; [eapply has_except; [exact X|exact A3|rewrite le_zlen; lia|rewrite le_zlen; lia]|rewrite le_zlen; lia]|].
    left. split; [reflexivity|]. split; [split; [eapply has_except; [apply (C4 (q + 4) (q + 8))|exact B3| |]|]; change (zlen [XBT_NULL]) with 1; lia|].
    split; [split; [exact C3|rewrite le_zlen; lia]|reflexivity].
  - assert (H' : obind (if 0 <=? s16 id then type_at (cr_params cr) (s16 id) else Ok XBT_UNKNOWN) (fun ty0 =>
      let ty := XBT_Detect2 v ty0 in
      obind (XBT_Size2 ty 0) (fun size =>
      let as_text :=
        obind (wr m1 (q + 2) [XBT_STRING]) (fun m => obind (wr m (q + 4) (le 4 (wp - x))) (fun m =>
        obind (wr m wp (v ++ [0])) (fun m => Ok (m, wp + zlen v + 1)))) in
      if size =? 4 then
        match XBT_FromString fl v ty (q + 4) (zlen m1) with
        | Ok st => obind (wr m1 (st_pos st) (st_bytes st)) (fun m => obind (wr m (q + 2) [ty]) (fun m => Ok (m, wp)))
        | Fail => as_text
        | Ub => Ub
        end
      else as_text)) = Ok (m', wp')) by (destruct v; [contradiction|exact H]). clear H.
    step H' E3 ty0. cbv zeta in H'. set (ty := XBT_Detect2 v ty0) in *.
    assert (AT : attr_type id v ty) by (exists ty0; auto). destruct (attr_type_ok id v ty T D AT) as [Tb Th].
    step H' E4 size.
    assert (TX : (XBT_Size2 ty 0 <> Ok 4 \/ XBT_FromString fl v ty (q + 4) (zlen m) = Fail) ->
      obind (wr m1 (q + 2) [XBT_STRING]) (fun m => obind (wr m (q + 4) (le 4 (wp - x))) (fun m =>
        obind (wr m wp (v ++ [0])) (fun m => Ok (m, wp + zlen v + 1)))) = Ok (m', wp') ->
      wp <= wp' <= Z.max wp (zlen m) /\ except m m' q (q + 8) wp wp' /\
      attr_at m' x q (name, v) (zlen m) wp wp').
    { clear H'. intros Why H. step H F1 m2. step H F2 m3. step H F3 m4. inversion H; subst m' wp'. clear H.
      destruct (wr_ok _ _ _ _ (one_byte XBT_STRING ltac:(unfold XBT_STRING; lia)) F1) as (B1 & B2 & B3 & B4). change (zlen [XBT_STRING]) with 1 in *.
      destruct (wr_ok _ _ _ _ (le_bytes _ _) F2) as (C1 & C2 & C3 & C4). rewrite le_zlen in *. change (Z.of_nat 4) with 4 in *.
      destruct (wr_ok _ _ _ _ (cstr0_bytes v C) F3) as (D1 & D2 & D3 & D4). rewrite zlen_app in *. change (zlen [0]) with 1 in *.
      pose proof (zlen_nonneg v).
      pose proof (B4 (q + 2) (q + 3)) as X2. pose proof (C4 (q + 4) (q + 8)) as X3. pose proof (D4 wp (wp + (zlen v + 1))) as X4.
      assert (L2 : zlen m2 = zlen m1) by apply X2. assert (L3 : zlen m3 = zlen m2) by apply X3.
      assert (Y3 : except m2 m4 (q + 4) (q + 8) wp (wp + (zlen v + 1))).
      { eapply except_trans; [exact X3|exact X4|lia|lia|lia|lia]. }
      assert (Y2 : except m1 m4 (q + 2) (q + 8) wp (wp + (zlen v + 1))).
      { eapply except_trans; [exact X2|exact Y3|lia|lia|lia|lia]. }
      split; [lia|]. split; [eapply except_trans; [exact X1|exact Y2|lia|lia|lia|lia]|]. split; [lia|]. exists id. cbn [fst snd].
      split; [exact E1|]. split; [split; [eapply has_except; [exact Y2|exact A3|rewrite le_zlen; lia|rewrite le_zlen; lia]|rewrite le_zlen; lia]|].
      right. split; [exact Hv|]. exists ty. split; [exact AT|]. right. split; [exact Why|].
      split; [split; [eapply has_except; [exact Y3|exact B3| |]|]; change (zlen [XBT_STRING]) with 1; lia|].
      split; [split; [eapply has_except; [exact X4|exact C3| |]|]; rewrite le_zlen; lia|].
      split; [split; [exact D3|rewrite zlen_app; change (zlen [0]) with 1; lia]|lia]. }
    destruct (Z.eqb_spec size 4) as [->|Hs4]; [|apply TX; [left; congruence|exact H']].
    rewrite L1 in H'. destruct (XBT_FromString fl v ty (q + 4) (zlen m)) as [st| |] eqn:E5; [|apply TX; [right; reflexivity|exact H']|discriminate H'].
    clear TX. assert (Q1 : (q + 4) mod 4 = 0) by lia. assert (Q2 : 0 <= q + 4) by lia.
    destruct (from_four _ _ _ _ _ E4 Th Q1 E5) as [P1 P2]. destruct (from_pos _ _ _ _ _ C Q2 E5) as (_ & _ & P3).
    rewrite P1 in H'. step H' F1 m2. step H' F2 m3. inversion H'; subst m' wp'. clear H'.
    destruct (wr_ok _ _ _ _ P3 F1) as (B1 & B2 & B3 & B4). rewrite P2 in *.
    destruct (wr_ok _ _ _ _ (one_byte ty Tb) F2) as (C1 & C2 & C3 & C4). change (zlen [ty]) with 1 in *.
    pose proof (B4 (q + 4) (q + 8)) as X2. pose proof (C4 (q + 2) (q + 3)) as X3.
    assert (Y2 : except m1 m3 (q + 2) (q + 8) (q + 2) (q + 8)).
    { eapply except_trans; [exact X2|exact X3|lia|lia|lia|lia]. }
    split; [lia|]. split; [eapply except_trans; [exact X1|exact Y2|lia|lia|lia|lia]|]. split; [lia|]. exists id. cbn [fst snd].
    split; [exact E1|]. split; [split; [eapply has_except; [exact Y2|exact A3|rewrite le_zlen; lia|rewrite le_zlen; lia]|rewrite le_zlen; lia]|].
    right. split; [exact Hv|]. exists ty. split; [exact AT|]. left. split; [exact E4|].
    split; [split; [exact C3|change (zlen [ty]) with 1; lia]|]. split; [reflexivity|]. exists st. split; [exact E5|]. rewrite P1.
    split; [eapply has_except; [exact X3|exact B3| |]|]; lia.
Qed.

Lemma store_params_ok x l : types_ok (cr_params cr) -> (forall n v, In (n, v) l -> XBT_Detect v <> XBT_HEX /\ cstring v) ->
  forall m wp q m' wp', q mod 4 = 0 -> q + 8 * zlen l <= wp -> store_params fl cr m wp x q l = Ok (m', wp') ->
  wp <= wp' <= Z.max wp (zlen m) /\ except m m' q (q + 8 * zlen l) wp wp' /\ attrs_at m' x q l (zlen m) wp wp'.
Proof.
  intros T. induction l as [|[n v] l IH]; intros Hl m wp q m' wp' Q W H; cbn [store_params attrs_at] in *.
  - inversion H; subst m' wp'. split; [lia|]. split; [apply except_refl|reflexivity].
  - rewrite zlen_cons in *. pose proof (zlen_nonneg l). step H E [m1 wp1].
    destruct (Hl n v (or_introl eq_refl)) as [D C].
    destruct (store_param_ok m wp x q (n, v) m1 wp1 T D C Q ltac:(lia) E) as (A1 & A2 & A3). assert (L1 : zlen m1 = zlen m) by apply A2.
    destruct (IH (fun n v Hin => Hl n v (or_intror Hin)) m1 wp1 (q + 8) m' wp') as (B1 & B2 & B3); [lia|lia|exact H|].
    rewrite L1 in *. split; [lia|]. split; [eapply except_trans; [exact A2|exact B2|lia|lia|lia|lia]|].
    exists wp1. split; [|exact B3]. eapply attr_frame; [| |exact A3]; eapply except_moves; try exact B2; lia.
Qed.

Lemma elements_kids n v a k t u : In t k -> In u (elements t) -> In u (elements (Node n v a k)).
Proof. intros H1 H2. right. apply in_flat_map. exists t. auto. Qed.

Lemma WriteNode_ok t : types_ok (cr_params cr) -> (forall u, In u (elements t) -> element_fits u /\ no_hex_attr u) ->
  forall m wp m' wp' x, 0 <= wp -> WriteNode fl cr m wp t = Ok (m', wp', x) ->
  x = align_up 4 wp /\ x < wp' <= zlen m /\ except m m' x wp' x wp' /\ node_at m' (zlen m) x wp' t.
Proof.
  intros T. induction t as [name value attrs kids IH] using node_ind'. intros G m wp m' wp' x Hw H. cbn [WriteNode] in H.
  destruct (G _ (or_introl eq_refl)) as [(Hn & Hv & Ha & Hpc & Hcc) Hx]. cbn [name_of value_of attrs_of kids_of] in *. unfold no_hex_attr in Hx. cbn [attrs_of] in Hx.
  step H E1 id. set (X := align_up 4 wp) in *. assert (X4 : X mod 4 = 0) by (apply align_up_mod; lia). pose proof (align_up_ge 4 wp ltac:(lia)) as Xg. fold X in Xg.
  pose proof (zlen_nonneg attrs). pose proof (zlen_nonneg kids).
  assert (PC : s16 (zlen attrs) = zlen attrs) by (unfold s16; lia). assert (CC : s32 (zlen kids) = zlen kids) by (unfold s32, INT_MAX in *; lia).
  rewrite PC, CC in H. step H E2 m1.
  assert (Bh : bytes (le 2 id ++ le 2 (zlen attrs) ++ le 4 (zlen kids))) by (rewrite !bytes_app; repeat split; apply le_bytes).
  destruct (wr_ok _ _ _ _ Bh E2) as (A1 & A2 & A3 & A4). rewrite !zlen_app, !le_zlen in *. change (Z.of_nat 2 + (Z.of_nat 2 + Z.of_nat 4)) with 8 in *.
  set (c := X + 12 + 8 * zlen attrs) in *. step H E3 [m2 wp2].
  destruct (store_value_ok m1 (c + 4 * zlen kids) value m2 wp2 Hv ltac:(lia) E3) as (B1 & B2 & B3 & B4).
  pose proof (A4 X (X + 8)) as X1. assert (L1 : zlen m1 = zlen m) by apply X1. assert (L2 : zlen m2 = zlen m1) by apply B2.
  step H E4 [m3 wp3].
  destruct (store_params_ok X attrs T (fun n v Hin => conj (Hx n v Hin) (proj2 (Ha n v Hin))) m2 wp2 (X + 12) m3 wp3 ltac:(lia) ltac:(lia) E4) as (C1 & C2 & C3).
  assert (L3 : zlen m3 = zlen m2) by apply C2.
  step H E5 [m4 wp4]. step H E6 m5. inversion H; subst m' wp' x. clear H.
  assert (K : forall l, (forall k, In k l -> In k kids) -> forall m wp c m' wp', X < wp -> c + 4 * zlen l <= wp -> wp <= zlen m -> X <= c ->
     store_children (fun m wp t => WriteNode fl cr m wp t) X m wp c l = Ok (m', wp') ->
     wp <= wp' <= zlen m /\ except m m' c (c + 4 * zlen l) wp wp' /\ kids_at (fun y e t => node_at m' (zlen m) y e t) m' X c l wp wp').
  { clear - IH G T Xg Hw. induction l as [|k l IHl]; intros Hk m wp1 c m' wp' Hwp Hc Hz Hcx H.
    - cbn in H. inversion H; subst. cbn [kids_at]. split; [lia|]. split; [apply except_refl|reflexivity].
    - cbn [store_children] in H. rewrite zlen_cons in *. pose proof (zlen_nonneg l). step H E1 [[m1 wp2] y]. step H E2 m2.
      rewrite Forall_forall in IH. pose proof (Hk k (or_introl eq_refl)) as Hin.
      destruct (IH k Hin (fun u Hu => G u (elements_kids _ _ _ _ _ _ Hin Hu)) m wp1 m1 wp2 y ltac:(lia) E1) as (A1 & A2 & A3 & A4).
      pose proof (align_up_ge 4 wp1 ltac:(lia)) as Yg.
      destruct (wr_ok _ _ _ _ (le_bytes _ _) E2) as (B1 & B2 & B3 & B4). rewrite le_zlen in *. change (Z.of_nat 4) with 4 in *.
      pose proof (B4 c (c + 4)) as X2. assert (L1 : zlen m1 = zlen m) by apply A3. assert (L2 : zlen m2 = zlen m1) by apply X2.
      destruct (IHl (fun k Hin => Hk k (or_intror Hin)) m2 wp2 (c + 4) m' wp') as (C1 & C2 & C3); [lia|lia|lia|lia|exact H|].
      assert (L3 : zlen m' = zlen m2) by apply C2.
      assert (Y : except m1 m' c (c + 4 * (1 + zlen l)) wp2 wp') by (eapply except_trans; [exact X2|exact C2|lia|lia|lia|lia]).
      split; [lia|]. split; [eapply except_trans; [exact A3|exact Y|lia|lia|lia|lia]|].
      exists wp2. rewrite <- A1. split; [eapply node_frame; [|exact A4]; eapply except_moves; [exact Y|lia|lia]|]. split; [lia|].
      split; [split; [|rewrite le_zlen; lia]; eapply has_except; [exact C2|exact B3|rewrite le_zlen; lia|rewrite le_zlen; lia]|].
      replace (zlen m) with (zlen m2) by lia. exact C3. }
  destruct (K kids (fun k Hin => Hin) m3 wp3 c m4 wp4 ltac:(lia) ltac:(lia) ltac:(lia) ltac:(lia) E5) as (D1 & D2 & D3).
  assert (L4 : zlen m4 = zlen m3) by apply D2.
  destruct (wr_ok _ _ _ _ (le_bytes _ _) E6) as (F1 & F2 & F3 & F4). rewrite le_zlen in *. change (Z.of_nat 4) with 4 in *.
  pose proof (F4 (X + 8) (X + 12)) as X6. assert (L5 : zlen m5 = zlen m4) by apply X6.
  assert (Z3 : except m3 m5 (X + 8) wp4 (X + 8) wp4) by (eapply except_trans; [exact D2|exact X6|lia|lia|lia|lia]).
  assert (Z2 : except m2 m5 (X + 8) wp4 (X + 8) wp4) by (eapply except_trans; [exact C2|exact Z3|lia|lia|lia|lia]).
  assert (Z1 : except m1 m5 (X + 8) wp4 (X + 8) wp4) by (eapply except_trans; [exact B2|exact Z2|lia|lia|lia|lia]).
  split; [reflexivity|]. split; [lia|]. split; [eapply except_trans; [exact X1|exact Z1|lia|lia|lia|lia]|].
  cbn [node_at]. exists id, wp2, wp3. split; [exact E1|]. split; [exact X4|]. split; [lia|]. split; [exact Hpc|]. split; [exact Hcc|].
  assert (L8 : zlen (le 2 id ++ le 2 (zlen attrs) ++ le 4 (zlen kids)) = 8) by (rewrite !zlen_app, !le_zlen; reflexivity).
  split; [split; [eapply has_except; [exact Z1|exact A3|rewrite L8; lia|rewrite L8; lia]|rewrite L8; lia]|].
  split; [split; [exact F3|rewrite le_zlen; lia]|]. fold c.
  replace (zlen m) with (zlen m1) by lia.
  split; [eapply value_frame; [|exact B3]; intros q cs Hq Ql Qh; eapply has_except; [exact X6| |lia|lia]; eapply has_except; [exact D2| |lia|lia]; eapply has_except; [exact C2|exact Hq|lia|lia]|].
  split; [replace (zlen m1) with (zlen m2) by lia; eapply attrs_frame; [| |exact C3]; intros q cs Hq Ql Qh; (eapply has_except; [exact X6| |lia|lia]); (eapply has_except; [exact D2|exact Hq|lia|lia])|].
  replace (zlen m1) with (zlen m3) by lia. eapply kids_frame; [|apply Forall_forall; intros k _ y e1 Hy He Hk|exact D3].
  - eapply except_moves; [exact X6|lia|lia].
  - eapply node_frame; [|exact Hk]. eapply except_moves; [exact X6|lia|lia].
Qed.

End WRITER.
