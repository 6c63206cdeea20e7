(** The packed image of a document. *)
From Verif Require Import Base BaseFacts ListFacts Types CalSpec RingProofs RoundtripProofs Sort SortProofs Sha1Spec Sha1 Symtab SymtabSpec SymtabProofs
  Xb XbSpec XbFacts XbSymProofs XbWrite DocSpec ReadSpec NavSpec WriteProofs FillProofs InitProofs OpenProofs ReadProofs NavProofs AppendProofs Packer PackFacts MarkProofs PackProofs.

(** ** Moving a symbol table *)
Lemma names_shift m m' d x lo hi t : shifts m m' d lo hi -> forall refs types wp e, lo <= refs -> refs + 4 * zlen t <= hi -> lo <= types -> types + zlen t <= hi -> lo <= wp -> e <= hi ->
  names_at m x refs types t wp e -> names_at m' (x + d) (refs + d) (types + d) t (wp + d) (e + d).
Proof.
  intros S. induction t as [|[n ty] t IH]; intros refs types wp e R1 R2 T1 T2 W1 W2; cbn [names_at]; [lia|]. rewrite zlen_cons in *. pose proof (zlen_nonneg t). pose proof (zlen_nonneg n).
  intros (A & B & C & D). pose proof (names_mono _ _ _ _ _ _ _ D).
  split; [replace (wp + d - (x + d)) with (wp - x) by lia; apply S; [exact A|lia|rewrite le_zlen; lia]|]. split; [apply S; [exact B|lia|change (zlen [ty]) with 1; lia]|].
  split; [apply S; [exact C|lia|rewrite zlen_app; change (zlen [0]) with 1; lia]|].
  replace (refs + d + 4) with (refs + 4 + d) by lia. replace (types + d + 1) with (types + 1 + d) by lia. replace (wp + d + zlen n + 1) with (wp + zlen n + 1 + d) by lia. apply IH; try lia. exact D.
Qed.
Lemma table_shift m m' d x e tag t : shifts m m' d x e -> d mod 4 = 0 -> 0 <= x + d -> table_at m x e tag t -> table_at m' (x + d) (e + d) tag t.
Proof.
  intros M D4 D0 (A & B & C & D & E & F & G & H & I & J & b & K & L & N). pose proof (zlen_nonneg t). pose proof (names_mono _ _ _ _ _ _ _ N).
  assert (Z : forall k, x + d + k = x + k + d) by (intros; lia).
  unfold table_at. replace (e + d - (x + d)) with (e - x) by lia. split; [lia|]. split; [lia|]. split; [lia|].
  split; [apply M; [exact D|lia|len; lia]|]. split; [rewrite Z; apply M; [exact E|lia|len; lia]|]. split; [rewrite Z; apply M; [exact F|lia|len; lia]|]. split; [rewrite Z; apply M; [exact G|lia|len; lia]|].
  split; [rewrite Z; apply M; [exact H|lia|len; lia]|]. split; [rewrite Z; apply M; [exact I|lia|len; lia]|]. split; [rewrite Z; apply M; [exact J|lia|len; lia]|].
  exists (b + d). split; [replace (b + d - (x + d + 36)) with (b - (x + 36)) by lia; rewrite Z; apply M; [exact K|lia|len; lia]|]. split; [lia|].
  replace (x + d + 36 + 4 * zlen t) with (x + 36 + 4 * zlen t + d) by lia. replace (x + d + 36 + 5 * zlen t) with (x + 36 + 5 * zlen t + d) by lia. rewrite Z.
  eapply names_shift; [exact M| | | | | | |exact N]; lia.
Qed.

(** ** The tree of nodes of a document *)
Section SHAPE.
Context (fl : floats) (cr : creator) (d : list Z) (limit : Z).

Definition own x c (t : node) : Prop :=
  let '(Node name value attrs kids) := t in
  exists id e1 e2, find_ name (cr_tags cr) = Ok id /\ x mod 4 = 0 /\ 0 <= x /\ zlen attrs <= 32767 /\ zlen kids <= INT_MAX /\
  has d x (le 2 id ++ le 2 (zlen attrs) ++ le 4 (zlen kids)) /\
  value_at fl d (x + 12 + 8 * zlen attrs + 4 * zlen kids) value limit e1 /\
  attrs_at fl cr d x (x + 12) attrs limit e1 e2 /\ e2 <= c.
Inductive shape : item -> node -> Prop :=
  Shape x c e ks n v a k : own x c (Node n v a k) -> Forall2 shape ks k -> shape (It x c e ks) (Node n v a k).

Lemma find_code s t id : name_limits t -> In s (names t) -> find_ s t = Ok id -> -9 <= id < zlen t /\ (id = -9 \/ 0 <= id).
Proof using.
  intros (G & L & _) I F. unfold find_ in F. pose proof (zlen_nonneg t). destruct (list_eq_dec Z.eq_dec s (lit "et-tecera")) as [E|E].
  - subst s. rewrite find_et_tecera in F. inversion F; subst id. unfold XTNR_ET_TECERA. lia.
  - destruct (find_ok s t G E) as (i & Fi & [[Hi Hn]|[_ Hn]]); [|contradiction]. rewrite Fi in F. inversion F; subst id. lia.
Qed.

Definition known (t : node) : Prop := forall u, In u (elements t) -> In (name_of u) (names (cr_tags cr)).

Lemma node_items t : name_limits (cr_tags cr) -> zlen d <= INT_MAX -> known t -> forall x e, node_at fl cr d limit x e t -> e <= zlen d ->
  exists i, ix i = x /\ ie i = e /\ layout d i /\ shape i t /\ deep i = height t /\ zlen (items i) = zlen (elements t).
Proof using.
  intros NL Hz. induction t as [n v a k IH] using node_ind'. intros Kn x e N He. pose proof (node_mono _ _ _ _ _ _ _ N) as (Nm & _). cbn [node_at] in N.
  destruct N as (id & e1 & e2 & N1 & N2 & N3 & N4 & N5 & (N6 & _) & (N7 & _) & N8 & N9 & N10).
  destruct (find_code _ _ _ NL (Kn (Node n v a k) (or_introl eq_refl)) N1) as (Id & Id'). assert (Hid : zlen (cr_tags cr) <= 32768) by apply NL.
  pose proof (head_split _ _ _ _ _ N6) as (H1 & H2 & H3). unfold INT_MAX in *. pose proof (zlen_nonneg a). pose proof (zlen_nonneg k).
  pose proof (attrs_mono _ _ _ _ _ _ _ _ _ N9) as Ma. pose proof (kids_mono _ _ _ _ _ _ _ N10) as Mk. assert (Mv : x + 12 + 8 * zlen a + 4 * zlen k < e1) by apply N8.
  assert (K : forall l p wp, Forall (fun t => In t k) l -> 0 <= wp -> x <= wp -> kids_at (fun y e t => node_at fl cr d limit y e t) d x p l wp e ->
    exists ks, Forall2 shape ks l /\ (forall lo, lo <= match ks with [] => e | j :: _ => ix j end -> kids_layout (fun k => layout d k) d x e p lo ks) /\
      match ks with [] => l = [] /\ wp = e | j :: _ => ix j = align_up 4 wp /\ align_up 4 wp <= e end /\ map deep ks = map height l /\ zlen (flat_map items ks) = zlen (flat_map elements l)).
  { clear N9 N10 Ma Mk Mv N8 N6 N7. induction l as [|t l IHl]; intros p wp Hl Hw Hxw Hk; cbn [kids_at] in Hk.
    - exists []. split; [constructor|]. split; [intros lo Hlo; exact Hlo|]. split; [split; [reflexivity|lia]|]. split; reflexivity.
    - destruct Hk as (e3 & K1 & K2 & (K3 & _) & K4). inversion Hl as [|? ? Ht Hl']; subst. pose proof (kids_mono _ _ _ _ _ _ _ K4) as Mk. pose proof (align_up_ge 4 wp ltac:(lia)) as Wg.
      destruct (IHl (p + 4) e3 Hl' ltac:(lia) ltac:(lia) K4) as (ks & S1 & S2 & S3 & S4 & S5). rewrite Forall_forall in IH.
      destruct (IH t Ht) with (x := align_up 4 wp) (e := e3) as (j & J1 & J2 & J3 & J4 & J5 & J6); [intros u Hu; apply Kn; eapply elements_kids; eassumption|exact K1|lia|].
      exists (j :: ks). split; [constructor; assumption|]. split.
      { intros lo Hlo. cbn [kids_layout]. split; [exact Hlo|]. split; [rewrite J1; apply has_s32; [unfold int32, INT_MIN, INT_MAX; lia|exact K3]|]. split; [exact J3|].
        apply S2. rewrite J2. destruct ks as [|j' ks]; [lia|]. destruct S3 as (S3 & _). rewrite S3. pose proof (align_up_ge 4 e3 ltac:(lia)). lia. }
      split; [split; [exact J1|lia]|]. cbn [map flat_map]. split; [rewrite J5, S4; reflexivity|]. rewrite !zlen_app, J6, S5. reflexivity. }
  destruct (K k (x + 12 + 8 * zlen a) e2) as (ks & S1 & S2 & S3 & S4 & S5); [apply Forall_forall; auto|lia|lia|exact N10|].
  assert (Zk : zlen ks = zlen k) by (symmetry; eapply Forall2_zlen; exact S1).
  set (c := match ks with [] => e | j :: _ => ix j end). assert (Hc : e2 <= c <= e).
  { unfold c. destruct ks as [|j ks]; [lia|]. destruct S3 as (S3 & S3'). rewrite S3. pose proof (align_up_ge 4 e2 ltac:(lia)). lia. }
  exists (It x c e ks). cbn [ix ie]. split; [reflexivity|]. split; [reflexivity|]. split; [|split; [|split]].
  - cbn [layout]. exists id, (zlen a). rewrite Zk. repeat (split; [lia|]).
    split; [apply has_s16; [lia|exact H1]|]. split; [unfold XTNR_REFERENCE; lia|]. split; [unfold XTNR_PROCESSED; lia|]. split; [apply has_s16; [lia|exact H2]|].
    split; [apply has_s32; [unfold int32, INT_MIN, INT_MAX; lia|exact H3]|]. split; [apply has_s32; [unfold int32, INT_MIN, INT_MAX; lia|exact N7]|].
    split; [unfold c; destruct ks; reflexivity|]. apply S2. unfold c. lia.
  - constructor; [|exact S1]. cbn [own]. exists id, e1, e2. repeat (split; [assumption|]). lia.
  - cbn [deep height]. rewrite S4. reflexivity.
  - cbn [items elements]. rewrite !zlen_cons, S5. reflexivity.
Qed.

Lemma doc_items size filename root y1 e1 y2 e2 y3 x : name_limits (cr_tags cr) -> zlen d <= INT_MAX -> known root -> size <= zlen d -> good_source cr root ->
  doc_at fl cr d limit size filename root y1 e1 y2 e2 y3 x ->
  exists J, ix J = x /\ ie J = size /\ shape J root /\ deep J = height root /\ zlen (items J) = zlen (elements root) /\
    layout d (It 0 y1 size [It y1 e1 e1 []; It y2 e2 e2 []; It y3 x size [J]]).
Proof using.
  intros NL Hz Kn Hs Hg D. assert (Hi : int32 (zlen d)) by (pose proof (zlen_nonneg d); unfold int32, INT_MIN, INT_MAX in *; lia).
  pose proof (doc_order fl cr d limit size filename root y1 e1 y2 e2 y3 x D Hs Hi) as O. pose proof (zlen_nonneg filename) as Zf.
  destruct (doc_head fl cr d limit size filename root y1 e1 y2 e2 y3 x D Hs Hi) as (DH1 & DH2 & DH3 & DH4).
  destruct D as (A1 & A2 & A3 & A4 & B1 & B2 & B3 & B4 & B5 & B6 & B7 & B8 & B9 & B10 & B11 & T1 & T2 & P).
  destruct P as (P1 & P2 & P3 & P4 & P5 & P6 & P7 & P8 & _ & N). specialize (N Hg).
  destruct (node_items root NL Hz Kn x size N ltac:(lia)) as (J & J1 & J2 & J3 & J4 & J5 & J6). exists J. repeat (split; [assumption|]).
  assert (Tl : forall y e tag t, table_at d y e tag t -> e <= zlen d -> -7 < tag < 0 -> layout d (It y e e [])).
  { intros y e tag t T He Ht. pose proof (table_head d y e tag t T ltac:(lia)) as (U1 & U2 & U3). destruct T as (V1 & V2 & V3 & V4 & V5 & _).
    cbn [layout kids_layout]. change (zlen (@nil item)) with 0. exists tag, 2. unfold INT_MAX in Hz. repeat (split; [lia|]). split; [exact U1|]. split; [unfold XTNR_REFERENCE; lia|]. split; [unfold XTNR_PROCESSED; lia|].
    split; [exact U2|]. split; [exact U3|]. split; [apply has_s32; [unfold int32, INT_MIN, INT_MAX; lia|exact V5]|]. split; [reflexivity|lia]. }
  assert (PL : layout d (It y3 x size [J])).
  { apply head_split in P5. destruct P5 as (H1 & H2 & H3). cbn [layout kids_layout]. change (zlen [J]) with 1. exists XTNR_PAYLOAD, 0. unfold INT_MAX in Hz. repeat (split; [lia|]).
    split; [apply has_s16; [unfold XTNR_PAYLOAD; lia|exact H1]|]. split; [discriminate|]. split; [discriminate|]. split; [apply has_s16; [lia|exact H2]|].
    split; [apply has_s32; [unfold int32, INT_MIN, INT_MAX; lia|exact H3]|]. split; [apply has_s32; [unfold int32, INT_MIN, INT_MAX; lia|exact P7]|]. split; [lia|].
    split; [lia|]. split; [rewrite Z.add_0_r, J1; apply has_s32; [unfold int32, INT_MIN, INT_MAX; lia|exact P6]|]. split; [exact J3|lia]. }
  assert (TL1 : layout d (It y1 e1 e1 [])) by (eapply Tl; [exact T1|lia|unfold XTNR_TAG_SYMBOLS; lia]).
  assert (TL2 : layout d (It y2 e2 e2 [])) by (eapply Tl; [exact T2|lia|unfold XTNR_PARAM_SYMBOLS; lia]).
  change (layout d (It 0 y1 size [It y1 e1 e1 []; It y2 e2 e2 []; It y3 x size [J]])) with
    (exists nm pc, 0 <= pc /\ 0 mod 4 = 0 /\ 0 <= 0 /\ 0 + 12 + 8 * pc + 4 * 3 <= y1 /\ y1 <= size /\ 0 + 12 < size /\ size <= zlen d /\
     it_name d 0 = Ok nm /\ nm <> XTNR_REFERENCE /\ nm <> XTNR_PROCESSED /\ it_paramcount d 0 = Ok pc /\ it_childcount d 0 = Ok 3 /\ it_length d 0 = Ok (size - 0) /\ y1 = y1 /\
     (y1 <= y1 /\ rd_s32 d (0 + 12 + 8 * pc) = Ok (y1 - 0) /\ layout d (It y1 e1 e1 []) /\ e1 <= y2 /\ rd_s32 d (0 + 12 + 8 * pc + 4) = Ok (y2 - 0) /\ layout d (It y2 e2 e2 []) /\
      e2 <= y3 /\ rd_s32 d (0 + 12 + 8 * pc + 4 + 4) = Ok (y3 - 0) /\ layout d (It y3 x size [J]) /\ size <= size)).
  exists XTNR_META_ROOT, 4. rewrite !Z.sub_0_r. change (0 + 12 + 8 * 4 + 4 + 4) with 52. change (0 + 12 + 8 * 4 + 4) with 48. change (0 + 12 + 8 * 4) with 44. unfold INT_MAX in Hz.
  repeat (split; [first [lia|assumption|discriminate|reflexivity]|]).
  split; [apply has_s32; [unfold int32, INT_MIN, INT_MAX; lia|exact B8]|]. split; [exact TL1|]. split; [lia|].
  split; [apply has_s32; [unfold int32, INT_MIN, INT_MAX; lia|exact B9]|]. split; [exact TL2|]. split; [lia|].
  split; [apply has_s32; [unfold int32, INT_MIN, INT_MAX; lia|exact B10]|]. split; [exact PL|lia].
Qed.
End SHAPE.
