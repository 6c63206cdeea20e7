(** Every element of the source is found in the image, with its attributes and its value. *)
From Verif Require Import Base BaseFacts ListFacts NumSpec Types CalSpec RingProofs ShownProofs RoundtripProofs SteadyProofs Sort SortProofs Symtab SymtabSpec SymtabProofs
  Xb XbSpec XbFacts XbSymProofs XbWrite DocSpec ReadSpec NavSpec WriteProofs FillProofs InitProofs OpenProofs ReadProofs.

Lemma sub_elements path : forall t u, sub t path = Some u -> In u (elements t).
Proof.
  induction path as [|i r IH]; intros t u H; cbn [sub] in H; [inversion H; subst; destruct u; left; reflexivity|].
  destruct (nth_error (kids_of t) i) as [k|] eqn:E; [|discriminate H]. destruct t as [n v a kids]. cbn [kids_of] in E. apply nth_error_In in E. eapply elements_kids; [exact E|]. apply IH, H.
Qed.

Section NAV.
Context (fl : floats) (cr : creator) (m : list Z) (limit : Z) (Hm : zlen m <= INT_MAX).

Definition node_head t x : Prop :=
  it_paramcount m x = Ok (zlen (attrs_of t)) /\ it_childcount m x = Ok (zlen (kids_of t)) /\
  value_pos m x = Ok (x + 12 + 8 * zlen (attrs_of t) + 4 * zlen (kids_of t)) /\ 0 <= x /\ x mod 4 = 0.

Lemma node_open t x e : node_at fl cr m limit x e t -> e <= zlen m -> node_head t x /\ it_length m x = Ok (e - x) /\
  (exists id, it_name m x = Ok (s16 id) /\ find_ (name_of t) (cr_tags cr) = Ok id) /\
  exists e1 e2, value_at fl m (x + 12 + 8 * zlen (attrs_of t) + 4 * zlen (kids_of t)) (value_of t) limit e1 /\
    attrs_at fl cr m x (x + 12) (attrs_of t) limit e1 e2 /\ kids_at (fun y e t => node_at fl cr m limit y e t) m x (x + 12 + 8 * zlen (attrs_of t)) (kids_of t) e2 e /\ e1 <= e2 <= e.
Proof using Hm.
  intros N He. pose proof (node_mono _ _ _ _ _ _ _ N) as (Nm & _). destruct t as [n v a k]. cbn [node_at name_of attrs_of kids_of value_of] in *.
  destruct N as (id & e1 & e2 & N1 & N2 & N3 & N4 & N5 & (N6 & _) & (N7 & _) & N8 & N9 & N10).
  apply head_split in N6. destruct N6 as (H1 & H2 & H3). unfold INT_MAX in *. pose proof (zlen_nonneg a). pose proof (zlen_nonneg k).
  pose proof (attrs_mono _ _ _ _ _ _ _ _ _ N9) as Ma. pose proof (kids_mono _ _ _ _ _ _ _ N10) as Mk.
  assert (E2 : it_paramcount m x = Ok (zlen a)) by (apply has_s16; [lia|exact H2]).
  assert (E3 : it_childcount m x = Ok (zlen k)) by (apply has_s32; [unfold int32, INT_MIN, INT_MAX; lia|exact H3]).
  split; [|split; [apply has_s32; [unfold int32, INT_MIN, INT_MAX; lia|exact N7]|split]].
  - unfold node_head, value_pos. cbn [attrs_of kids_of]. rewrite E2, E3. repeat split; try lia; reflexivity.
  - exists id. split; [|exact N1]. unfold it_name, rd_s16. change 2 with (zlen (le 2 id)). rewrite (has_rd _ _ _ H1). cbn [obind]. f_equal.
    rewrite unle_le. unfold s16. change (256 ^ Z.of_nat 2) with 65536. rewrite Zplus_mod, Z.mod_mod, <- Zplus_mod by lia. reflexivity.
  - exists e1, e2. auto.
Qed.

Lemma kids_nth x l : forall i c wp e k, kids_at (fun y e t => node_at fl cr m limit y e t) m x c l wp e -> 0 <= x -> x <= wp -> e <= zlen m -> nth_error l i = Some k ->
  exists y e1, rd_s32 m (c + 4 * Z.of_nat i) = Ok (y - x) /\ node_at fl cr m limit y e1 k /\ e1 <= e.
Proof using Hm.
  unfold INT_MAX in Hm. induction l as [|t l IH]; intros i c wp e k K Hx Hw He Hk; [destruct i; discriminate Hk|]. cbn [kids_at] in K. destruct K as (e1 & K1 & K2 & (K3 & _) & K4).
  pose proof (kids_mono _ _ _ _ _ _ _ K4) as Mk. pose proof (align_up_ge 4 wp ltac:(lia)) as Wg. pose proof (node_mono _ _ _ _ _ _ _ K1) as (Nm1 & _).
  destruct i as [|i]; cbn [nth_error] in Hk.
  - inversion Hk; subst k. exists (align_up 4 wp), e1. split; [|split; [exact K1|exact Mk]]. replace (c + 4 * Z.of_nat 0) with c by lia. apply has_s32; [unfold int32, INT_MIN, INT_MAX; lia|exact K3].
  - destruct (IH i (c + 4) e1 e k K4 Hx ltac:(lia) He Hk) as (y & e' & A & B & C). exists y, e'. split; [|auto]. replace (c + 4 * Z.of_nat (S i)) with (c + 4 + 4 * Z.of_nat i) by lia. exact A.
Qed.

Lemma walk_node path : forall t x e u, node_at fl cr m limit x e t -> e <= zlen m -> sub t path = Some u ->
  exists y e', walk m x path = Ok (Some y) /\ node_at fl cr m limit y e' u /\ e' <= zlen m.
Proof using Hm.
  induction path as [|i r IH]; intros t x e u N He H; cbn [sub] in H.
  - inversion H; subst u. exists x, e. auto.
  - destruct (nth_error (kids_of t) i) as [k|] eqn:E; [|discriminate H]. destruct (node_open t x e N He) as ((P & C & _ & X0 & _) & _ & _ & e1 & e2 & V & A & K & L).
    assert (Mv : x < e1) by (assert (Mv := proj1 V); pose proof (zlen_nonneg (attrs_of t)); pose proof (zlen_nonneg (kids_of t)); lia).
    destruct (kids_nth x (kids_of t) i _ _ _ k K X0 ltac:(lia) He E) as (y & e3 & R & N' & Le).
    destruct (IH k y e3 u N' ltac:(lia) H) as (z & e4 & W & N'' & Le'). exists z, e4. split; [|auto]. cbn [walk]. unfold getChildByIndex, children_pos. rewrite C, P. cbn [obind].
    assert (Hi : (i < List.length (kids_of t))%nat) by (apply nth_error_Some; rewrite E; discriminate).
    destruct (Z.ltb_spec (Z.of_nat i) 0); [lia|]. destruct (Z.leb_spec (zlen (kids_of t)) (Z.of_nat i)); [unfold zlen in *; lia|]. cbn [orb].
    rewrite R. cbn [obind]. replace (x + (y - x)) with y by lia. exact W.
Qed.

Lemma attrs_nth x l : forall i q wp e a, attrs_at fl cr m x q l limit wp e -> nth_error l i = Some a ->
  exists wp' e', attr_at fl cr m x (q + 8 * Z.of_nat i) a limit wp' e' /\ wp <= wp' /\ e' <= e.
Proof using.
  induction l as [|b l IH]; intros i q wp e a A H; [destruct i; discriminate H|]. cbn [attrs_at] in A. destruct A as (e1 & A1 & A2). pose proof (attrs_mono _ _ _ _ _ _ _ _ _ A2) as Ma. assert (Mb := proj1 A1).
  destruct i as [|i]; cbn [nth_error] in H.
  - inversion H; subst b. exists wp, e1. replace (q + 8 * Z.of_nat 0) with q by lia. split; [exact A1|lia].
  - destruct (IH i (q + 8) e1 e a A2 H) as (wp' & e' & B & C & D). exists wp', e'. replace (q + 8 * Z.of_nat (S i)) with (q + 8 + 8 * Z.of_nat i) by lia. split; [exact B|lia].
Qed.

Lemma attr_nth t x e i a : node_at fl cr m limit x e t -> e <= zlen m -> nth_error (attrs_of t) i = Some a ->
  exists q wp e', getParamByIndex m (Some x) (Z.of_nat i) = Ok (Some q) /\ x + 12 <= q /\ 0 <= x /\ x <= wp /\ e' <= zlen m /\ attr_at fl cr m x q a limit wp e'.
Proof using Hm.
  intros N He H. destruct (node_open t x e N He) as ((P & C & _ & X0 & _) & _ & _ & e1 & e2 & V & A & K & L).
  assert (Mv := proj1 V). pose proof (zlen_nonneg (attrs_of t)). pose proof (zlen_nonneg (kids_of t)).
  destruct (attrs_nth x (attrs_of t) i _ _ _ a A H) as (wp & e' & B & Wp & E').
  exists (x + 12 + 8 * Z.of_nat i), wp, e'. assert (Hi : (i < List.length (attrs_of t))%nat) by (apply nth_error_Some; rewrite H; discriminate).
  split; [|split; [lia|split; [lia|split; [lia|split; [lia|exact B]]]]].
  unfold getParamByIndex. destruct (Z.ltb_spec (Z.of_nat i) 0); [lia|]. rewrite P. cbn [obind]. destruct (Z.leb_spec (zlen (attrs_of t)) (Z.of_nat i)); [unfold zlen in *; lia|]. reflexivity.
Qed.

End NAV.

(** The whole way: convert, open, go down. *)

Lemma reached fl m filename modified root img k path u : zlen m <= INT_MAX -> cstring filename -> document_fits root -> no_hex root ->
  Make_xb fl m filename modified root = rret img -> sub root path = Some u ->
  exists cr R x y e, made root cr /\ Initialize (S k) img = rret R /\ rd_root R = Some x /\ walk img x path = Ok (Some y) /\ node_at fl cr img (zlen m) y e u /\ e <= zlen img /\ zlen img <= INT_MAX /\
    table_names img (rd_tags R) (names (cr_tags cr)) /\ table_names img (rd_params R) (names (cr_params cr)).
Proof.
  intros Hm Hf F S H Hs. destruct (Make_xb_doc _ _ _ _ _ _ F Hf H) as (cr & size & y1 & e1 & y2 & e2 & y3 & x & M & D & L & _ & _).
  pose proof M as (A1 & A2 & A3 & A4 & A5 & A6 & _). assert (Hi : int32 (zlen img)) by (pose proof (zlen_nonneg img); unfold int32, INT_MIN, INT_MAX in *; lia).
  destruct (Initialize_doc fl cr img (zlen m) size filename root y1 e1 y2 e2 y3 x D Hf ltac:(lia) Hi A1 A2 k) as (R & E & Ex & T1 & T2).
  assert (P : payload_at fl cr img (zlen m) y3 x size root) by apply D. destruct P as (_ & _ & _ & _ & _ & _ & _ & _ & _ & N).
  assert (Hg : good_source cr root) by (split; [apply A6; exact S|exact S]).
  destruct (walk_node fl cr img (zlen m) ltac:(lia) path root x size u (N Hg) ltac:(lia) Hs) as (y & e' & W & N' & Le).
  exists cr, R, x, y, e'. repeat (split; [first [assumption|lia]|]). assumption.
Qed.

(** ** Integers (C58) *)
Lemma detect_int n : int32 n -> XBT_Detect (sdec n) = XBT_INT32.
Proof.
  intros Hn. unfold int32 in Hn. rewrite DetectProofs.detect_sdec by (change (10 ^ 19) with 10000000000000000000; lia). unfold DetectProofs.int_class.
  destruct (Z.ltb_spec n 0); [destruct (Z.leb_spec (Z.abs n) 2147483648)|destruct (Z.leb_spec (Z.abs n) 2147483647)]; try lia; reflexivity.
Qed.

Section INTS.
Context (fl : floats) (cr : creator) (m : list Z) (limit : Z) (Hm : zlen m <= INT_MAX).

Lemma int_value x p n e : value_pos m x = Ok p -> 0 <= p -> value_at fl m p (Some (sdec n)) limit e -> int32 n ->
  getInt m (Some x) = Ok n /\ forall old, getIntPtr m (Some x) old = Ok (Some n, old).
Proof using.
  intros Hp Hp0 (_ & (A & _) & st & B & (C & _) & _) Hn. rewrite (detect_int n Hn) in *.
  destruct (stores_int32 fl n (p + 1) limit Hn ltac:(lia)) as (sv & E & Eb & _ & _ & Ep). rewrite B in E. inversion E; subst sv. rewrite Eb, Ep in C. change (align_to (if XBT_INT32 =? XBT_UNIX_TIME64_MSEC then 4 else XBT_Align XBT_INT32) (p + 1)) with (align_up 4 (p + 1)) in C.
  unfold getInt, getIntPtr, value_type. rewrite Hp. cbn [obind]. rewrite (has_u8 _ _ XBT_INT32 ltac:(unfold XBT_INT32; lia) A). cbn [obind]. change (s8 XBT_INT32 =? XBT_INT32) with true. cbv iota.
  rewrite (has_s32 _ _ n Hn C). split; reflexivity.
Qed.

Lemma no_value x p e : value_pos m x = Ok p -> value_at fl m p None limit e -> getInt m (Some x) = Ok INT32_NULL /\ forall old, getIntPtr m (Some x) old = Ok (None, old).
Proof using.
  intros Hp (_ & (A & _) & _). unfold getInt, getIntPtr, value_type. rewrite Hp. cbn [obind]. rewrite (has_u8 _ _ XBT_NULL ltac:(unfold XBT_NULL; lia) A). split; reflexivity.
Qed.

Lemma stored_type root x q a wp e id : made root cr -> attr_at fl cr m x q a limit wp e -> find_ (fst a) (cr_params cr) = Ok id -> In (fst a) (names (cr_params cr)) -> fst a <> lit "et-tecera" ->
  forall ty0, (if 0 <=? s16 id then type_at (cr_params cr) (s16 id) else Ok XBT_UNKNOWN) = Ok ty0 -> ty0 = column_type (values_of (fst a) (flat_map attrs_of (elements root))).
Proof using.
  intros (M1 & M2 & _ & _ & _ & _ & M7) _ A1 Hin Ht ty0 C1. assert (Hid : zlen (cr_params cr) <= 32768) by apply M2.
  assert (Z0 : 0 <= id < zlen (cr_params cr) /\ name_at (cr_params cr) id = Ok (fst a)).
  { unfold find_ in A1. destruct (find_ok (fst a) (cr_params cr) (proj1 M2) Ht) as (i & Fi & [[Hi Hni]|[_ Hni]]); [|contradiction]. rewrite Fi in A1. inversion A1; subst i. auto. }
  destruct Z0 as (Z0 & Z1). assert (Es : s16 id = id) by (unfold s16; lia). rewrite Es in C1. destruct (Z.leb_spec 0 id); [|lia]. unfold type_at in C1. unfold name_at in Z1. destruct (id <? 0); [discriminate|].
  destruct (nth_error (cr_params cr) (Z.to_nat id)) as [[n t]|] eqn:En; [|discriminate]. inversion C1; inversion Z1; subst. apply nth_error_In in En. apply (M7 _ _ En).
Qed.

(** An attribute is stored in one of three ways. *)
Inductive attr_stored (root : node) (x q : Z) (a : list Z * list Z) : Prop :=
| at_empty : snd a = [] -> pd_type m q = Ok XBT_NULL -> pd_data m q = Ok 0 -> attr_stored root x q a
| at_text p : snd a <> [] -> pd_type m q = Ok XBT_STRING -> pd_data m q = Ok (p - x) -> has m p (snd a ++ [0]) ->
    (forall ty, ty = XBT_Detect2 (snd a) (column_type (values_of (fst a) (flat_map attrs_of (elements root)))) -> XBT_Size2 ty 0 <> Ok 4 \/ XBT_FromString fl (snd a) ty (q + 4) limit = Fail) -> attr_stored root x q a
| at_inline ty st : snd a <> [] -> ty = XBT_Detect2 (snd a) (column_type (values_of (fst a) (flat_map attrs_of (elements root)))) ->
    pd_type m q = Ok ty -> XBT_Size2 ty 0 = Ok 4 -> XBT_FromString fl (snd a) ty (q + 4) limit = Ok st -> has m (st_pos st) (st_bytes st) -> q <= st_pos st -> st_pos st + zlen (st_bytes st) <= q + 8 -> attr_stored root x q a.

Lemma attr_ways root x q a wp e : made root cr -> types_ok (cr_params cr) -> 0 <= x -> x <= wp -> e <= zlen m -> attr_at fl cr m x q a limit wp e -> In (fst a) (names (cr_params cr)) -> fst a <> lit "et-tecera" ->
  XBT_Detect (snd a) <> XBT_HEX -> attr_stored root x q a.
Proof using Hm.
  intros M Tk Hx Hw He A Hin Ht Hh. pose proof A as (A0 & id & A1 & (A2 & _) & A3). unfold INT_MAX in Hm.
  destruct A3 as [(B1 & (B2 & _) & (B3 & _) & B4)|(B1 & ty & (ty0 & C1 & C2) & B)].
  - apply at_empty; [exact B1|apply has_u8; [unfold XBT_NULL; lia|exact B2]|apply has_s32; [unfold int32, INT_MIN, INT_MAX; lia|exact B3]].
  - pose proof (stored_type root x q a wp e id M A A1 Hin Ht ty0 C1) as E0. subst ty0. assert (Htr : 0 <= ty < 256).
    { rewrite C2. apply detect2_byte. apply column_byte. }
    destruct B as [(B2 & (B3 & _) & _ & sv & B4 & (B5 & B6 & B7))|(B2 & (B3 & _) & (B4 & _) & (B5 & _) & E)].
    + apply (at_inline root x q a ty sv); try assumption. apply has_u8; [exact Htr|exact B3].
    + assert (Hr := has_range _ _ _ B5). pose proof (zlen_nonneg (snd a ++ [0])).
      apply (at_text root x q a wp); try assumption; [apply has_u8; [unfold XBT_STRING; lia|exact B3]|apply has_s32; [unfold int32, INT_MIN, INT_MAX; lia|exact B4]|].
      intros ty' ->. rewrite <- C2. exact B2.
Qed.
End INTS.

(** ** Attributes (C33) *)
Lemma inline_bytes fl v ty wp limit st : XBT_FromString fl v ty wp limit = Ok st -> XBT_Size2 ty 0 = Ok 4 -> ty <> XBT_HEX ->
  zlen (st_bytes st) = 4 /\ wp <= st_pos st /\ (ty = XBT_UNIX_DATE \/ XBT_IS_4 ty = true) /\ (ty =? XBT_STRING) = false /\ XBT_Align ty = 4.
Proof.
  intros H S Hh. pose proof (align_up_ge 4 wp ltac:(lia)) as G. unfold XBT_FromString in H. cbv zeta in H.
  assert (Fin : forall x, Ok (mkstored (align_up 4 wp) (le 4 x) (align_up 4 wp + zlen (le 4 x))) = Ok st -> zlen (st_bytes st) = 4 /\ wp <= st_pos st).
  { intros x E. assert (Es : st = mkstored (align_up 4 wp) (le 4 x) (align_up 4 wp + zlen (le 4 x))) by congruence. rewrite Es. cbn [st_bytes st_pos]. rewrite le_zlen. split; [reflexivity|apply G]. }
  assert (Dec : forall k, obind (str2dec v k) (fun v => Ok (mkstored (align_up 4 wp) (le 4 v) (align_up 4 wp + zlen (le 4 v)))) = Ok st -> zlen (st_bytes st) = 4 /\ wp <= st_pos st).
  { intros k E. destruct (str2dec v k); cbn [obind] in E; [eapply Fin, E|discriminate E|discriminate E]. }
  repeat match type of H with (if ?ty =? ?c then _ else _) = _ => destruct (Z.eqb_spec ty c) as [->|] end; try discriminate S; try contradiction; try discriminate H;
    (split; [|split; [|split; [first [left; reflexivity|right; reflexivity]|split; reflexivity]]]); try (eapply Fin; eassumption); try (eapply Dec; eassumption);
    (match type of H with obind ?o _ = _ => destruct o as [[? ?]| |] end; cbn [obind] in H; try discriminate H; eapply Fin, H).
Qed.

Lemma attr_readable fl img limit root x q a : zlen img <= INT_MAX -> cstring (snd a) -> 0 <= x -> x <= q ->
  XBT_Detect2 (snd a) (column_type (values_of (fst a) (flat_map attrs_of (elements root)))) <> XBT_HEX ->
  attr_stored fl img limit root x q a -> q mod 4 = 0 -> x <= zlen img -> attr_read fl img root x q a.
Proof.
  intros Hm Hc Hx Hq Hh [E T D|p E T D H Hty|ty st E Ety T S F H L1 L2] Mq Hxm.
  - left. split; [exact E|]. split; [exact T|]. intros out st. unfold param_getString. rewrite T. cbn [obind]. change (XBT_NULL =? XBT_STRING) with false. change (XBT_IS_4 XBT_NULL) with false. cbv iota.
    rewrite D. cbn [obind]. unfold image_ToString. change (align_to (XBT_Align XBT_NULL) (x + 0)) with (x + 0). cbv zeta.
    destruct (Z.leb_spec 0 (x + 0)); [|lia]. destruct (Z.leb_spec (x + 0) (zlen img)); [|lia]. reflexivity.
  - right; left. split; [exact E|]. split; [exact T|]. unfold param_getString, param_getData. rewrite T. cbn [obind]. change (XBT_STRING =? XBT_STRING) with true. change (XBT_IS_4 XBT_STRING) with false. cbv iota.
    rewrite D. cbn [obind]. replace (x + (p - x)) with p by lia. rewrite (has_str _ _ (snd a) Hc H). cbn [obind]. split; [reflexivity|].
    exists p. replace (1 + zlen (snd a)) with (zlen (snd a) + 1) by lia. auto.
  - right; right. subst ty. set (ty := XBT_Detect2 _ _) in *. destruct (inline_bytes _ _ _ _ _ _ F S Hh) as (B1 & B2 & B3 & B4 & B5).
    assert (Ep : st_pos st = q + 4) by lia. rewrite Ep in *.
    exists ty, (st_bytes st). split; [exact E|]. split; [reflexivity|]. split; [exact T|]. split; [|split; [exact B1|split; [exact H|]]].
    + exists limit, st. split; [exact F|]. split; [reflexivity|]. split; [lia|]. split.
      * revert F S Hh B1. clearbody ty. clear. intros F S Hh B1. unfold XBT_FromString in F. cbv zeta in F.
        repeat match type of F with (if ?ty =? ?c then _ else _) = _ => destruct (Z.eqb_spec ty c) as [->|] end; try discriminate S; try contradiction; try discriminate F;
        try (match type of F with obind ?o _ = _ => destruct o as [?| |] end; cbn [obind] in F; try discriminate F); try (match type of F with (let '(_, _) := ?z in _) = _ => destruct z end);
        injection F as <-; reflexivity.
      * rewrite Ep. assert (Em : (ty =? XBT_UNIX_TIME64_MSEC) = false) by (destruct (Z.eqb_spec ty XBT_UNIX_TIME64_MSEC) as [Ex|]; [rewrite Ex in S; discriminate S|reflexivity]). rewrite Em, B5.
        unfold align_to. cbn. symmetry. apply align_up_id; lia.
    + destruct B3 as [B3|B3]; [left; exact B3|right]. unfold param_getString, param_getData. rewrite T. cbn [obind]. rewrite B3, B4. cbv iota. split; [reflexivity|].
      destruct (has_skip _ _ _ H) as (rest & Er). exists rest. intros out st0. unfold image_ToString. rewrite B5. change (align_to 4 (q + 4)) with (align_up 4 (q + 4)). rewrite align_up_id by lia. cbv zeta.
      rewrite Er. unfold readable. rewrite B4, B3. pose proof (has_range _ _ _ H) as Hr. pose proof (zlen_nonneg rest).
      assert (V : XBT_IS_VARSIZE ty = false) by (revert B3; clearbody ty; clear; unfold XBT_IS_4, XBT_IS_VARSIZE; intros B3; apply isin_true in B3; cbn [In] in B3; repeat (destruct B3 as [<-|B3]; [reflexivity|]); contradiction).
      rewrite V. cbn [orb]. rewrite zlen_app, B1. destruct (Z.leb_spec 4 (4 + zlen rest)); [|lia]. destruct (Z.leb_spec 0 (q + 4)); [|lia]. destruct (Z.leb_spec (q + 4) (zlen img)); [|lia]. reflexivity.
Qed.

Lemma attrs_readable fl m filename modified root img k path u i a : zlen m <= INT_MAX -> cstring filename -> document_fits root -> no_hex root ->
  Make_xb fl m filename modified root = rret img -> sub root path = Some u -> nth_error (attrs_of u) i = Some a -> fst a <> lit "et-tecera" ->
  exists R x y q, Initialize (S k) img = rret R /\ rd_root R = Some x /\ walk img x path = Ok (Some y) /\ getParamByIndex img (Some y) (Z.of_nat i) = Ok (Some q) /\ attr_read fl img root y q a.
Proof.
  intros Hm Hf F S H Hs Ha Ht. destruct (reached _ _ _ _ _ _ k _ _ Hm Hf F S H Hs) as (cr & R & x & y & e & M & E & Ex & W & N & Le & Hi & _).
  destruct (attr_nth fl cr img (zlen m) ltac:(lia) u y e i a N Le Ha) as (q & wp & e' & G & Q & Y0 & Yw & E' & A).
  exists R, x, y, q. split; [exact E|]. split; [exact Ex|]. split; [exact W|]. split; [exact G|].
  pose proof (sub_elements _ _ _ Hs) as Hu. pose proof (nth_error_In _ _ Ha) as Hin. pose proof M as (_ & _ & _ & _ & M5 & M6 & M7). destruct a as [n v]. cbn [fst snd] in *.
  assert (Hh : XBT_Detect v <> XBT_HEX) by (apply (S u Hu n v Hin)).
  assert (Hc : cstring v) by (destruct (proj1 F u Hu) as (_ & _ & F3 & _); apply (F3 n v Hin)).
  destruct (node_open fl cr img (zlen m) ltac:(lia) u y e N Le) as ((P & _ & _ & _ & Y4) & _).
  assert (Eq : q = y + 12 + 8 * Z.of_nat i) by (unfold getParamByIndex in G; destruct (Z.of_nat i <? 0); [discriminate G|]; rewrite P in G; cbn [obind] in G; destruct (zlen (attrs_of u) <=? Z.of_nat i); [discriminate G|]; congruence).
  assert (Hst : attr_stored fl img (zlen m) root y q (n, v)) by (apply (attr_ways fl cr img (zlen m) ltac:(lia) root y q (n, v) wp e' M (M6 S) Y0 Yw E' A); [cbn [fst]; apply (proj2 (M5 u Hu) n v Hin)|exact Ht|exact Hh]).
  apply (attr_readable fl img (zlen m)); try assumption; try lia.
  - cbn [fst snd]. unfold XBT_Detect2. assert (Cn : column_type (values_of n (flat_map attrs_of (elements root))) <> XBT_HEX).
    { apply column_no_hex. intros w Hw. unfold values_of in Hw. apply in_map_iff in Hw. destruct Hw as ((n' & v') & <- & Hw). apply filter_In in Hw. destruct Hw as (Hw & _). apply in_flat_map in Hw. destruct Hw as (u' & U1 & U2). apply (S u' U1 n' v' U2). }
    destruct (_ =? XBT_VARIANT); [exact Cn|]. intros Ej. apply join_hex in Ej. destruct Ej; contradiction.
  - pose proof (node_mono _ _ _ _ _ _ _ N). lia.
Qed.

(** ** Integers in documents (C58) *)
Section INT_DOC.
Context (fl : floats) (m filename : list Z) (modified : Z) (root : node) (img : list Z) (k : nat) (path : list nat) (u : node).
Context (Hm : zlen m <= INT_MAX) (Hf : cstring filename) (F : document_fits root) (S : no_hex root) (H : Make_xb fl m filename modified root = rret img) (Hs : sub root path = Some u).

Lemma doc_int n : int32 n -> value_of u = Some (sdec n) ->
  exists R x y, Initialize (Datatypes.S k) img = rret R /\ rd_root R = Some x /\ walk img x path = Ok (Some y) /\
    getInt img (Some y) = Ok n /\ forall old, getIntPtr img (Some y) old = Ok (Some n, old).
Proof using F H Hf Hm Hs S.
  intros Hn Hv. destruct (reached _ _ _ _ _ _ k _ _ Hm Hf F S H Hs) as (cr & R & x & y & e & M & E & Ex & W & N & Le & Hi & _).
  exists R, x, y. split; [exact E|]. split; [exact Ex|]. split; [exact W|].
  destruct (node_open fl cr img (zlen m) ltac:(lia) u y e N Le) as ((P & C & V & Y0 & Y4) & _ & _ & e1 & e2 & Va & _). rewrite Hv in Va.
  pose proof (zlen_nonneg (attrs_of u)). pose proof (zlen_nonneg (kids_of u)). eapply (int_value fl img (zlen m)); [exact V|lia|exact Va|exact Hn].
Qed.

Lemma doc_no_int : value_of u = None ->
  exists R x y, Initialize (Datatypes.S k) img = rret R /\ rd_root R = Some x /\ walk img x path = Ok (Some y) /\
    getInt img (Some y) = Ok INT32_NULL /\ forall old, getIntPtr img (Some y) old = Ok (None, old).
Proof using F H Hf Hm Hs S.
  intros Hv. destruct (reached _ _ _ _ _ _ k _ _ Hm Hf F S H Hs) as (cr & R & x & y & e & M & E & Ex & W & N & Le & Hi & _).
  exists R, x, y. split; [exact E|]. split; [exact Ex|]. split; [exact W|].
  destruct (node_open fl cr img (zlen m) ltac:(lia) u y e N Le) as ((P & C & V & Y0 & Y4) & _ & _ & e1 & e2 & Va & _). rewrite Hv in Va.
  eapply (no_value fl img (zlen m)); [exact V|exact Va].
Qed.

Lemma column_int values : values <> [] -> (forall v, In v values -> XBT_Detect v = XBT_INT32) -> column_type values = XBT_INT32.
Proof using.
  destruct values as [|v l]; [contradiction|]. intros _ Hl. cbn [column_type]. rewrite (Hl v (or_introl eq_refl)).
  assert (G : forall l, (forall v, In v l -> XBT_Detect v = XBT_INT32) -> fold_left (fun ty v => XBT_Detect2 v ty) l XBT_INT32 = XBT_INT32).
  { clear. induction l as [|v l IH]; intros Hl; [reflexivity|]. cbn [fold_left]. unfold XBT_Detect2 at 2. rewrite (Hl v (or_introl eq_refl)). apply IH. intros w Hw. apply Hl. right. exact Hw. }
  apply G. intros w Hw. apply Hl. right. exact Hw.
Qed.

Lemma doc_int_attr_typed i name n : int32 n -> nth_error (attrs_of u) i = Some (name, sdec n) -> name <> lit "et-tecera" ->
  (forall w v, In w (elements root) -> In (name, v) (attrs_of w) -> exists j, int32 j /\ v = sdec j) ->
  exists R x y q, Initialize (Datatypes.S k) img = rret R /\ rd_root R = Some x /\ walk img x path = Ok (Some y) /\ getParamByIndex img (Some y) (Z.of_nat i) = Ok (Some q) /\
    param_getInt img (Some q) (Some y) = Ok n /\ param_getInt32 img (Some q) (Some y) XBT_INT32 = Ok (Some n) /\ pd_type img q = Ok XBT_INT32.
Proof using F H Hf Hm Hs S.
  intros Hn Hi Ht Hall. destruct (attrs_readable _ _ _ _ _ _ k _ _ _ _ Hm Hf F S H Hs Hi Ht) as (R & x & y & q & E & Ex & W & G & A).
  exists R, x, y, q. split; [exact E|]. split; [exact Ex|]. split; [exact W|]. split; [exact G|].
  assert (Ne : sdec n <> []) by (intros E0; assert (D := detect_int n Hn); rewrite E0 in D; discriminate D).
  assert (Col : column_type (values_of name (flat_map attrs_of (elements root))) = XBT_INT32).
  { apply column_int.
    - apply nth_error_In in Hi. intros E0. assert (In (sdec n) (values_of name (flat_map attrs_of (elements root)))); [|rewrite E0 in *; contradiction].
      unfold values_of. apply in_map_iff. exists (name, sdec n). split; [reflexivity|]. apply filter_In. split; [apply in_flat_map; exists u; split; [apply (sub_elements _ _ _ Hs)|exact Hi]|].
      cbn [fst]. destruct (list_eq_dec Z.eq_dec name name); [reflexivity|contradiction].
    - intros v Hv. unfold values_of in Hv. apply in_map_iff in Hv. destruct Hv as ((n' & v') & <- & Hv). apply filter_In in Hv. cbn [fst] in Hv. destruct Hv as (Hv & Hn'). destruct (list_eq_dec Z.eq_dec n' name) as [->|]; [|discriminate Hn'].
      apply in_flat_map in Hv. destruct Hv as (w & W1 & W2). destruct (Hall w v' W1 W2) as (j & Hj & ->). apply detect_int, Hj. }
  unfold attr_read in A. cbn [fst snd] in A. rewrite Col in A. assert (D2 : XBT_Detect2 (sdec n) XBT_INT32 = XBT_INT32) by (unfold XBT_Detect2; rewrite (detect_int n Hn); reflexivity). rewrite D2 in A.
  destruct A as [(A & _)|[(_ & A2 & _)|(ty & bs & _ & -> & A2 & (lim & sv & A3 & A4 & A5 & A6 & A7) & _ & A8 & _)]]; [contradiction| |].
  - exfalso. destruct (reached _ _ _ _ _ _ k _ _ Hm Hf F S H Hs) as (cr & R' & x' & y' & e & M & E' & Ex' & W' & N & Le & Hi' & _).
    rewrite E in E'. injection E' as <-. rewrite Ex in Ex'. injection Ex' as <-. rewrite W in W'. injection W' as <-.
    destruct (attr_nth fl cr img (zlen m) ltac:(lia) u y e i _ N Le Hi) as (q' & wp & e' & G' & Q & Y0 & Yw & Ee & A). rewrite G in G'. injection G' as <-.
    pose proof (sub_elements _ _ _ Hs) as Hu. pose proof (nth_error_In _ _ Hi) as Hin. pose proof M as (_ & _ & _ & _ & M5 & M6 & _).
    assert (Hst : attr_stored fl img (zlen m) root y q (name, sdec n)) by (apply (attr_ways fl cr img (zlen m) ltac:(lia) root y q (name, sdec n) wp e' M (M6 S) Y0 Yw Ee A); [apply (proj2 (M5 u Hu) name _ Hin)|exact Ht|cbn [snd]; rewrite (detect_int n Hn); discriminate]).
    destruct Hst as [T _|p T T2 _ _ Hty|ty st T Ety T2 _ _ _ _ _]; cbn [fst snd] in *; [contradiction| |].
    + destruct (Hty XBT_INT32) as [B|B]; [rewrite Col, D2; reflexivity|apply B; reflexivity|]. destruct (stores_int32 fl n (q + 4) (zlen m) Hn ltac:(lia)) as (sv & B' & _). congruence.
    + rewrite Col, D2 in Ety. subst ty. rewrite A2 in T2. discriminate T2.
  - assert (Hbs : bs = le 4 n). { assert (Q0 : 0 <= q + 4) by (pose proof (has_range _ _ _ A8); lia). destruct (stores_int32 fl n (q + 4) lim Hn Q0) as (sv' & B1 & B2 & _). rewrite A3 in B1. injection B1 as <-. congruence. }
    rewrite Hbs in A8. unfold param_getInt, param_getInt32. rewrite A2. cbn [obind]. change (XBT_INT32 =? XBT_INT32) with true. cbv iota. unfold pd_data. rewrite (has_s32 _ _ n Hn A8). split; [reflexivity|]. split; reflexivity.
Qed.
Lemma doc_int_attr i name n : int32 n -> nth_error (attrs_of u) i = Some (name, sdec n) -> name <> lit "et-tecera" ->
  (forall w v, In w (elements root) -> In (name, v) (attrs_of w) -> exists j, int32 j /\ v = sdec j) ->
  exists R x y q, Initialize (Datatypes.S k) img = rret R /\ rd_root R = Some x /\ walk img x path = Ok (Some y) /\ getParamByIndex img (Some y) (Z.of_nat i) = Ok (Some q) /\
    param_getInt img (Some q) (Some y) = Ok n /\ param_getInt32 img (Some q) (Some y) XBT_INT32 = Ok (Some n).
Proof using F H Hf Hm Hs S.
  intros Hn Hi Ht Hall. destruct (doc_int_attr_typed i name n Hn Hi Ht Hall) as (R & x & y & q & E1 & E2 & E3 & E4 & E5 & E6 & _). exists R, x, y, q. repeat (split; [assumption|]). exact E6.
Qed.

(** A missing attribute. *)
Lemma no_attr x : param_getInt img None x = Ok INT32_NULL /\ param_getInt32 img None x XBT_INT32 = Ok None.
Proof using. split; reflexivity. Qed.
End INT_DOC.
