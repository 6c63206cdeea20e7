(** Reading back what the converter wrote. *)
From Verif Require Import Base BaseFacts ListFacts Types CalSpec RingProofs ShownProofs RoundtripProofs SteadyProofs Sort SortProofs Symtab SymtabSpec SymtabProofs
  Xb XbSpec XbFacts XbSymProofs XbWrite DocSpec ReadSpec WriteProofs FillProofs InitProofs OpenProofs.

(** A node at [x]; unlike in [node_at] its children may stand anywhere. *)
Definition links_at (P : Z -> node -> Prop) m x :=
  fix go c (l : list node) {struct l} : Prop :=
    match l with
    | [] => True
    | k :: r => (exists z, has m c (le 4 (z - x)) /\ 0 <= z <= zlen m /\ P z k) /\ go (c + 4) r
    end.
Fixpoint dag_at fl cr m x (t : node) {struct t} : Prop :=
  let '(Node name value attrs kids) := t in
  exists limit id e1 e2, find_ name (cr_tags cr) = Ok id /\ 0 <= x /\ zlen attrs <= 32767 /\ zlen kids <= INT_MAX /\
  has m x (le 2 id ++ le 2 (zlen attrs) ++ le 4 (zlen kids)) /\
  value_at fl m (x + 12 + 8 * zlen attrs + 4 * zlen kids) value limit e1 /\
  attrs_at fl cr m x (x + 12) attrs limit e1 e2 /\
  links_at (fun z k => dag_at fl cr m z k) m x (x + 12 + 8 * zlen attrs) kids.
Lemma node_dag fl cr m limit t : forall x e, node_at fl cr m limit x e t -> e <= zlen m -> dag_at fl cr m x t.
Proof.
  induction t as [n v a k IH] using node_ind'. intros x e N He. cbn [node_at dag_at] in *. destruct N as (id & e1 & e2 & N1 & N2 & N3 & N4 & N5 & (N6 & _) & N7 & N8 & N9 & N10).
  exists limit, id, e1, e2. repeat (split; [assumption|]). assert (Mv : x + 12 + 8 * zlen a + 4 * zlen k < e1) by apply N8. pose proof (attrs_mono _ _ _ _ _ _ _ _ _ N9) as Ma. pose proof (zlen_nonneg a). pose proof (zlen_nonneg k).
  assert (W : 0 <= e2) by lia. clear N8 N9 Mv Ma N6 N7. revert N10 W. generalize (x + 12 + 8 * zlen a). revert e2. clear N5 H0. induction IH as [|t k Ht _ IHk]; intros e2 c K W; [exact I|].
  cbn [kids_at] in K. destruct K as (e3 & K1 & K2 & (K3 & _) & K4). pose proof (kids_mono _ _ _ _ _ _ _ K4). pose proof (align_up_ge 4 e2 ltac:(lia)). cbn [links_at]. split; [|apply (IHk e3); [exact K4|lia]].
  exists (align_up 4 e2). split; [exact K3|]. split; [lia|]. apply (Ht _ e3); [exact K1|lia].
Qed.

(** What reading needs of the tables. *)
Definition coded (root : node) (cr : creator) : Prop :=
  name_limits (cr_tags cr) /\ name_limits (cr_params cr) /\
  (forall n ty, In (n, ty) (cr_params cr) -> ty = column_type (values_of n (flat_map attrs_of (elements root)))).
Lemma made_coded root cr : made root cr -> coded root cr.
Proof. intros (A & B & _ & _ & _ & _ & C). repeat split; auto; try apply A; apply B. Qed.
(** A tree with other element names. *)
Fixpoint rename (f : list Z -> list Z) (t : node) : node := let '(Node n v a k) := t in Node (f n) v a (map (rename f) k).
Lemma rename_id f t : (forall u, In u (elements t) -> f (name_of u) = name_of u) -> rename f t = t.
Proof.
  induction t as [n v a k IH] using node_ind'. intros H. cbn [rename]. pose proof (H (Node n v a k) (or_introl eq_refl)) as Q. cbn [name_of] in Q. rewrite Q. f_equal. rewrite Forall_forall in IH.
  rewrite <- (map_id k) at 2. apply map_ext_in. intros u Hu. apply IH; [exact Hu|]. intros w Hw. apply H. eapply elements_kids; eassumption.
Qed.

Section READ.
Context (fl : floats) (cr : creator) (m : list Z) (R : reader) (root : node) (out : list Z).
Context (Hfl : floats_ok fl) (Hb : bytes m) (Hm : zlen m <= INT_MAX).
Context (M : coded root cr).
Context (T1 : table_names m (rd_tags R) (names (cr_tags cr))) (T2 : table_names m (rd_params R) (names (cr_params cr))).

Lemma image_shows v p limit st0 st : steady_text v -> 0 <= p -> XBT_FromString fl v (XBT_Detect v) p limit = Ok st0 ->
  has m (st_pos st0) (st_bytes st0) -> ring_ok st ->
  exists s st', image_ToString fl m (XBT_Detect v) p out st = Ok (s, st') /\ text_of s st' = v /\ ring_ok st'.
Proof.
  intros (H1 & H2 & H3) Hp E H Ho. destruct (steady_shows fl v p limit Hfl H1 H2 H3 Hp) as (bs & (sv & E' & Eb & P1 & P2 & P3) & _ & N & S).
  rewrite E in E'. inversion E'; subst sv. clear E'. rewrite Eb in H.
  assert (P : align_to (XBT_Align (XBT_Detect v)) p = st_pos st0) by (rewrite P3; destruct (Z.eqb_spec (XBT_Detect v) XBT_UNIX_TIME64_MSEC); [contradiction|reflexivity]).
  destruct (has_skip _ _ _ H) as (rest & Er).
  assert (Br : bytes rest) by (assert (B : bytes (zskip (st_pos st0) m)) by (apply bytes_skip, Hb); rewrite Er in B; rewrite bytes_app in B; apply B).
  destruct (S rest out st Br Ho) as (Rd & s & st' & Es & Et & Eo). exists s, st'. split; [|split; [unfold text_of; rewrite Et; reflexivity|exact Eo]].
  unfold image_ToString. cbv zeta. rewrite P, Er, Rd. pose proof (has_range _ _ _ H) as Hr. pose proof (zlen_nonneg bs).
  destruct (Z.leb_spec 0 (st_pos st0)); [|lia]. destruct (Z.leb_spec (st_pos st0) (zlen m)); [|lia]. exact Es.
Qed.

Lemma value_reads x p v limit e st : 0 <= x -> value_pos m x = Ok p -> 0 <= p -> value_at fl m p v limit e -> (forall t, v = Some t -> cstring t) ->
  (forall t, v = Some t -> t = [] \/ steady_text t) -> ring_ok st ->
  exists s st', getString fl m (Some x) out st = Ok (s, st') /\ ring_ok st' /\
    match text_of s st' with [] => None | t => Some t end = match v with Some [] => None | w => w end.
Proof.
  intros Hx Hp Hp0 V Hc Hs Ho. unfold getString, value_type. rewrite Hp. cbn [obind].
  assert (Hnull : forall e, inside m p e p [XBT_NULL] -> exists s st', obind (obind (rd_u8 m p) (fun t => Ok (s8 t, p + 1))) (fun '(t, p0) => if t =? XBT_STRING
     then obind (rd_str m p0) (fun s => Ok (Text s, st)) else image_ToString fl m t p0 out st) = Ok (s, st') /\ ring_ok st' /\ text_of s st' = []).
  { clear V e. intros e (A & B & C). rewrite (has_u8 _ _ XBT_NULL ltac:(unfold XBT_NULL; lia) A). cbn [obind]. change (s8 XBT_NULL) with XBT_NULL. change (XBT_NULL =? XBT_STRING) with false. cbv iota.
    apply has_range in A. change (zlen [XBT_NULL]) with 1 in A. unfold image_ToString. change (align_to (XBT_Align XBT_NULL) (p + 1)) with (p + 1). cbv zeta.
    destruct (Z.leb_spec 0 (p + 1)); [|lia]. destruct (Z.leb_spec (p + 1) (zlen m)); [|lia]. cbn [andb]. change (readable XBT_NULL (zskip (p + 1) m)) with true. cbv iota.
    exists NoText, st. split; [reflexivity|]. split; [exact Ho|reflexivity]. }
  destruct V as (V0 & V). destruct v as [t|].
  - destruct V as (A & sv & B & C & D). destruct (Hs t eq_refl) as [->|S].
    + destruct (Hnull _ A) as (s & st' & E1 & E2 & E3). exists s, st'. split; [exact E1|]. split; [exact E2|]. rewrite E3. reflexivity.
    + pose proof (detect_type t) as Dt. destruct A as (A & _ & _). rewrite (has_u8 _ _ (XBT_Detect t) ltac:(lia) A). cbn [obind].
      assert (S8 : s8 (XBT_Detect t) = XBT_Detect t) by (unfold s8; lia). rewrite S8.
      assert (Ne : t <> []) by (intros ->; destruct S as (S & _); destruct (exact_form fl [] 0 0 S ltac:(lia)) as (bs & _ & F & _); destruct (form_ok [] _ bs [] F) as (_ & _ & _ & N); [vm_compute; discriminate|vm_compute; discriminate|apply N; reflexivity]).
      destruct (Z.eqb_spec (XBT_Detect t) XBT_STRING) as [E|E].
      * rewrite E in B. change (XBT_FromString fl t XBT_STRING (p + 1) limit) with (Ok (mkstored (p + 1) (t ++ [0]) (p + 1 + zlen (t ++ [0])))) in B. inversion B; subst sv. cbn [st_pos st_bytes] in C. destruct C as (C & _).
        rewrite (has_str _ _ t (Hc t eq_refl) C). cbn [obind]. exists (Text t), st. split; [reflexivity|]. split; [exact Ho|]. unfold text_of. cbn [shown_text]. destruct t; [contradiction|reflexivity].
      * destruct C as (C & _). destruct (image_shows t (p + 1) limit sv st S ltac:(lia) B C Ho) as (s & st' & E1 & E2 & E3). exists s, st'. split; [exact E1|]. split; [exact E3|]. rewrite E2. destruct t; [contradiction|reflexivity].
  - destruct V as (A & _). destruct (Hnull _ A) as (s & st' & E1 & E2 & E3). exists s, st'. split; [exact E1|]. split; [exact E2|]. rewrite E3. reflexivity.
Qed.

Lemma attr_reads x q a limit wp e st : 0 <= x -> x <= wp -> x <= q -> attr_at fl cr m x q a limit wp e -> In (fst a) (names (cr_params cr)) -> cstring (snd a) ->
  steady_attr root a -> ring_ok st ->
  exists id s st', pd_name m q = Ok id /\ getSymbol m (rd_params R) id = Ok (fst a) /\ param_getString fl m (Some q) (Some x) out st = Ok (s, st') /\ ring_ok st' /\ text_of s st' = snd a.
Proof.
  intros Hx Hwx Hq (A0 & id & A1 & (A2 & _) & A3) Hin Hcs (Ht & Hs) Ho. destruct M as (M1 & M2 & M7).
  destruct (find_symbol m (rd_params R) _ _ id M2 T2 (or_introl Hin) A1) as (I1 & I2). assert (Hid : zlen (cr_params cr) <= 32768) by apply M2.
  exists id. assert (Hn : pd_name m q = Ok id) by (apply has_s16; [lia|exact A2]).
  assert (Hx' : x <= zlen m /\ q + 2 <= zlen m) by (assert (Hr := has_range _ _ _ A2); rewrite le_zlen in Hr; lia).
  unfold INT_MAX in Hm.
  destruct A3 as [(B1 & (B2 & _) & (B3 & _) & B4)|(B1 & ty & (ty0 & C1 & C2) & B)].
  - exists NoText, st. split; [exact Hn|]. split; [exact I2|]. split; [|split; [exact Ho|rewrite B1; reflexivity]].
    unfold param_getString, pd_type, pd_data. rewrite (has_u8 _ _ XBT_NULL ltac:(unfold XBT_NULL; lia) B2). cbn [obind]. change (XBT_NULL =? XBT_STRING) with false. change (XBT_IS_4 XBT_NULL) with false. cbv iota.
    rewrite (has_s32 _ _ 0 ltac:(unfold int32, INT_MIN, INT_MAX; lia) B3). cbn [obind]. unfold image_ToString. change (align_to (XBT_Align XBT_NULL) (x + 0)) with (x + 0). cbv zeta.
    destruct (Z.leb_spec 0 (x + 0)); [|lia]. destruct (Z.leb_spec (x + 0) (zlen m)); [|lia]. reflexivity.
  - assert (Ety : ty = XBT_Detect2 (snd a) (column_type (values_of (fst a) (flat_map attrs_of (elements root))))).
    { rewrite C2. f_equal. assert (Z0 : 0 <= id < zlen (cr_params cr) /\ name_at (cr_params cr) id = Ok (fst a)).
      { unfold find_ in A1. destruct (find_ok (fst a) (cr_params cr) (proj1 M2) Ht) as (i & Fi & [[Hi Hni]|[_ Hni]]); [|contradiction]. rewrite Fi in A1. inversion A1; subst i. auto. }
      destruct Z0 as (Z0 & Z1). assert (Es : s16 id = id) by (unfold s16; lia). rewrite Es in C1. destruct (Z.leb_spec 0 id); [|lia]. unfold type_at in C1. unfold name_at in Z1. destruct (id <? 0); [discriminate|].
      destruct (nth_error (cr_params cr) (Z.to_nat id)) as [[n t]|] eqn:En; [|discriminate]. inversion C1; inversion Z1; subst. apply nth_error_In in En. apply (M7 _ _ En). }
    assert (Text_case : has m (q + 2) [XBT_STRING] -> has m (q + 4) (le 4 (wp - x)) -> has m wp (snd a ++ [0]) ->
       exists s st', pd_name m q = Ok id /\ getSymbol m (rd_params R) id = Ok (fst a) /\ param_getString fl m (Some q) (Some x) out st = Ok (s, st') /\ ring_ok st' /\ text_of s st' = snd a).
    { intros D1 D2 D3. exists (Text (snd a)), st. split; [exact Hn|]. split; [exact I2|]. split; [|split; [exact Ho|reflexivity]].
      unfold param_getString, pd_type, pd_data. rewrite (has_u8 _ _ XBT_STRING ltac:(unfold XBT_STRING; lia) D1). cbn [obind]. change (XBT_STRING =? XBT_STRING) with true. cbv iota.
      pose proof (has_range _ _ _ D3) as Hr. pose proof (zlen_nonneg (snd a ++ [0])).
      assert (Hi : int32 (wp - x)) by (unfold int32, INT_MIN, INT_MAX; lia).
      rewrite (has_s32 _ _ (wp - x) Hi D2). cbn [obind]. replace (x + (wp - x)) with wp by lia. rewrite (has_str _ _ (snd a) Hcs D3). reflexivity. }
    destruct B as [(B2 & (B3 & _) & _ & sv & B4 & (B5 & _))|(B2 & (B3 & _) & (B4 & _) & (B5 & _) & _)]; [|apply Text_case; assumption].
    destruct Hs as [Hs|[Hs|(S1 & S2 & S3)]]; [contradiction|rewrite <- Ety in Hs; contradiction|]. rewrite <- Ety in S1, S3. rewrite S1 in B2, B3, B4, S3.
    pose proof (detect_type (snd a)) as Dt.
    destruct (image_shows (snd a) (q + 4) limit sv st S2 ltac:(lia) B4 B5 Ho) as (s & st' & E1 & E2 & E3). exists s, st'. split; [exact Hn|]. split; [exact I2|]. split; [|split; [exact E3|exact E2]].
    unfold param_getString, pd_type. rewrite (has_u8 _ _ (XBT_Detect (snd a)) ltac:(lia) B3). cbn [obind].
    assert (K : XBT_IS_4 (XBT_Detect (snd a)) = true /\ (XBT_Detect (snd a) =? XBT_STRING) = false).
    { destruct S2 as (Se & Sn & Sm). destruct (exact_form fl (snd a) (q + 4) limit Se ltac:(lia)) as (bs & _ & F & _).
      destruct F as [[F _]|[(F & _)|[[F _]|[[F _]|[[F _]|(F & _)]]]]].
      - cbn [In] in F. repeat (destruct F as [<-|F]; [split; reflexivity|]). contradiction.
      - contradiction.
      - cbn [In] in F. destruct F as [F|[F|[]]]; congruence.
      - rewrite F in B2. discriminate B2.
      - rewrite F in B2. discriminate B2.
      - rewrite F in B2. discriminate B2. }
    destruct K as (-> & ->). exact E1.
Qed.

Lemma attrs_read x limit l : forall i wp e st, 0 <= x -> x <= wp -> 0 <= i -> it_paramcount m x = Ok (i + zlen l) -> attrs_at fl cr m x (x + 12 + 8 * i) l limit wp e ->
  (forall a, In a l -> In (fst a) (names (cr_params cr)) /\ cstring (snd a) /\ steady_attr root a) -> ring_ok st ->
  exists st', read_attrs (List.length l) fl m R x i out st = Ok (l, st') /\ ring_ok st'.
Proof.
  induction l as [|a l IH]; intros i wp e st Hx Hw Hi Hpc A Hl Ho; [exists st; split; [reflexivity|exact Ho]|].
  cbn [attrs_at] in A. destruct A as (e1 & A1 & A2). destruct (Hl a (or_introl eq_refl)) as (L1 & L2 & L3).
  destruct (attr_reads x (x + 12 + 8 * i) a limit wp e1 st Hx Hw ltac:(lia) A1 L1 L2 L3 Ho) as (id & s & st1 & E1 & E2 & E3 & E4 & E5).
  rewrite zlen_cons in Hpc. pose proof (zlen_nonneg l). assert (We : wp <= e1) by apply A1.
  destruct (IH (i + 1) e1 e st1 Hx ltac:(lia) ltac:(lia)) as (st2 & F1 & F2); [rewrite Hpc; f_equal; lia|replace (x + 12 + 8 * (i + 1)) with (x + 12 + 8 * i + 8) by lia; exact A2|intros b Hb'; apply Hl; right; exact Hb'|exact E4|].
  exists st2. split; [|exact F2]. cbn [List.length read_attrs]. unfold getParamByIndex at 1. destruct (Z.ltb_spec i 0); [lia|]. rewrite Hpc. cbn [obind]. destruct (Z.leb_spec (i + (1 + zlen l)) i); [lia|].
  rewrite E1. cbn [obind]. rewrite E2. cbn [obind]. rewrite E3. cbn [obind]. rewrite F1. cbn [obind]. rewrite E5. destruct a; reflexivity.
Qed.

(** An element whose names are shown as [f] says. *)
Lemma dag_reads_as f t : (forall u, In u (elements t) -> element_fits u /\ steady_value u /\ (forall a, In a (attrs_of u) -> steady_attr root a) /\
    (forall id, find_ (name_of u) (cr_tags cr) = Ok id -> -9 <= id < 32768 /\ getSymbol m (rd_tags R) id = Ok (f (name_of u))) /\
    forall n v, In (n, v) (attrs_of u) -> In n (names (cr_params cr))) ->
  forall x fuel st, dag_at fl cr m x t -> (height t <= fuel)%nat -> ring_ok st ->
  exists st', read_node fuel fl m R x out st = rret (normal (rename f t), st') /\ ring_ok st'.
Proof.
  induction t as [n v a k IH] using node_ind'. intros Sub x fuel st N Hh Ho.
  destruct fuel as [|fuel]; [cbn [height] in Hh; lia|].
  cbn [dag_at] in N. destruct N as (limit & id & e1 & e2 & N1 & N3 & N4 & N5 & N6 & N8 & N9 & N10). assert (Hxr : x <= zlen m) by (apply has_range in N6; rewrite !zlen_app, !le_zlen in N6; lia).
  destruct (Sub (Node n v a k) (or_introl eq_refl)) as ((F1 & F2 & F3 & _ & _) & S1 & S3 & M6 & M7).
  unfold steady_value in S1. cbn [name_of value_of attrs_of kids_of] in F1, F2, F3, S1, S3, M6, M7.
  destruct (M6 id N1) as (I1 & I2).
  apply head_split in N6. destruct N6 as (H1 & H2 & H3). unfold INT_MAX in *. pose proof (zlen_nonneg a). pose proof (zlen_nonneg k).
  pose proof (attrs_mono _ _ _ _ _ _ _ _ _ N9) as Ma. assert (Mv : x + 12 + 8 * zlen a + 4 * zlen k < e1) by apply N8.
  assert (E1 : it_name m x = Ok id) by (apply has_s16; [lia|exact H1]).
  assert (E2 : it_paramcount m x = Ok (zlen a)) by (apply has_s16; [lia|exact H2]).
  assert (E3 : it_childcount m x = Ok (zlen k)) by (apply has_s32; [unfold int32, INT_MIN, INT_MAX; lia|exact H3]).
  cbn [read_node]. rewrite E1. cbn [obind]. rewrite I2. change (Some (Ok (f n))) with (rret (f n)). rb. rewrite E2. change (Some (Ok (zlen a))) with (rret (zlen a)). rb.
  rewrite E3. change (Some (Ok (zlen k))) with (rret (zlen k)). rb.
  assert (La : Z.to_nat (zlen a) = List.length a) by (unfold zlen; lia). rewrite La.
  destruct (attrs_read x limit a 0 e1 e2 st N3 ltac:(lia) ltac:(lia)) as (st1 & A1 & A2); [rewrite E2; f_equal; lia|replace (x + 12 + 8 * 0) with (x + 12) by lia; exact N9| |exact Ho|].
  { intros [bn bv] Hin. split; [apply (M7 bn bv Hin)|]. split; [apply (F3 bn bv Hin)|apply S3, Hin]. }
  rewrite A1. change (Some (Ok (a, st1))) with (rret (a, st1)). rb.
  destruct (value_reads x (x + 12 + 8 * zlen a + 4 * zlen k) v limit e1 st1 N3) as (s & st2 & B1 & B2 & B3); [unfold value_pos; rewrite E2, E3; reflexivity|lia|exact N8|exact F2|exact S1|exact A2|].
  rewrite B1. change (Some (Ok (s, st2))) with (rret (s, st2)). rb. rewrite B3.
  match goal with |- exists st', rbind (?g (Z.to_nat (zlen k)) 0 st2) _ = _ /\ _ => set (go := g) end.
  assert (K : forall l c i st3, Forall (fun t => In t k) l -> i + zlen l = zlen k -> 0 <= i -> c = x + 12 + 8 * zlen a + 4 * i -> links_at (fun z t => dag_at fl cr m z t) m x c l -> ring_ok st3 ->
     exists st', go (List.length l) i st3 = rret (map (fun t => normal (rename f t)) l, st') /\ ring_ok st').
  { clear B1 B2 B3 A1 A2 st1 st2 N9 N10 Ma s e2 Mv N8 e1 Ho st. induction l as [|t l IHl]; intros c i st3 Hl Hi Hi0 -> Hk Ho; [exists st3; split; [reflexivity|exact Ho]|].
    cbn [links_at] in Hk. destruct Hk as ((z & K3 & K2 & K1) & K4). inversion Hl as [|? ? Ht Hl']; subst. rewrite zlen_cons in Hi. pose proof (zlen_nonneg l).
    rewrite Forall_forall in IH. destruct (IH t Ht) with (x := z) (fuel := fuel) (st := st3) as (st4 & C1 & C2); try assumption.
    - intros u Hu. apply Sub. eapply elements_kids; eassumption.
    - cbn [height] in Hh. assert (Hmax : (height t <= fold_right Nat.max 0 (map height k))%nat).
      { clear - Ht. induction k as [|y k IHk]; [destruct Ht|]. cbn [map fold_right]. destruct Ht as [->|Ht]; [lia|]. specialize (IHk Ht). lia. }
      lia.
    - destruct (IHl (x + 12 + 8 * zlen a + 4 * i + 4) (i + 1) st4 Hl' ltac:(lia) ltac:(lia) ltac:(lia) K4 C2) as (st5 & D1 & D2).
      exists st5. split; [|exact D2]. cbn [List.length]. 
      match goal with |- go (Datatypes.S ?n) ?i ?s = _ => change (go (Datatypes.S n) i s) with (rbind (Some (getChildByIndex m (Some x) i)) (fun c => match c with None => Some Fail | Some y => rbind (read_node fuel fl m R y out s) (fun '(t, st) => rbind (go n (i + 1) st) (fun '(l, st) => rret (t :: l, st))) end)) end.
      unfold getChildByIndex at 1, children_pos. rewrite E3. cbn [obind]. destruct (Z.ltb_spec i 0); [lia|]. destruct (Z.leb_spec (zlen k) i); [lia|]. cbn [orb]. rewrite E2. cbn [obind].
      assert (Hi32 : int32 (z - x)) by (unfold int32, INT_MIN, INT_MAX; lia).
      rewrite (has_s32 _ _ _ Hi32 K3). cbn [obind]. replace (x + (z - x)) with z by lia.
      change (Some (Ok (Some z))) with (rret (Some z)). rb. rewrite C1. rb. rewrite D1. rb. reflexivity. }
  assert (Lk : Z.to_nat (zlen k) = List.length k) by (unfold zlen; lia). rewrite Lk.
  destruct (K k (x + 12 + 8 * zlen a) 0 st2) as (st3 & D1 & D2); [apply Forall_forall; auto|lia|lia|lia|exact N10|exact B2|].
  rewrite D1. rb. exists st3. split; [cbn [rename normal]; rewrite map_map; reflexivity|exact D2].
Qed.

End READ.
(** An element whose names are in the tables. *)
Lemma dag_reads fl cr m R root out (Hfl : floats_ok fl) (Hb : bytes m) (Hm : zlen m <= INT_MAX) (M : made root cr)
  (T1 : table_names m (rd_tags R) (names (cr_tags cr))) (T2 : table_names m (rd_params R) (names (cr_params cr))) t :
  (forall u, In u (elements t) -> element_fits u /\ steady_value u /\ (forall a, In a (attrs_of u) -> steady_attr root a) /\
    In (name_of u) (names (cr_tags cr)) /\ forall n v, In (n, v) (attrs_of u) -> In n (names (cr_params cr))) ->
  forall x fuel st, dag_at fl cr m x t -> (height t <= fuel)%nat -> ring_ok st ->
  exists st', read_node fuel fl m R x out st = rret (normal t, st') /\ ring_ok st'.
Proof.
  intros Sub x fuel st D Hh Ho. pose proof (rename_id (fun n => n) t (fun u _ => eq_refl)) as Q.
  destruct (dag_reads_as fl cr m R root out Hfl Hb Hm (made_coded _ _ M) T2 (fun n => n) t) with (x := x) (fuel := fuel) (st := st) as (st' & E1 & E2); auto; [|rewrite Q in E1; exists st'; auto]. intros u Hu. destruct (Sub u Hu) as (A & B & C & D' & E). repeat (split; [assumption|]). split; [|exact E].
  intros id Fi. destruct M as (M1 & _). assert (Hid : zlen (cr_tags cr) <= 32768) by apply M1. destruct (find_symbol m (rd_tags R) _ _ id M1 T1 (or_introl D') Fi) as (I1 & I2). split; [lia|exact I2].
Qed.

Section READ_NODE.
Context (fl : floats) (cr : creator) (m : list Z) (limit : Z) (R : reader) (root : node) (out : list Z).
Context (Hfl : floats_ok fl) (Hb : bytes m) (Hm : zlen m <= INT_MAX).
Context (M : made root cr).
Context (T1 : table_names m (rd_tags R) (names (cr_tags cr))) (T2 : table_names m (rd_params R) (names (cr_params cr))).

Lemma element_reads t : (forall u, In u (elements t) -> element_fits u /\ steady_value u /\ (forall a, In a (attrs_of u) -> steady_attr root a) /\
    In (name_of u) (names (cr_tags cr)) /\ forall n v, In (n, v) (attrs_of u) -> In n (names (cr_params cr))) ->
  forall x e fuel st, node_at fl cr m limit x e t -> e <= zlen m -> (height t <= fuel)%nat -> ring_ok st ->
  exists st', read_node fuel fl m R x out st = rret (normal t, st') /\ ring_ok st'.
Proof using Hfl Hb Hm M T1 T2. intros Sub x e fuel st N He. eapply dag_reads; try eassumption. eapply node_dag; eassumption. Qed.

Lemma node_reads t : (forall u, In u (elements t) -> In u (elements root)) -> document_fits root -> steady_document root ->
  forall x e fuel st, node_at fl cr m limit x e t -> e <= zlen m -> (height t <= fuel)%nat -> ring_ok st ->
  exists st', read_node fuel fl m R x out st = rret (normal t, st') /\ ring_ok st'.
Proof.
  intros Sub F S. apply element_reads. intros u Hu. specialize (Sub u Hu). pose proof M as (_ & _ & _ & _ & M5 & _).
  split; [apply (proj1 F _ Sub)|]. destruct (S _ Sub) as (S1 & _ & S3). destruct (M5 _ Sub) as (M6 & M7). auto.
Qed.

End READ_NODE.

Lemma reads_back fl m filename modified root img k out st fuel : floats_ok fl -> bytes m -> zlen m <= INT_MAX -> cstring filename ->
  document_fits root -> steady_document root -> Make_xb fl m filename modified root = rret img -> ring_ok st -> (height root <= fuel)%nat ->
  exists R x st', Initialize (S k) img = rret R /\ rd_root R = Some x /\ read_node fuel fl img R x out st = rret (normal root, st').
Proof.
  intros Hfl Hb Hm Hf F S H Ho Hh. destruct (Make_xb_doc _ _ _ _ _ _ F Hf H) as (cr & size & y1 & e1 & y2 & e2 & y3 & x & M & D & L & _ & Bi).
  specialize (Bi Hb). pose proof M as (A1 & A2 & A3 & A4 & A5 & A6 & _). assert (Hi : int32 (zlen img)) by (pose proof (zlen_nonneg img); unfold int32, INT_MIN, INT_MAX in *; lia).
  destruct (Initialize_doc fl cr img (zlen m) size filename root y1 e1 y2 e2 y3 x D Hf ltac:(lia) Hi A1 A2 k) as (R & E & Ex & T1 & T2).
  assert (P : payload_at fl cr img (zlen m) y3 x size root) by apply D. destruct P as (_ & _ & _ & _ & _ & _ & _ & _ & _ & N).
  assert (Hg : good_source cr root) by (split; [apply A6; intros u Hu; apply (S u Hu)|intros u Hu; apply (S u Hu)]).
  destruct (node_reads fl cr img (zlen m) R root out Hfl Bi ltac:(unfold INT_MAX in *; lia) M T1 T2 root (fun u Hu => Hu) F S x size fuel st (N Hg) ltac:(lia) Hh Ho) as (st' & E1 & _).
  exists R, x, st'. auto.
Qed.
