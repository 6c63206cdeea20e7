(** The whole image: symbol tables, payload container, document header; opening it. *)
From Verif Require Import Base BaseFacts ListFacts Scan ScanProofs Types Sort SortProofs Symtab SymtabSpec SymtabProofs
  Xb XbSpec XbFacts XbSymProofs XbWrite DocSpec JoinProofs WriteProofs.

Tactic Notation "step" hyp(H) ident(E) simple_intropattern(n) :=
  match type of H with obind ?o _ = _ => destruct o as [n| |] eqn:E; cbn [obind] in H; try discriminate H end.

(** ** Symbol tables *)

Fixpoint names_at m x refs types (t : table) wp e : Prop :=
  match t with
  | [] => e = wp
  | (n, ty) :: r => has m refs (le 4 (wp - x)) /\ has m types [ty] /\ has m wp (n ++ [0]) /\
                    names_at m x (refs + 4) (types + 1) r (wp + zlen n + 1) e
  end.
Lemma names_mono m x t : forall refs types wp e, names_at m x refs types t wp e -> wp <= e.
Proof. induction t as [|[n ty] t IH]; intros refs types wp e; cbn [names_at]; [lia|]. intros (_ & _ & _ & H). apply IH in H. pose proof (zlen_nonneg n). lia. Qed.

Lemma names_frame m m' x lo hi t : moves m m' lo hi -> forall refs types wp e, lo <= refs -> refs + 4 * zlen t <= hi -> lo <= types -> types + zlen t <= hi -> lo <= wp -> e <= hi ->
  names_at m x refs types t wp e -> names_at m' x refs types t wp e.
Proof.
  intros S. induction t as [|[n ty] t IH]; intros refs types wp e R1 R2 T1 T2 W1 W2; cbn [names_at]; [auto|]. rewrite zlen_cons in *. pose proof (zlen_nonneg t). pose proof (zlen_nonneg n).
  intros (A & B & C & D). pose proof (names_mono _ _ _ _ _ _ _ D).
  split; [apply S; [exact A|lia|rewrite le_zlen; lia]|]. split; [apply S; [exact B|lia|change (zlen [ty]) with 1; lia]|].
  split; [apply S; [exact C|lia|rewrite zlen_app; change (zlen [0]) with 1; lia]|]. apply IH; try lia. exact D.
Qed.

Lemma store_names_ok x t : (forall n ty, In (n, ty) t -> cstring n /\ 0 <= ty < 256) ->
  forall m wp refs types m' wp', refs + 4 * zlen t <= types -> types + zlen t <= wp -> store_names m wp x refs types t = Ok (m', wp') ->
  zlen m' = zlen m /\ (bytes m -> bytes m') /\ wp <= wp' <= Z.max wp (zlen m) /\ names_at m' x refs types t wp wp' /\
  forall q cs, has m q cs -> q + zlen cs <= refs \/ refs + 4 * zlen t <= q -> q + zlen cs <= types \/ types + zlen t <= q ->
    q + zlen cs <= wp \/ wp' <= q -> has m' q cs.
Proof.
  induction t as [|[n ty] t IH]; intros Ht m wp refs types m' wp' R T H; cbn [store_names names_at] in *.
  - inversion H; subst. repeat split; auto; lia.
  - rewrite zlen_cons in *. pose proof (zlen_nonneg t). pose proof (zlen_nonneg n). step H E1 m1. step H E2 m2. step H E3 m3.
    destruct (Ht n ty (or_introl eq_refl)) as [Hn Hty].
    destruct (wr_ok _ _ _ _ (le_bytes _ _) E1) as (A1 & A2 & A3 & A4). rewrite le_zlen in *. change (Z.of_nat 4) with 4 in *.
    destruct (wr_ok _ _ _ _ (one_byte ty Hty) E2) as (B1 & B2 & B3 & B4). change (zlen [ty]) with 1 in *.
    destruct (wr_ok _ _ _ _ (cstr0_bytes n Hn) E3) as (C1 & C2 & C3 & C4). rewrite zlen_app in *. change (zlen [0]) with 1 in *.
    specialize (A4 refs (refs + 4)). specialize (B4 types (types + 1)). specialize (C4 wp (wp + (zlen n + 1))).
    assert (L1 : zlen m1 = zlen m) by apply A4. assert (L2 : zlen m2 = zlen m1) by apply B4. assert (L3 : zlen m3 = zlen m2) by apply C4.
    destruct (IH (fun n ty Hin => Ht n ty (or_intror Hin)) m3 (wp + zlen n + 1) (refs + 4) (types + 1) m' wp' ltac:(lia) ltac:(lia) H) as (D1 & D2 & D3 & D4 & D5).
    split; [lia|]. split; [intros Hb; apply D2, C4, B4, A4, Hb|]. split; [lia|]. split.
    + split; [|split; [|split; [|exact D4]]].
      * apply D5; rewrite ?le_zlen; try lia. eapply has_except; [exact C4| | |]; rewrite ?le_zlen; try lia. eapply has_except; [exact B4|exact A3| |]; rewrite ?le_zlen; lia.
      * apply D5; change (zlen [ty]) with 1; try lia. eapply has_except; [exact C4|exact B3| |]; change (zlen [ty]) with 1; lia.
      * apply D5; rewrite ?zlen_app; change (zlen [0]) with 1; try lia. exact C3.
    + intros q cs Hq Q1 Q2 Q3. apply D5; try lia. eapply has_except; [exact C4| |lia|lia]. eapply has_except; [exact B4| |lia|lia]. eapply has_except; [exact A4|exact Hq|lia|lia].
Qed.

(** A stored table: from [x] to [e], its names end at [b]. *)
Definition table_at m x e tag (t : table) : Prop :=
  x mod 4 = 0 /\ 0 <= x /\ x + 36 <= e /\
  has m x (le 2 tag ++ le 2 2 ++ le 4 0) /\ has m (x + 8) (le 4 (e - x)) /\
  has m (x + 12) (le 2 XPNR_COUNT ++ [XBT_INT32]) /\ has m (x + 16) (le 4 (zlen t)) /\
  has m (x + 20) (le 2 XPNR_TYPE_COUNT ++ [XBT_INT32]) /\ has m (x + 24) (le 4 (zlen t)) /\
  has m (x + 28) [XBT_BLOB] /\
  exists b, has m (x + 32) (le 4 (b - (x + 36))) /\ b <= e /\
  names_at m x (x + 36) (x + 36 + 4 * zlen t) t (x + 36 + 5 * zlen t) b.

Ltac len := rewrite ?zlen_app, ?le_zlen; repeat change (zlen [_]) with 1; change (Z.of_nat 2) with 2; change (Z.of_nat 4) with 4.
(** Carry a fact back through the stores that did not touch it. *)
Ltac back := repeat (first [assumption |
  match goal with |- has ?m' _ _ => match goal with X : except ?m m' _ _ _ _ |- _ => eapply has_except; [exact X| |len; lia|len; lia] end end]).

Lemma WriteChildSymbols_ok m wp tag t m' wp' x : (forall n ty, In (n, ty) t -> cstring n /\ 0 <= ty < 256) -> 0 <= wp ->
  WriteChildSymbols m wp tag t = Ok (m', wp', x) ->
  x = align_up 4 wp /\ wp' mod 4 = 0 /\ except m m' x wp' x wp' /\ table_at m' x wp' tag t.
Proof.
  intros Ht Hw H. unfold WriteChildSymbols in H. cbv zeta in H. set (X := align_up 4 wp) in *.
  assert (X4 : X mod 4 = 0) by (apply align_up_mod; lia). pose proof (align_up_ge 4 wp ltac:(lia)) as Xg. fold X in Xg. pose proof (zlen_nonneg t) as Ht0.
  assert (As : align_up 4 (X + 12 + 17) = X + 32) by (unfold align_up; lia). rewrite As in H.
  replace (X + 32 + 4) with (X + 36) in H by lia. replace (X + 12 + 4) with (X + 16) in H by lia. replace (X + 12 + 8) with (X + 20) in H by lia.
  replace (X + 12 + 12) with (X + 24) in H by lia. replace (X + 12 + 16) with (X + 28) in H by lia.
  step H E1 m1. step H E2 m2. step H E3 m3. step H E4 m4. step H E5 m5. step H E6 m6. step H E7 [m7 wp7]. step H E8 m8. step H E9 m9. inversion H; subst m' wp' x. clear H.
  apply wr_ok in E1; [|rewrite !bytes_app; repeat split; apply le_bytes]. destruct E1 as (_ & A1 & A2 & A3).
  apply wr_ok in E2; [|rewrite bytes_app; split; [apply le_bytes|apply one_byte; unfold XBT_INT32; lia]]. destruct E2 as (_ & B1 & B2 & B3).
  apply wr_ok in E3; [|apply le_bytes]. destruct E3 as (_ & C1 & C2 & C3).
  apply wr_ok in E4; [|rewrite bytes_app; split; [apply le_bytes|apply one_byte; unfold XBT_INT32; lia]]. destruct E4 as (_ & D1 & D2 & D3).
  apply wr_ok in E5; [|apply le_bytes]. destruct E5 as (_ & F1 & F2 & F3).
  apply wr_ok in E6; [|apply one_byte; unfold XBT_BLOB; lia]. destruct E6 as (_ & G1 & G2 & G3).
  destruct (store_names_ok X t Ht m6 (X + 36 + 5 * zlen t) (X + 36) (X + 36 + 4 * zlen t) m7 wp7 ltac:(lia) ltac:(lia) E7) as (N1 & N2 & N3 & N4 & N5).
  assert (X7 : except m6 m7 (X + 36) wp7 (X + 36) wp7).
  { split; [exact N1|]. split; [exact N2|]. intros q cs Hq Q1 _. apply N5; [exact Hq|lia|lia|lia]. }
  apply wr_ok in E8; [|apply le_bytes]. destruct E8 as (_ & I1 & I2 & I3).
  apply wr_ok in E9; [|apply le_bytes]. destruct E9 as (_ & J1 & J2 & J3).
  rewrite ?zlen_app, ?le_zlen in *. change (zlen [XBT_BLOB]) with 1 in *. change (zlen [XBT_INT32]) with 1 in *. change (Z.of_nat 2) with 2 in *. change (Z.of_nat 4) with 4 in *.
  change (2 + (2 + 4)) with 8 in *. change (2 + 1) with 3 in *.
  specialize (A3 X (X + 8)). specialize (B3 (X + 12) (X + 12 + 3)). specialize (C3 (X + 16) (X + 16 + 4)). specialize (D3 (X + 20) (X + 20 + 3)).
  specialize (F3 (X + 24) (X + 24 + 4)). specialize (G3 (X + 28) (X + 28 + 1)). specialize (I3 (X + 32) (X + 32 + 4)). specialize (J3 (X + 8) (X + 8 + 4)).
  assert (L1 : zlen m1 = zlen m) by apply A3. assert (L2 : zlen m2 = zlen m1) by apply B3. assert (L3 : zlen m3 = zlen m2) by apply C3.
  assert (L4 : zlen m4 = zlen m3) by apply D3. assert (L5 : zlen m5 = zlen m4) by apply F3. assert (L6 : zlen m6 = zlen m5) by apply G3.
  assert (L8 : zlen m8 = zlen m7) by apply I3. assert (L9 : zlen m9 = zlen m8) by apply J3.
  set (W := align_up 4 wp7) in *. pose proof (align_up_ge 4 wp7 ltac:(lia)) as Wg. fold W in Wg.
  assert (W4 : W mod 4 = 0) by (apply align_up_mod; lia).
  split; [reflexivity|].
  split; [exact W4|]. split.
  { assert (Y8 : except m7 m9 X W X W) by (eapply except_trans; [exact I3|exact J3|lia|lia|lia|lia]).
    assert (Y7 : except m6 m9 X W X W) by (eapply except_trans; [exact X7|exact Y8|lia|lia|lia|lia]).
    assert (Y6 : except m5 m9 X W X W) by (eapply except_trans; [exact G3|exact Y7|lia|lia|lia|lia]).
    assert (Y5 : except m4 m9 X W X W) by (eapply except_trans; [exact F3|exact Y6|lia|lia|lia|lia]).
    assert (Y4 : except m3 m9 X W X W) by (eapply except_trans; [exact D3|exact Y5|lia|lia|lia|lia]).
    assert (Y3 : except m2 m9 X W X W) by (eapply except_trans; [exact C3|exact Y4|lia|lia|lia|lia]).
    assert (Y2 : except m1 m9 X W X W) by (eapply except_trans; [exact B3|exact Y3|lia|lia|lia|lia]).
    eapply except_trans; [exact A3|exact Y2|lia|lia|lia|lia]. }
  split; [exact X4|]. split; [lia|]. split; [lia|].
  split; [back|]. split; [back|]. split; [back|]. split; [back|]. split; [back|]. split; [back|]. split; [back|].
  exists wp7. split; [back|]. split; [lia|]. eapply names_frame with (lo := X + 36) (hi := wp7); [|lia|lia|lia|lia|lia|lia|exact N4].
  intros q cs Hq Ql Qh. back.
Qed.

(** ** Reading a stored table *)

Lemma strnlen_has m p s hi : cstring s -> has m p (s ++ [0]) -> p + zlen s + 1 <= hi -> strnlen_ m p (hi - p) = Ok (zlen s).
Proof.
  intros Hs H Hh. pose proof (has_range _ _ _ H) as R. rewrite zlen_app in R. change (zlen [0]) with 1 in R. pose proof (zlen_nonneg s).
  unfold strnlen_. destruct (Z.ltb_spec p 0); [lia|]. cbv zeta. destruct (has_skip _ _ _ H) as (b & ->). rewrite <- app_assoc. cbn [app].
  rewrite ztake_app_ge by lia. replace (hi - p - zlen s) with (1 + (hi - p - zlen s - 1)) by lia.
  assert (E : exists r, ztake (1 + (hi - p - zlen s - 1)) (0 :: b) = 0 :: r).
  { unfold ztake. replace (Z.to_nat (1 + (hi - p - zlen s - 1))) with (S (Z.to_nat (hi - p - zlen s - 1))) by lia. cbn [firstn]. eauto. }
  destruct E as (r & ->). rewrite cstr_app by exact Hs. destruct (Z.eqb_spec (zlen s) (hi - p)); [reflexivity|]. cbn [orb].
  destruct (Z.ltb_spec (p + zlen s) (zlen m)); [reflexivity|lia].
Qed.

Lemma check_names_has m x lo hi t : int32 (zlen m) -> (forall n ty, In (n, ty) t -> cstring n) -> 0 <= x <= zlen m ->
  forall refs s types wp, names_at m x (refs + 4 * s) types t wp hi -> lo <= wp ->
  check_names (List.length t) m x refs s lo hi = Ok true.
Proof.
  intros Hm Ht Hx. induction t as [|[n ty] t IH]; intros refs s types wp H Hlo; [reflexivity|]. cbn [names_at] in H. destruct H as (A & B & C & D).
  pose proof (names_mono _ _ _ _ _ _ _ D). pose proof (has_range _ _ _ C) as R. rewrite zlen_app in R. change (zlen [0]) with 1 in R. pose proof (zlen_nonneg n).
  unfold int32, INT_MAX, INT_MIN in Hm.
  cbn [List.length check_names]. rewrite (has_s32 _ _ (wp - x) ltac:(unfold int32, INT_MIN, INT_MAX; lia) A). cbn [obind]. cbv zeta. replace (x + (wp - x)) with wp by lia.
  destruct (Z.ltb_spec wp lo); [lia|]. destruct (Z.leb_spec hi wp); [lia|].
  rewrite (strnlen_has m wp n hi (Ht n ty (or_introl eq_refl)) C ltac:(lia)). cbn [obind]. destruct (Z.eqb_spec (zlen n) (hi - wp)); [lia|].
  apply IH with (types := types + 1) (wp := wp + zlen n + 1); [intros n' ty' Hin; apply (Ht n' ty'); right; exact Hin| |lia].
  replace (refs + 4 * (s + 1)) with (refs + 4 * s + 4) by lia. exact D.
Qed.

Lemma names_symbol m x t : int32 (zlen m) -> (forall n ty, In (n, ty) t -> cstring n) -> 0 <= x <= zlen m ->
  forall refs types wp e i, names_at m x refs types t wp e -> 0 <= i < zlen t ->
  obind (rd_s32 m (refs + 4 * i)) (fun r => rd_str m (x + r)) = Ok (nth (Z.to_nat i) (names t) []).
Proof.
  intros Hm Ht Hx. induction t as [|[n ty] t IH]; intros refs types wp e i H Hi; [change (zlen (@nil (list Z * Z))) with 0 in Hi; lia|].
  cbn [names_at] in H. destruct H as (A & B & C & D). rewrite zlen_cons in Hi. pose proof (has_range _ _ _ C) as R. rewrite zlen_app in R. change (zlen [0]) with 1 in R. pose proof (zlen_nonneg n).
  unfold int32, INT_MAX, INT_MIN in Hm. destruct (Z.eq_dec i 0) as [->|Hi0].
  - replace (refs + 4 * 0) with refs by lia. rewrite (has_s32 _ _ (wp - x) ltac:(unfold int32, INT_MIN, INT_MAX; lia) A). cbn [obind]. replace (x + (wp - x)) with wp by lia.
    rewrite (has_str _ _ _ (Ht n ty (or_introl eq_refl)) C). reflexivity.
  - replace (refs + 4 * i) with (refs + 4 + 4 * (i - 1)) by lia. rewrite (IH (fun n ty Hin => Ht n ty (or_intror Hin)) _ _ _ _ (i - 1) D ltac:(lia)).
    replace (Z.to_nat i) with (S (Z.to_nat (i - 1))) by lia. reflexivity.
Qed.

Lemma head_split m x a b c : has m x (le 2 a ++ le 2 b ++ le 4 c) -> has m x (le 2 a) /\ has m (x + 2) (le 2 b) /\ has m (x + 4) (le 4 c).
Proof.
  rewrite !has_app, !le_zlen. change (Z.of_nat 2) with 2. intros (A & B & C). replace (x + 2 + 2) with (x + 4) in C by lia. auto.
Qed.
Lemma rec_split m q a t : has m q (le 2 a ++ [t]) -> has m q (le 2 a) /\ has m (q + 2) [t].
Proof. rewrite has_app, le_zlen. auto. Qed.

Lemma table_head m x e tag t : table_at m x e tag t -> -32768 <= tag < 32768 ->
  it_name m x = Ok tag /\ it_paramcount m x = Ok 2 /\ it_childcount m x = Ok 0.
Proof.
  intros (_ & _ & _ & H & _) Ht. apply head_split in H. destruct H as (A & B & C).
  repeat split; unfold it_name, it_paramcount, it_childcount; [apply has_s16|apply has_s16|apply has_s32]; try assumption; unfold int32, INT_MIN, INT_MAX; lia.
Qed.

Lemma table_params m x e tag t : table_at m x e tag t -> zlen t <= 32768 ->
  pd_name m (x + 12) = Ok XPNR_COUNT /\ pd_type m (x + 12) = Ok XBT_INT32 /\ pd_data m (x + 12) = Ok (zlen t) /\
  pd_name m (x + 20) = Ok XPNR_TYPE_COUNT /\ pd_type m (x + 20) = Ok XBT_INT32 /\ pd_data m (x + 20) = Ok (zlen t).
Proof.
  intros (_ & _ & _ & _ & _ & A & B & C & D & _) Ht. apply rec_split in A. apply rec_split in C. destruct A as [A1 A2]. destruct C as [C1 C2].
  pose proof (zlen_nonneg t). unfold pd_name, pd_type, pd_data. replace (x + 12 + 4) with (x + 16) by lia. replace (x + 20 + 4) with (x + 24) by lia.
  repeat split; first [apply has_s16; [unfold XPNR_COUNT, XPNR_TYPE_COUNT; lia|assumption] | apply has_u8; [unfold XBT_INT32; lia|assumption] | apply has_s32; [unfold int32, INT_MIN, INT_MAX; lia|assumption]].
Qed.

Lemma table_check m x e tag t R k : table_at m x e tag t -> zlen t <= 32768 -> -11 < tag < 0 -> 0 <= ct_tags R -> 0 <= ct_params R -> e <= zlen m -> int32 (zlen m) ->
  Check (S k) m R (Some x) false = rret true.
Proof.
  intros T Ht Htag R1 R2 He Hm. destruct (table_head _ _ _ _ _ T ltac:(lia)) as (A & B & C). destruct (table_params _ _ _ _ _ T Ht) as (D1 & D2 & D3 & D4 & D5 & D6).
  destruct T as (X4 & X0 & Xe & _ & Hl & _). unfold int32, INT_MIN, INT_MAX in Hm.
  cbn [Check]. destruct (Z.ltb_spec x 0); [lia|]. destruct (Z.ltb_spec (zlen m) (x + 12)); [lia|].
  unfold it_length. rewrite (has_s32 _ _ (e - x) ltac:(unfold int32, INT_MIN, INT_MAX; lia) Hl). change (Some (Ok (e - x))) with (rret (e - x)). rb.
  destruct (Z.ltb_spec (zlen m) (x + (e - x))); [lia|]. rewrite align_up_id by lia. rewrite Z.eqb_refl. cbn [negb].
  rewrite A. change (Some (Ok tag)) with (rret tag). rb. unfold XTNR_LAST, XPNR_LAST in *. destruct (Z.leb_spec tag (-11)); [lia|]. destruct (Z.leb_spec (ct_tags R) tag); [lia|]. cbn [orb].
  rewrite B. change (Some (Ok 2)) with (rret 2). rb. rewrite C. change (Some (Ok 0)) with (rret 0). rb.
  assert (E : (u32 (e - x) <? u64 (12 + 8 * 2 + 4 * 0)) = false) by (unfold u32, u64; lia). rewrite E.
  change (Z.to_nat 2) with 2%nat. cbn [check_params]. rewrite D1, D2, D3. cbn [obind]. unfold XPNR_LAST, XPNR_COUNT at 1 2.
  destruct (Z.leb_spec (ct_params R) (-5)); [lia|]. change (-5 <=? -11) with false. change (XBT_LAST <=? XBT_INT32) with false. cbn [orb].
  change (isin XBT_INT32 [XBT_NULL; XBT_INT32; XBT_FLOAT; XBT_UNIX_TIME; XBT_IPv4]) with true. cbv iota. replace (x + 12 + 8) with (x + 20) by lia. rewrite D4, D5, D6. cbn [obind].
  unfold XPNR_TYPE_COUNT at 1 2. destruct (Z.leb_spec (ct_params R) (-7)); [lia|]. change (-7 <=? -11) with false. change (XBT_LAST <=? XBT_INT32) with false. cbn [orb].
  reflexivity.
Qed.

Lemma table_load m x e tag t : table_at m x e tag t -> zlen t <= 32768 -> (forall n ty, In (n, ty) t -> cstring n) -> -32768 <= tag < 32768 -> e <= zlen m -> int32 (zlen m) ->
  exists s, Load m (Some x) = Ok s /\ table_names m s (names t).
Proof.
  intros T Ht Hn Htag He Hm. destruct (table_head _ _ _ _ _ T Htag) as (A & B & C). destruct (table_params _ _ _ _ _ T Ht) as (D1 & D2 & D3 & D4 & D5 & D6).
  assert (Hz : zlen (names t) = zlen t) by apply zlen_map.
  unfold Load, getParamByName. rewrite B. cbn [obind]. change (Z.to_nat 2) with 2%nat. cbn [find_param]. rewrite D1. cbn [obind].
  change (XPNR_COUNT =? XPNR_COUNT) with true. cbv iota. cbn [obind]. unfold param_getInt. rewrite D2. cbn [obind]. change (XBT_INT32 =? XBT_INT32) with true. cbv iota. rewrite D3. cbn [obind].
  destruct (Z.eqb_spec (zlen t) INT32_NULL) as [E|_]; [pose proof (zlen_nonneg t); unfold INT32_NULL in E; lia|].
  destruct (Z.eqb_spec (zlen t) 0) as [E|E0].
  { eexists. split; [reflexivity|]. split; [cbn [sy_count]; lia|]. intros i Hi. lia. }
  change (XPNR_COUNT =? XPNR_TYPE_COUNT) with false. cbv iota. replace (x + 12 + 8) with (x + 20) by lia. rewrite D4. cbn [obind].
  change (XPNR_TYPE_COUNT =? XPNR_TYPE_COUNT) with true. cbv iota. cbn [obind]. rewrite D5. cbn [obind]. change (XBT_INT32 =? XBT_INT32) with true. cbv iota. rewrite D6. cbn [obind].
  destruct (Z.eqb_spec (zlen t) INT32_NULL) as [E|_]; [pose proof (zlen_nonneg t); unfold INT32_NULL in E; lia|].
  destruct T as (X4 & X0 & Xe & _ & _ & _ & _ & _ & _ & Hb & b & Hsize & Hbe & N). unfold int32, INT_MIN, INT_MAX in Hm. pose proof (names_mono _ _ _ _ _ _ _ N) as Nm. pose proof (zlen_nonneg t).
  unfold getBinary, value_type, value_pos. rewrite B, C. cbn [obind]. replace (x + 12 + 8 * 2 + 4 * 0) with (x + 28) by lia.
  rewrite (has_u8 _ _ XBT_BLOB ltac:(unfold XBT_BLOB; lia) Hb). cbn [obind]. change (s8 XBT_BLOB =? XBT_BLOB) with true. cbv iota.
  replace (align_up 4 (x + 28 + 1)) with (x + 32) by (unfold align_up; lia). rewrite (has_s32 _ _ (b - (x + 36)) ltac:(unfold int32, INT_MIN, INT_MAX; lia) Hsize). cbn [obind].
  replace (x + 32 + 4) with (x + 36) by lia. destruct (Z.ltb_spec (x + 36 + (b - (x + 36))) (x + 36 + 4 * zlen t + zlen t)); [lia|].
  replace (x + 36 + (b - (x + 36))) with b by lia.
  assert (Hc : check_names (Z.to_nat (zlen t)) m x (x + 36) 0 (x + 36 + 4 * zlen t + zlen t) b = Ok true).
  { unfold zlen at 1. rewrite Nat2Z.id. eapply check_names_has; [unfold int32, INT_MIN, INT_MAX; lia|exact Hn|lia| |].
    - replace (x + 36 + 4 * 0) with (x + 36) by lia. exact N.
    - lia. }
  rewrite Hc. cbn [obind]. eexists. split; [reflexivity|]. split; [cbn [sy_count]; lia|].
  intros i Hi. unfold symbol_at. cbn [sy_refs sy_item]. eapply names_symbol; [unfold int32, INT_MIN, INT_MAX; lia|exact Hn|lia|exact N|lia].
Qed.

(** ** Everything a node stores lies behind its start *)

Definition above m m' x : Prop := zlen m' = zlen m /\ (bytes m -> bytes m') /\ forall q cs, has m q cs -> q + zlen cs <= x -> has m' q cs.
Lemma above_refl m x : above m m x.
Proof. repeat split; auto. Qed.
Lemma above_trans m1 m2 m3 x a b : above m1 m2 a -> above m2 m3 b -> x <= a -> x <= b -> above m1 m3 x.
Proof. intros (A1 & A2 & A3) (B1 & B2 & B3) Ha Hb. split; [congruence|]. split; [auto|]. intros q cs H Hx. apply B3; [apply A3; [exact H|lia]|lia]. Qed.
Lemma wr_above m p bs m' : bytes bs -> wr m p bs = Ok m' -> above m m' p /\ 0 <= p /\ p + zlen bs <= zlen m /\ has m' p bs.
Proof.
  intros Hb H. apply wr_ok in H; [|exact Hb]. destruct H as (A & B & C & D). specialize (D p (p + zlen bs)). destruct D as (D1 & D2 & D3).
  split; [|auto]. split; [exact D1|]. split; [exact D2|]. intros q cs Hq Hl. apply D3; [exact Hq|lia|lia].
Qed.
Lemma above_has m m' x q cs : above m m' x -> has m q cs -> q + zlen cs <= x -> has m' q cs.
Proof. intros (_ & _ & H). apply H. Qed.

Definition byte_types (t : table) : Prop := forall n ty, In (n, ty) t -> 0 <= ty < 256.
Lemma detect2_byte v ty : 0 <= ty < 256 -> 0 <= XBT_Detect2 v ty < 256.
Proof. intros H. unfold XBT_Detect2. destruct (ty =? XBT_VARIANT); [exact H|]. pose proof (detect_type v). apply join_type; lia. Qed.

Lemma store_param_low fl cr m wp x q a m' wp' : byte_types (cr_params cr) -> cstring (snd a) -> 0 <= q -> q <= wp -> wp <= zlen m ->
  store_param fl cr m wp x q a = Ok (m', wp') -> wp <= wp' <= zlen m /\ above m m' q.
Proof.
  intros T C Q W Wm H. destruct a as [name v]. cbn [fst snd] in *. unfold store_param in H. step H E1 id. step H E2 m1.
  apply wr_above in E2; [|apply le_bytes]. destruct E2 as (A1 & A2 & A3 & A4). assert (L1 : zlen m1 = zlen m) by apply A1.
  assert (TX : forall m' wp', obind (wr m1 (q + 2) [XBT_STRING]) (fun m => obind (wr m (q + 4) (le 4 (wp - x))) (fun m =>
        obind (wr m wp (v ++ [0])) (fun m => Ok (m, wp + zlen v + 1)))) = Ok (m', wp') -> wp <= wp' <= zlen m /\ above m m' q).
  { clear H. intros m2 wp2 H. step H F1 m3. step H F2 m4. step H F3 m5. inversion H; subst m2 wp2. pose proof (zlen_nonneg v).
    apply wr_above in F1; [|apply one_byte; unfold XBT_STRING; lia]. destruct F1 as (F1 & _). apply wr_above in F2; [|apply le_bytes]. destruct F2 as (F2 & _).
    apply wr_above in F3; [|apply cstr0_bytes, C]. destruct F3 as (F3 & _ & F3' & _). rewrite zlen_app in F3'. change (zlen [0]) with 1 in F3'.
    assert (zlen m3 = zlen m1) by apply F1. assert (zlen m4 = zlen m3) by apply F2.
    split; [lia|]. eapply above_trans; [exact A1| |lia|apply Z.le_refl]. eapply above_trans; [exact F1| |lia|apply Z.le_refl]. eapply above_trans; [exact F2|exact F3|lia|lia]. }
  destruct v as [|c0 v0].
  - step H E3 m2. step H E4 m3. inversion H; subst m' wp'. apply wr_above in E3; [|apply one_byte; unfold XBT_NULL; lia]. destruct E3 as (E3 & _). apply wr_above in E4; [|apply le_bytes]. destruct E4 as (E4 & _).
    split; [lia|]. eapply above_trans; [exact A1| |lia|apply Z.le_refl]. eapply above_trans; [exact E3|exact E4|lia|lia].
  - set (v := c0 :: v0) in *. cbv zeta in H. step H E3 ty0. step H E4 size.
    assert (B : 0 <= ty0 < 256).
    { destruct (0 <=? s16 id).
      - unfold type_at in E3. destruct (s16 id <? 0); [discriminate E3|]. destruct (nth_error _ _) as [[n t]|] eqn:E; [|discriminate E3]. inversion E3; subst t. apply (T n). eapply nth_error_In, E.
      - inversion E3. unfold XBT_UNKNOWN. lia. }
    destruct (size =? 4); [|apply TX; exact H]. destruct (XBT_FromString fl v (XBT_Detect2 v ty0) (q + 4) (zlen m1)) as [st| |] eqn:E5; [|apply TX; exact H|discriminate H].
    assert (W1 : 0 <= q + 4) by lia. destruct (from_pos _ _ _ _ _ _ C W1 E5) as (P1 & P2 & P3). step H F1 m2. step H F2 m3. inversion H; subst m' wp'.
    apply wr_above in F1; [|exact P3]. destruct F1 as (F1 & _). apply wr_above in F2; [|apply one_byte, detect2_byte, B]. destruct F2 as (F2 & _).
    split; [lia|]. eapply above_trans; [exact A1| |lia|apply Z.le_refl]. eapply above_trans; [exact F1|exact F2|lia|lia].
Qed.

Lemma store_params_low fl cr x l : byte_types (cr_params cr) -> (forall n v, In (n, v) l -> cstring v) ->
  forall m wp q m' wp', 0 <= q -> q + 8 * zlen l <= wp -> wp <= zlen m -> store_params fl cr m wp x q l = Ok (m', wp') -> wp <= wp' <= zlen m /\ above m m' q.
Proof.
  intros T. induction l as [|[n v] l IH]; intros Hl m wp q m' wp' Q W Wm H; cbn [store_params] in H.
  - inversion H; subst. split; [lia|apply above_refl].
  - rewrite zlen_cons in W. pose proof (zlen_nonneg l). step H E [m1 wp1]. apply store_param_low in E; try assumption; try lia; [|apply (Hl n); left; reflexivity].
    destruct E as (E1 & E2). assert (zlen m1 = zlen m) by apply E2. apply IH in H; try lia; [|intros n' v' Hin; apply (Hl n'); right; exact Hin].
    destruct H as (K1 & K2). split; [lia|]. eapply above_trans; [exact E2|exact K2|lia|lia].
Qed.

Lemma WriteNode_low fl cr t : byte_types (cr_params cr) -> (forall u, In u (elements t) -> element_fits u) ->
  forall m wp m' wp' x, 0 <= wp -> WriteNode fl cr m wp t = Ok (m', wp', x) ->
  x = align_up 4 wp /\ x + 12 < wp' <= zlen m /\ above m m' x /\ exists id, find_ (name_of t) (cr_tags cr) = Ok id /\ has m' x (le 2 id).
Proof.
  intros T. induction t as [name value attrs kids IH] using node_ind'. intros G m wp m' wp' x Hw H. cbn [WriteNode] in H.
  destruct (G _ (or_introl eq_refl)) as (Hn & Hv & Ha & Hpc & Hcc). cbn [name_of value_of attrs_of kids_of] in *.
  step H E1 id. set (X := align_up 4 wp) in *. pose proof (align_up_ge 4 wp ltac:(lia)) as Xg. fold X in Xg.
  pose proof (zlen_nonneg attrs). pose proof (zlen_nonneg kids).
  assert (PC : s16 (zlen attrs) = zlen attrs) by (unfold s16; lia). assert (CC : s32 (zlen kids) = zlen kids) by (unfold s32, INT_MAX in *; lia).
  rewrite PC, CC in H. step H E2 m1.
  apply wr_above in E2; [|rewrite !bytes_app; repeat split; apply le_bytes]. destruct E2 as (A1 & A2 & A3 & A4). apply head_split in A4. destruct A4 as (A4 & _).
  assert (L1 : zlen m1 = zlen m) by apply A1.
  set (c := X + 12 + 8 * zlen attrs) in *. step H E3 [m2 wp2].
  destruct (store_value_ok fl m1 (c + 4 * zlen kids) value m2 wp2 Hv ltac:(lia) E3) as (B1 & B2 & _ & B4).
  assert (L2 : zlen m2 = zlen m1) by apply B2.
  assert (B5 : above m1 m2 (X + 8)) by (destruct B2 as (B2 & B2' & B2''); split; [exact B2|split; [exact B2'|]]; intros q cs Hq Hl; apply B2''; [exact Hq|lia|lia]).
  step H E4 [m3 wp3].
  destruct (store_params_low fl cr X attrs T (fun n v Hin => proj2 (Ha n v Hin)) m2 wp2 (X + 12) m3 wp3 ltac:(lia) ltac:(lia) ltac:(lia) E4) as (C1 & C2).
  assert (L3 : zlen m3 = zlen m2) by apply C2.
  step H E5 [m4 wp4]. step H E6 m5. inversion H; subst m' wp' x. clear H.
  assert (K : forall l, (forall k, In k l -> In k kids) -> forall m wp c m' wp', X < wp -> c + 4 * zlen l <= wp -> wp <= zlen m -> X + 8 <= c ->
     store_children (fun m wp t => WriteNode fl cr m wp t) X m wp c l = Ok (m', wp') ->
     wp <= wp' <= zlen m /\ above m m' (X + 8)).
  { clear - IH G T Xg Hw. induction l as [|k l IHl]; intros Hk m wp1 c m' wp' Hwp Hc Hz Hcx H.
    - cbn in H. inversion H; subst. split; [lia|apply above_refl].
    - cbn [store_children] in H. rewrite zlen_cons in *. pose proof (zlen_nonneg l). step H E1 [[m1 wp2] y]. step H E2 m2.
      rewrite Forall_forall in IH. pose proof (Hk k (or_introl eq_refl)) as Hin.
      destruct (IH k Hin (fun u Hu => G u (elements_kids _ _ _ _ _ _ Hin Hu)) m wp1 m1 wp2 y ltac:(lia) E1) as (A1 & A2 & A3 & _).
      pose proof (align_up_ge 4 wp1 ltac:(lia)) as Yg. apply wr_above in E2; [|apply le_bytes]. destruct E2 as (B1 & _).
      assert (L1 : zlen m1 = zlen m) by apply A3. assert (L2 : zlen m2 = zlen m1) by apply B1.
      destruct (IHl (fun k Hin => Hk k (or_intror Hin)) m2 wp2 (c + 4) m' wp') as (C1 & C2); [lia|lia|lia|lia|exact H|].
      split; [lia|]. eapply above_trans; [exact A3| |lia|apply Z.le_refl]. eapply above_trans; [exact B1|exact C2|lia|lia]. }
  destruct (K kids (fun k Hin => Hin) m3 wp3 c m4 wp4 ltac:(lia) ltac:(lia) ltac:(lia) ltac:(lia) E5) as (D1 & D2).
  assert (L4 : zlen m4 = zlen m3) by apply D2. apply wr_above in E6; [|apply le_bytes]. destruct E6 as (F1 & _).
  assert (Y : above m1 m5 (X + 8)).
  { eapply above_trans; [exact B5| |lia|apply Z.le_refl]. eapply above_trans; [exact C2| |lia|apply Z.le_refl]. eapply above_trans; [exact D2|exact F1|lia|lia]. }
  split; [reflexivity|]. split; [lia|]. split; [eapply above_trans; [exact A1|exact Y|lia|lia]|]. exists id. split; [reflexivity|].
  eapply above_has; [exact Y|exact A4|rewrite le_zlen; lia].
Qed.

(** ** The payload container and the document *)

Lemma except_above m m' x e : except m m' x e x e -> above m m' x.
Proof. intros (A & B & C). split; [exact A|]. split; [exact B|]. intros q cs H Hl. apply C; [exact H|lia|lia]. Qed.
Lemma node_place fl cr m limit x e t : node_at fl cr m limit x e t -> x + 13 <= e.
Proof. intros H. apply node_mono in H. lia. Qed.

Definition good_source cr root : Prop := types_ok (cr_params cr) /\ forall u, In u (elements root) -> no_hex_attr u.

Definition payload_at fl cr m limit y x e root : Prop :=
  y mod 4 = 0 /\ y + 17 <= x /\ x mod 4 = 0 /\ x + 12 < e /\
  has m y (le 2 XTNR_PAYLOAD ++ le 2 0 ++ le 4 1) /\ has m (y + 12) (le 4 (x - y)) /\ has m (y + 8) (le 4 (e - y)) /\ has m (y + 16) [XBT_NULL] /\
  (exists id, find_ (name_of root) (cr_tags cr) = Ok id /\ has m x (le 2 id)) /\
  (good_source cr root -> node_at fl cr m limit x e root).

Lemma WritePayloadContainer_ok fl cr m wp root m' wp' y : byte_types (cr_params cr) -> (forall u, In u (elements root) -> element_fits u) -> 0 <= wp ->
  WritePayloadContainer fl cr m wp XTNR_PAYLOAD root = Ok (m', wp', y) ->
  y = align_up 4 wp /\ wp' <= zlen m /\ above m m' y /\ exists x, payload_at fl cr m' (zlen m) y x wp' root.
Proof.
  intros T G Hw H. unfold WritePayloadContainer, WritePayloadOf in H. cbv zeta in H. set (Y := align_up 4 wp) in *.
  assert (Y4 : Y mod 4 = 0) by (apply align_up_mod; lia). pose proof (align_up_ge 4 wp ltac:(lia)) as Yg. fold Y in Yg.
  step H E1 m1. step H E2 m2. step H E3 [[m3 wp3] x]. step H E4 m4. destruct (negb _) eqn:E5; [discriminate H|]. step H E6 m5. inversion H; subst m' wp' y. clear H.
  replace (Y + 12 + 4) with (Y + 16) in * by lia. replace (Y + 12 + 5) with (Y + 17) in * by lia.
  apply wr_ok in E1; [|rewrite !bytes_app; repeat split; apply le_bytes]. destruct E1 as (_ & A1 & A2 & A3).
  apply wr_ok in E2; [|apply one_byte; unfold XBT_NULL; lia]. destruct E2 as (_ & B1 & B2 & B3).
  pose proof (align_up_ge 4 (Y + 17) ltac:(lia)) as Xg. assert (X4 : align_up 4 (Y + 17) mod 4 = 0) by (apply align_up_mod; lia).
  destruct (WriteNode_low fl cr root T G m2 (Y + 17) m3 wp3 x ltac:(lia) E3) as (C1 & C2 & C3 & id & C4 & C5). rewrite <- C1 in *.
  apply wr_ok in E4; [|apply le_bytes]. destruct E4 as (_ & D1 & D2 & D3).
  apply wr_ok in E6; [|apply le_bytes]. destruct E6 as (_ & F1 & F2 & F3).
  rewrite ?zlen_app, ?le_zlen in *. change (zlen [XBT_NULL]) with 1 in *. change (Z.of_nat 2) with 2 in *. change (Z.of_nat 4) with 4 in *. change (2 + (2 + 4)) with 8 in *.
  specialize (A3 Y (Y + 8)). specialize (B3 (Y + 16) (Y + 16 + 1)). specialize (D3 (Y + 12) (Y + 12 + 4)). specialize (F3 (Y + 8) (Y + 8 + 4)).
  assert (L1 : zlen m1 = zlen m) by apply A3. assert (L2 : zlen m2 = zlen m1) by apply B3. assert (L3 : zlen m3 = zlen m2) by apply C3.
  assert (L4 : zlen m4 = zlen m3) by apply D3. assert (L5 : zlen m5 = zlen m4) by apply F3.
  assert (X5 : except m3 m5 (Y + 8) (Y + 16) (Y + 8) (Y + 16)) by (eapply except_trans; [exact D3|exact F3|lia|lia|lia|lia]).
  split; [reflexivity|]. split; [lia|]. split.
  { assert (above m m1 Y) by (destruct A3 as (a & b & c); split; [exact a|split; [exact b|]]; intros q cs Hq Hl; apply c; [exact Hq|lia|lia]).
    assert (above m1 m2 Y) by (destruct B3 as (a & b & c); split; [exact a|split; [exact b|]]; intros q cs Hq Hl; apply c; [exact Hq|lia|lia]).
    assert (above m3 m5 Y) by (destruct X5 as (a & b & c); split; [exact a|split; [exact b|]]; intros q cs Hq Hl; apply c; [exact Hq|lia|lia]).
    eapply above_trans; [eassumption| |apply Z.le_refl|apply Z.le_refl]. eapply above_trans; [eassumption| |apply Z.le_refl|apply Z.le_refl].
    eapply above_trans; [exact C3|eassumption|lia|lia]. }
  exists x. split; [exact Y4|]. split; [lia|]. split; [exact X4|]. split; [lia|].
  split; [eapply has_except; [exact X5| |len; lia|len; lia]; eapply above_has; [exact C3| |len; lia]; eapply has_except; [exact B3|exact A2|len; lia|len; lia]|].
  split; [eapply has_except; [exact F3|exact D2|len; lia|len; lia]|]. split; [exact F2|].
  split; [eapply has_except; [exact X5| |len; lia|len; lia]; eapply above_has; [exact C3|exact B2|len; lia]|].
  split; [exists id; split; [exact C4|]; eapply has_except; [exact X5|exact C5|len; lia|len; lia]|].
  intros (S1 & S2). destruct (WriteNode_ok fl cr root S1 (fun u Hu => conj (G u Hu) (S2 u Hu)) m2 (Y + 17) m3 wp3 x ltac:(lia) E3) as (_ & N1 & N2 & N3).
  replace (zlen m) with (zlen m2) by lia. eapply node_frame; [|exact N3]. eapply except_moves; [exact X5|lia|lia].
Qed.
