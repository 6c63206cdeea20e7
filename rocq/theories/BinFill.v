(** The whole conversion of a binary source: it succeeds, the result opens, the client reads the source back. *)
From Verif Require Import Base BaseFacts ListFacts Types Sort SortProofs Symtab SymtabSpec SymtabProofs Xb XbSpec XbFacts XbSymProofs XbWrite XbBin
  WriteProofs FillProofs InitProofs OpenProofs BufferProofs BinSpec BinProofs BinRead.
From Coq Require Import Sorted.

(** ** Totality *)
Lemma wr_go m p bs : 0 <= p -> p + zlen bs <= zlen m -> exists m', wr m p bs = Ok m' /\ zlen m' = zlen m.
Proof.
  intros P L. unfold wr. destruct (Z.leb_spec 0 p); [|lia]. destruct (Z.leb_spec (p + zlen bs) (zlen m)); [|lia]. cbn [andb]. eexists. split; [reflexivity|].
  pose proof (zlen_nonneg bs). unfold bput. rewrite !zlen_app, zlen_take, zlen_skip by lia. lia.
Qed.
Ltac go E L m' := match goal with |- context [wr ?m ?p ?bs] => destruct (wr_go m p bs) as (m' & E & L); [lia|len; lia|rewrite E; cbn [obind]] end.

Lemma store_names_go x t : forall m wp refs types, 0 <= refs -> refs + 4 * zlen t <= types -> types + zlen t <= wp -> wp + zsum (fun n => zlen n + 1) (names t) <= zlen m ->
  exists m' wp', store_names m wp x refs types t = Ok (m', wp') /\ zlen m' = zlen m.
Proof.
  induction t as [|[n ty] t IH]; intros m wp refs types R0 R T W; cbn [store_names]; [eauto|]. rewrite zlen_cons in *. pose proof (zlen_nonneg t). pose proof (zlen_nonneg n).
  cbn [names map fst zsum] in W. fold (names t) in W. change ((fix go (l : list (list Z)) : Z := match l with [] => 0 | x :: r => zlen x + 1 + go r end) (names t)) with (zsum (fun n => zlen n + 1) (names t)) in W.
  assert (0 <= zsum (fun n => zlen n + 1) (names t)) by (apply zsum_nonneg; intros y; pose proof (zlen_nonneg y); lia).
  go E1 L1 m1. go E2 L2 m2. go E3 L3 m3. destruct (IH m3 (wp + zlen n + 1) (refs + 4) (types + 1)) as (m' & wp' & E & L); [lia|lia|lia|lia|]. exists m', wp'. split; [exact E|lia].
Qed.

Lemma WriteChildSymbols_go m wp tag t : 0 <= wp -> wp + 42 + zsum name_cost (names t) <= zlen m -> exists m' wp' x, WriteChildSymbols m wp tag t = Ok (m', wp', x).
Proof.
  intros W R. unfold WriteChildSymbols. cbv zeta. assert (A : wp <= align_up 4 wp <= wp + 3) by (unfold align_up; lia). assert (A4 : align_up 4 wp mod 4 = 0) by (apply align_up_mod; lia). set (x := align_up 4 wp) in *. pose proof (zlen_nonneg t).
  assert (C : zsum name_cost (names t) = zsum (fun n => zlen n + 1) (names t) + 5 * zlen t).
  { unfold name_cost. replace (zlen t) with (zlen (names t)) by (unfold names; apply zlen_map). rewrite <- zsum_const, <- zsum_add. clear. induction (names t) as [|n l IH]; cbn [zsum]; [lia|]. unfold zsum in *. lia. }
  assert (0 <= zsum (fun n => zlen n + 1) (names t)) by (apply zsum_nonneg; intros y; pose proof (zlen_nonneg y); lia).
  assert (As : align_up 4 (x + 12 + 17) = x + 32) by (unfold align_up; lia). rewrite As.
  go E1 L1 m1. go E2 L2 m2. go E3 L3 m3. go E4 L4 m4. go E5 L5 m5. go E6 L6 m6.
  destruct (store_names_go x t m6 (x + 32 + 4 + 5 * zlen t) (x + 32 + 4) (x + 32 + 4 + 4 * zlen t)) as (m7 & wp7 & E7 & L7); [lia|lia|lia|lia|]. rewrite E7. cbn [obind].
  go E8 L8 m8. go E9 L9 m9. eauto.
Qed.

Section FILL.
Context (W : list Z -> Z -> outcome (list Z * Z * Z)) (P : list Z -> Z -> Z -> Prop) (room : Z).
Context (HR : 0 <= room).
Context (HP : forall m m' x e, zlen m' = zlen m -> moves m m' x (zlen m) -> P m x e -> P m' x e).
Context (HW : forall m wp, 0 <= wp -> wp + room <= zlen m -> exists m' wp', W m wp = Ok (m', wp', align_up 4 wp) /\ align_up 4 wp < wp' <= wp + room /\ zlen m' = zlen m /\
  except m m' (align_up 4 wp) (zlen m) (align_up 4 wp) (zlen m) /\ P m' (align_up 4 wp) wp').

Lemma WritePayloadOf_ok m wp tag : 0 <= wp -> wp + 20 + room <= zlen m ->
  exists m' wp' x, WritePayloadOf W m wp tag = Ok (m', wp', align_up 4 wp) /\ align_up 4 wp + 17 <= x < wp' /\ wp' <= wp + 20 + room /\ zlen m' = zlen m /\
    except m m' (align_up 4 wp) (zlen m) (align_up 4 wp) (zlen m) /\ has m' (align_up 4 wp) (le 2 tag ++ le 2 0 ++ le 4 1) /\ has m' (align_up 4 wp + 12) (le 4 (x - align_up 4 wp)) /\ P m' x wp'.
Proof using HR HP HW.
  intros W0 R. unfold WritePayloadOf. cbv zeta. assert (A : wp <= align_up 4 wp <= wp + 3) by (unfold align_up; lia). assert (A4 : align_up 4 wp mod 4 = 0) by (apply align_up_mod; lia). set (y := align_up 4 wp) in *.
  destruct (wr_fits m y (le 2 tag ++ le 2 0 ++ le 4 1)) as (m1 & E1 & L1 & H1 & X1); [rewrite !bytes_app; repeat split; apply le_bytes|lia|len; lia|]. rewrite E1. cbn [obind]. specialize (X1 y (y + 8)). change (zlen (le 2 tag ++ le 2 0 ++ le 4 1)) with 8 in X1.
  destruct (wr_fits m1 (y + 12 + 4) [XBT_NULL]) as (m2 & E2 & L2 & H2 & X2); [apply one_byte; unfold XBT_NULL; lia|lia|len; lia|]. rewrite E2. cbn [obind]. specialize (X2 (y + 16) (y + 17)). change (zlen [XBT_NULL]) with 1 in X2.
  destruct (HW m2 (y + 12 + 5) ltac:(lia) ltac:(lia)) as (m3 & wp3 & E3 & W3 & L3 & X3 & V3). rewrite E3. cbn [obind].
  assert (B : y + 17 <= align_up 4 (y + 12 + 5)) by (pose proof (align_up_ge 4 (y + 12 + 5) ltac:(lia)); lia). assert (B4 : align_up 4 (y + 12 + 5) mod 4 = 0) by (apply align_up_mod; lia). set (x := align_up 4 (y + 12 + 5)) in *.
  destruct (wr_fits m3 (y + 12) (le 4 (x - y)) (le_bytes _ _)) as (m4 & E4 & L4 & H4 & X4); [lia|len; lia|]. rewrite E4. cbn [obind]. specialize (X4 (y + 12) (y + 16)). rewrite le_zlen in X4. change (Z.of_nat 4) with 4 in X4.
  destruct (Z.eqb_spec ((x - y) mod 4) 0) as [_|N]; [|lia]. cbn [negb].
  destruct (wr_fits m4 (y + 8) (le 4 (wp3 - y)) (le_bytes _ _)) as (m5 & E5 & L5 & H5 & X5); [lia|len; lia|]. rewrite E5. cbn [obind]. specialize (X5 (y + 8) (y + 12)). rewrite le_zlen in X5. change (Z.of_nat 4) with 4 in X5.
  exists m5, wp3, x. split; [reflexivity|]. split; [lia|]. split; [lia|]. split; [lia|].
  assert (Z3 : except m3 m5 y (zlen m) y (zlen m)) by (eapply except_trans; [exact X4|exact X5|lia|lia|lia|lia]).
  assert (Z2 : except m2 m5 y (zlen m) y (zlen m)) by (eapply except_trans; [exact X3|exact Z3|lia|lia|lia|lia]).
  assert (Z1 : except m1 m5 y (zlen m) y (zlen m)) by (eapply except_trans; [exact X2|exact Z2|lia|lia|lia|lia]).
  split; [eapply except_trans; [exact X1|exact Z1|lia|lia|lia|lia]|].
  split; [back|]. split; [back|]. eapply HP; [|  |exact V3]; [lia|]. intros q cs Hq Ql Qh. back.
Qed.

Lemma FillDataOf_ok cr m filename modified : byte_table (cr_tags cr) -> byte_table (cr_params cr) -> cstring filename ->
  81 + zlen filename + 42 + zsum name_cost (names (cr_tags cr)) + 42 + zsum name_cost (names (cr_params cr)) + 20 + room <= zlen m ->
  exists m' size y1 e1 y2 e2 y3 x, FillDataOf W cr m filename modified = Ok (m', size) /\ zlen m' = zlen m /\ (bytes m -> bytes m') /\
    size <= 81 + zlen filename + 42 + zsum name_cost (names (cr_tags cr)) + 42 + zsum name_cost (names (cr_params cr)) + 20 + room /\
    doc_shell cr m' size filename y1 e1 y2 e2 y3 x /\ y3 + 17 <= x < size /\ P m' x size.
Proof using HR HP HW.
  intros T1 T2 Hf R. unfold FillDataOf. cbv zeta.
  change (12 + 8 * 4) with 44. change (44 + 4 * 3) with 56. change (56 + 1) with 57.
  change (12 + 4) with 16. change (12 + 8) with 20. change (12 + 12) with 24. change (12 + 16) with 28. change (12 + 20) with 32.
  change (12 + 24) with 36. change (12 + 28) with 40. change (44 + 4) with 48. change (44 + 8) with 52.
  pose proof (zlen_nonneg filename) as F0. assert (Wg : 57 + zlen filename + 1 <= align_up 4 (57 + zlen filename + 1) <= 57 + zlen filename + 4) by (unfold align_up; lia). set (w := align_up 4 (57 + zlen filename + 1)) in *.
  assert (C1 : 0 <= zsum name_cost (names (cr_tags cr))) by (apply zsum_nonneg; intros z; unfold name_cost; pose proof (zlen_nonneg z); lia).
  assert (C2 : 0 <= zsum name_cost (names (cr_params cr))) by (apply zsum_nonneg; intros z; unfold name_cost; pose proof (zlen_nonneg z); lia).
  set (c1 := zsum name_cost (names (cr_tags cr))) in *. set (c2 := zsum name_cost (names (cr_params cr))) in *.
  assert (Hone : forall b, 0 <= b < 256 -> bytes [b]) by (intros; apply one_byte; assumption).
  assert (Hpd : forall a b, 0 <= b < 256 -> bytes (le 2 a ++ [b])) by (intros; rewrite bytes_app; split; [apply le_bytes|auto]).
  assert (Hrep : bytes (zrepeat 161 20)) by (apply Forall_forall; intros b Hb; apply repeat_spec in Hb; unfold is_byte; lia).
  assert (Lrep : zlen (zrepeat 161 20) = 20) by reflexivity.
  destruct (wr_fits m 0 (le 2 XTNR_META_ROOT ++ le 2 4 ++ le 4 3)) as (m1 & E1 & L1 & H1 & X1); [rewrite !bytes_app; repeat split; apply le_bytes|lia|len; lia|]. rewrite E1. cbn [obind]. specialize (X1 0 8).
  destruct (wr_fits m1 56 [XBT_NULL]) as (m2 & E2 & L2 & H2 & X2); [apply Hone; unfold XBT_NULL; lia|lia|len; lia|]. rewrite E2. cbn [obind]. specialize (X2 56 57).
  destruct (wr_fits m2 12 (le 2 XPNR_FORMAT_VERSION ++ [XBT_INT32])) as (m3 & E3 & L3 & H3 & X3); [apply Hpd; unfold XBT_INT32; lia|lia|len; lia|]. rewrite E3. cbn [obind]. specialize (X3 12 15).
  destruct (wr_fits m3 16 (le 4 256) (le_bytes _ _)) as (m4 & E4 & L4 & H4 & X4); [lia|len; lia|]. rewrite E4. cbn [obind]. specialize (X4 16 20).
  destruct (wr_fits m4 20 (le 2 XPNR_NAME ++ [XBT_STRING])) as (m5 & E5 & L5 & H5 & X5); [apply Hpd; unfold XBT_STRING; lia|lia|len; lia|]. rewrite E5. cbn [obind]. specialize (X5 20 23).
  destruct (wr_fits m5 24 (le 4 57) (le_bytes _ _)) as (m6 & E6 & L6 & H6 & X6); [lia|len; lia|]. rewrite E6. cbn [obind]. specialize (X6 24 28).
  destruct (wr_fits m6 57 (filename ++ [0]) (cstr0_bytes _ Hf)) as (m7 & E7 & L7 & H7 & X7); [lia|len; lia|]. rewrite E7. cbn [obind]. specialize (X7 57 (57 + zlen (filename ++ [0]))).
  destruct (wr_fits m7 28 (le 2 XPNR_HASH ++ [XBT_SHA1])) as (m8 & E8 & L8 & H8 & X8); [apply Hpd; unfold XBT_SHA1; lia|lia|len; lia|]. rewrite E8. cbn [obind]. specialize (X8 28 31).
  destruct (wr_fits m8 32 (le 4 w) (le_bytes _ _)) as (m9 & E9 & L9 & H9 & X9); [lia|len; lia|]. rewrite E9. cbn [obind]. specialize (X9 32 36).
  destruct (wr_fits m9 w (zrepeat 161 20) Hrep) as (m10 & E10 & L10 & H10 & X10); [lia|lia|]. rewrite E10. cbn [obind]. specialize (X10 w (w + 20)).
  destruct (wr_fits m10 36 (le 2 XPNR_MODIFIED ++ [XBT_UNIX_TIME])) as (m11 & E11 & L11 & H11 & X11); [apply Hpd; unfold XBT_UNIX_TIME; lia|lia|len; lia|]. rewrite E11. cbn [obind]. specialize (X11 36 39).
  destruct (wr_fits m11 40 (le 4 modified) (le_bytes _ _)) as (m12 & E12 & L12 & H12 & X12); [lia|len; lia|]. rewrite E12. cbn [obind]. specialize (X12 40 44).
  destruct (WriteChildSymbols_go m12 (w + 20) XTNR_TAG_SYMBOLS (cr_tags cr)) as (m13 & wp13 & y1 & E13); [lia|fold c1; lia|]. rewrite E13. cbn [obind]. pose proof (names_size _ _ _ _ _ _ _ E13) as S13. fold c1 in S13.
  destruct (WriteChildSymbols_ok _ (w + 20) _ _ _ _ _ T1 ltac:(lia) E13) as (Y1 & Y1' & X13 & H13). assert (L13 : zlen m13 = zlen m12) by apply X13.
  pose proof (align_up_ge 4 (w + 20) ltac:(lia)) as Yg1. rewrite <- Y1 in Yg1. assert (Q1 : y1 + 36 <= wp13) by apply H13.
  destruct (wr_fits m13 44 (le 4 y1) (le_bytes _ _)) as (m14 & E14 & L14 & H14 & X14); [lia|len; lia|]. rewrite E14. cbn [obind]. specialize (X14 44 48).
  destruct (WriteChildSymbols_go m14 wp13 XTNR_PARAM_SYMBOLS (cr_params cr)) as (m15 & wp15 & y2 & E15); [lia|fold c2; lia|]. rewrite E15. cbn [obind]. pose proof (names_size _ _ _ _ _ _ _ E15) as S15. fold c2 in S15.
  destruct (WriteChildSymbols_ok _ wp13 _ _ _ _ _ T2 ltac:(lia) E15) as (Y2 & Y2' & X15 & H15). assert (L15 : zlen m15 = zlen m14) by apply X15.
  pose proof (align_up_ge 4 wp13 ltac:(lia)) as Yg2. rewrite <- Y2 in Yg2. assert (Q2 : y2 + 36 <= wp15) by apply H15.
  destruct (wr_fits m15 48 (le 4 y2) (le_bytes _ _)) as (m16 & E16 & L16 & H16 & X16); [lia|len; lia|]. rewrite E16. cbn [obind]. specialize (X16 48 52).
  destruct (WritePayloadOf_ok m16 wp15 XTNR_PAYLOAD) as (m17 & wp17 & x & E17 & O17 & S17 & L17 & X17 & H17 & H17' & V17); [lia|lia|]. rewrite E17. cbn [obind].
  pose proof (align_up_ge 4 wp15 ltac:(lia)) as Yg3. set (y3 := align_up 4 wp15) in *.
  destruct (wr_fits m17 52 (le 4 y3) (le_bytes _ _)) as (m18 & E18 & L18 & H18 & X18); [lia|len; lia|]. rewrite E18. cbn [obind]. specialize (X18 52 56).
  destruct (wr_fits m18 8 (le 4 wp17) (le_bytes _ _)) as (m19 & E19 & L19 & H19 & X19); [lia|len; lia|]. rewrite E19. cbn [obind]. specialize (X19 8 12).
  rewrite ?zlen_app, ?le_zlen, ?Lrep in *. change (zlen [XBT_NULL]) with 1 in *. change (zlen [XBT_INT32]) with 1 in *. change (zlen [XBT_STRING]) with 1 in *.
  change (zlen [XBT_SHA1]) with 1 in *. change (zlen [XBT_UNIX_TIME]) with 1 in *. change (zlen [0]) with 1 in *.
  change (Z.of_nat 2) with 2 in *. change (Z.of_nat 4) with 4 in *.
  exists m19, wp17, y1, wp13, y2, wp15, y3, x. split; [reflexivity|]. split; [lia|].
  split. { intros Hb. apply X19, X18, X17, X16, X15, X14, X13, X12, X11, X10, X9, X8, X7, X6, X5, X4, X3, X2, X1. exact Hb. }
  split; [lia|]. split; [|split; [lia|]].
  - unfold doc_shell. do 7 (split; [lia|]). do 10 (split; [back|]).
    split. { eapply table_frame; [|exact H13]. intros q cs Hq Hl Hh. back. }
    split. { eapply table_frame; [|exact H15]. intros q cs Hq Hl Hh. back. }
    split; back.
  - eapply HP; [| |exact V17]; [lia|]. intros q cs Hq Hl Hh. back.
Qed.
End FILL.

(** ** The symbol tables *)
Lemma good_once t : good t -> NoDup (names t).
Proof. apply ordered_once. Qed.
Lemma copy_names_ok l : forall t, good t -> byte_table t -> (forall n ty, In (n, ty) l -> cstring n /\ 0 <= ty < 256) -> zlen t + zlen l <= 32768 ->
  exists t', copy_names t l = rret t' /\ good t' /\ byte_table t' /\ zlen t' <= zlen t + zlen l /\ (forall n, In n (names t) -> In n (names t')) /\
    (forall n ty, In (n, ty) l -> ty <> XBT_UNKNOWN -> In n (names t')) /\ (forall n, In n (names t') -> In n (names t) \/ In n (map fst l)).
Proof.
  induction l as [|[n ty] l IH]; intros t Hg Hb Hl Hz; cbn [copy_names].
  - exists t. split; [reflexivity|]. split; [exact Hg|]. split; [exact Hb|]. change (zlen (@nil (list Z * Z))) with 0. split; [lia|]. split; [auto|]. split; [intros ? ? []|auto].
  - rewrite zlen_cons in *. pose proof (zlen_nonneg l). destruct (Z.eqb_spec ty XBT_UNKNOWN) as [->|N].
    + destruct (IH t Hg Hb (fun n ty Hi => Hl n ty (or_intror Hi)) ltac:(lia)) as (t' & E & A & B & C & D & F & G). exists t'. split; [exact E|]. split; [exact A|]. split; [exact B|]. split; [lia|]. split; [exact D|].
      split; [intros k ty [Hi|Hi] Hn; [inversion Hi; subst; contradiction|eapply F; eassumption]|]. intros k Hk. destruct (G k Hk) as [?|?]; [auto|right; right; assumption].
    + destruct (typed_ok t n ty Hg ltac:(lia)) as (i & t1 & E1 & G1 & _ & _ & I1 & I2 & I3 & I4). fold (names t1) in *. fold (names t) in *. rewrite E1, rbind_ret.
      destruct (Hl n ty (or_introl eq_refl)) as (Cn & Ty).
      assert (B1 : byte_table t1).
      { intros k a Hk. destruct (list_eq_dec Z.eq_dec k n) as [->|Ne]; [|apply I2 in Hk; [apply (Hb _ _ Hk)|exact Ne]]. split; [exact Cn|].
        destruct (in_dec (list_eq_dec Z.eq_dec) n (names t)) as [Hi|Hi].
        - apply in_map_iff in Hi. destruct Hi as ((k & b) & Ek & Hi). cbn [fst] in Ek. subst k. pose proof (I3 b Hi) as Q. rewrite (good_unique t1 n a _ G1 Hk Q). apply join_type; [exact Ty|apply (Hb _ _ Hi)].
        - rewrite (good_unique t1 n a _ G1 Hk (I4 Hi)). exact Ty. }
      assert (Z1 : zlen t1 <= zlen t + 1).
      { rewrite <- (zlen_map fst t1), <- (zlen_map fst t). fold (names t1). fold (names t). pose proof (NoDup_incl_length (good_once t1 G1) (l' := n :: names t)) as Q. cbn [List.length] in Q.
        assert (incl (names t1) (n :: names t)) as Hi by (intros k Hk; apply I1 in Hk; destruct Hk as [->|Hk]; [left; reflexivity|right; exact Hk]). specialize (Q Hi). unfold zlen. lia. }
      destruct (IH t1 G1 B1 (fun n ty Hi => Hl n ty (or_intror Hi)) ltac:(lia)) as (t' & E & A & B & C & D & F & G). exists t'. split; [exact E|]. split; [exact A|]. split; [exact B|]. split; [lia|].
      split; [intros k Hk; apply D, I1; right; exact Hk|].
      split; [intros k b [Hi|Hi] Hn; [inversion Hi; subst; apply D, I1; left; reflexivity|eapply F; eassumption]|].
      intros k Hk. destruct (G k Hk) as [Hi|Hi]; [apply I1 in Hi; destruct Hi as [->|Hi]; [right; left; reflexivity|left; exact Hi]|right; right; exact Hi].
Qed.
Lemma names_cost_sum l : zsum name_cost (map fst l) = names_room l.
Proof. induction l as [|[n ty] l IH]; [reflexivity|].  change (name_cost n + zsum name_cost (map fst l) = zlen n + 6 + names_room l). rewrite IH. reflexivity. Qed.
Lemma copied_table l : table_source l -> exists t, copy_names [] l = rret t /\ name_limits t /\ byte_table t /\ (forall n ty, In (n, ty) l -> ty <> XBT_UNKNOWN -> In n (names t)) /\
  zsum name_cost (names t) <= names_room l.
Proof.
  intros (Hl & Hz). destruct (copy_names_ok l [] ltac:(constructor) ltac:(intros ? ? []) Hl) as (t & E & A & B & C & _ & F & G); [change (zlen (@nil (list Z * Z))) with 0; lia|].
  change (zlen (@nil (list Z * Z))) with 0 in C. exists t. split; [exact E|]. split; [split; [exact A|split; [lia|intros n ty Hi; apply (B n ty Hi)]]|]. split; [exact B|]. split; [exact F|].
  rewrite <- names_cost_sum. apply zsum_incl; [intros y; unfold name_cost; pose proof (zlen_nonneg y); lia|apply good_once, A|]. intros n Hn. destruct (G n Hn) as [[]|Hi]. exact Hi.
Qed.

Lemma convert_ok m filename modified tags params root : bin_source_ok tags params root -> cstring filename -> zlen m <= INT_MAX -> convert_room filename tags params root <= zlen m ->
  exists img, BinMake_xb m filename modified tags params root = rret img /\
    forall k, (bheight root <= k)%nat -> exists R x, Initialize (S k) img = rret R /\ rd_root R = Some x /\ read_bin_node k img R x = rret (doc_of root).
Proof.
  intros (Ht & Hp & Ho & Hn) Hf Hm Hr. destruct (copied_table tags Ht) as (t1 & E1 & A1 & A2 & A3 & A4). destruct (copied_table params Hp) as (t2 & E2 & B1 & B2 & B3 & B4).
  set (cr := mkcreator t1 t2). unfold convert_room in Hr.
  assert (Hnam : forall u, In u (belements root) -> In (bname u) (names t1) /\ forall a, In a (battrs u) -> In (fst (fst a)) (names t2)).
  { intros u Hu. destruct (Hn u Hu) as ((ty & N1 & N2) & N3). split; [eapply A3; eassumption|]. intros a Ha. destruct (N3 a Ha) as (ty' & N4 & N5). eapply B3; eassumption. }
  assert (Hfind : forall s t, good t -> In s (names t) -> exists id, find_ s t = Ok id).
  { intros s t G Hi. destruct (list_eq_dec Z.eq_dec s (lit "et-tecera")) as [->|Ne].
    - exists XTNR_ET_TECERA. reflexivity.
    - unfold find_. destruct (find_ok s t G Ne) as (id & F & _). exists id. rewrite F. reflexivity. }
  assert (Hfe : forall u, In u (belements root) -> bin_element_ok u /\ named cr u).
  { intros u Hu. split; [apply Ho, Hu|]. destruct (Hnam u Hu) as (N1 & N2). split; [apply Hfind; [apply A1|exact N1]|intros a Ha; apply Hfind; [apply B1|apply N2, Ha]]. }
  pose proof (bin_room_35 root Ho) as R35.
  destruct (FillDataOf_ok (fun m wp => BinWriteNode cr m wp root) (fun m x e => e <= zlen m /\ bnode_at cr m x e root) (bin_room root) ltac:(lia)) with (cr := cr) (m := m) (filename := filename) (modified := modified)
    as (m' & size & y1 & e1 & y2 & e2 & y3 & x & F1 & F2 & F3 & F4 & F5 & F6 & (_ & F7)).
  - intros m0 m1 x e L M (Le & B). split; [lia|]. eapply bnode_frame; [|exact B]. eapply moves_in; [exact M|lia|lia].
  - intros m0 wp W R. destruct (BinWriteNode_ok cr root Hfe m0 wp W R) as (m1 & wp1 & E & Q1 & Q2 & Q3 & Q4). exists m1, wp1. split; [exact E|]. split; [lia|]. split; [exact Q2|]. split; [eapply except_trans; [exact Q3|apply (except_refl m1 (align_up 4 wp) wp1 (align_up 4 wp) wp1)|lia|lia|lia|lia]|]. split; [lia|exact Q4].
  - exact A2.
  - exact B2.
  - exact Hf.
  - cbn [cr_tags cr_params cr]. lia.
  - cbn [cr_tags cr_params cr] in F4. pose proof (align_up_ge 4 size ltac:(lia)) as Sg. assert (Sl : align_up 4 size <= size + 3) by (unfold align_up; lia).
    assert (Y0 : 0 <= y3 <= size) by apply F5.
    set (img := ztake (align_up 4 size) m'). assert (Li : zlen img = align_up 4 size) by (unfold img; rewrite zlen_take; lia).
    assert (Mv : moves m' img 0 (align_up 4 size)) by apply take_moves.
    assert (S : doc_shell cr img size filename y1 e1 y2 e2 y3 x).
    { destruct F5 as (P1 & P2 & P3 & P4 & P5 & P6 & P7 & D1 & D2 & D3 & D4 & D5 & D6 & D7 & D8 & D9 & D10 & T1 & T2 & U1 & U2).
      assert (Q1 : y1 + 36 <= e1) by apply T1. assert (Q2 : y2 + 36 <= e2) by apply T2. pose proof (zlen_nonneg filename).
      unfold doc_shell. do 7 (split; [assumption|]). do 10 (split; [apply Mv; [assumption|lia|len; lia]|]).
      split; [eapply table_frame; [eapply moves_in; [exact Mv|lia|lia]|exact T1]|]. split; [eapply table_frame; [eapply moves_in; [exact Mv|lia|lia]|exact T2]|].
      split; apply Mv; try assumption; len; lia. }
    assert (Hi : int32 (zlen img)) by (unfold int32, INT_MIN, INT_MAX in *; lia).
    exists img. split.
    + unfold BinMake_xb. destruct (Z.leb_spec (zlen tags) 0) as [Z0|_].
      { exfalso. destruct (Hn root) as ((ty & N1 & _) & _); [destruct root; left; reflexivity|]. destruct tags; [contradiction N1|]. rewrite zlen_cons in Z0. pose proof (zlen_nonneg tags). lia. }
      unfold CopySymbolTable. rewrite E1, rbind_ret, E2, rbind_ret, rbind_ret. fold cr. rewrite F1, rbind_some. cbv zeta. destruct (Z.ltb_spec (zlen m') (align_up 4 size)); [lia|]. reflexivity.
    + intros k Hk. destruct (Initialize_shell cr img size filename y1 e1 y2 e2 y3 x S Hf ltac:(lia) Hi A1 B1 k) as (R & E & Ex & T1 & T2).
      exists R, x. split; [exact E|]. split; [exact Ex|]. eapply node_data with (cr := cr); [exact A1|exact B1|exact Hi|exact T1|exact T2| |exact Hk| |].
      * intros u Hu. split; [apply Ho, Hu|apply Hnam, Hu].
      * rewrite Li. apply Z.le_refl.
      * eapply bnode_frame; [|exact F7]. eapply moves_in; [exact Mv|lia|lia].
Qed.

(** ** A text attribute is cut off *)
Section CUT.
Context (name a s r : list Z) (cr : creator) (idt ida : Z).
Context (Ft : find_ name (cr_tags cr) = Ok idt) (Fa : find_ a (cr_params cr) = Ok ida) (Hs : cstring s).
Let doc := BNode name XBT_NULL [] [(a, XBT_STRING, s ++ 0 :: r)] [].
Definition cut_at m x e : Prop := e = x + 22 /\ x mod 4 = 0 /\ 0 <= x /\ has m x (le 2 idt ++ le 2 1 ++ le 4 0) /\ has m (x + 12) (le 2 ida) /\ has m (x + 14) [XBT_STRING] /\ has m (x + 16) (le 4 21) /\ has m (x + 21) (s ++ [0]).

Lemma cut_frame m m' x e : zlen m' = zlen m -> moves m m' x (zlen m) -> cut_at m x e -> cut_at m' x e.
Proof.
  intros _ M (A & B & B' & C). split; [exact A|]. split; [exact B|]. split; [exact B'|]. destruct C as (C1 & C2 & C3 & C4 & C5).
  repeat split; (apply M; [assumption|lia|]); match goal with H : has m ?p ?bs |- ?p + zlen ?bs <= _ => apply (has_range _ _ _ H) end.
Qed.
Lemma cut_write m wp : 0 <= wp -> wp + 40 + zlen s <= zlen m -> exists m' wp', BinWriteNode cr m wp doc = Ok (m', wp', align_up 4 wp) /\ align_up 4 wp < wp' <= wp + (40 + zlen s) /\ zlen m' = zlen m /\
  except m m' (align_up 4 wp) (zlen m) (align_up 4 wp) (zlen m) /\ cut_at m' (align_up 4 wp) wp'.
Proof using Ft Fa Hs.
  intros W R. pose proof (zlen_nonneg s). unfold doc. cbn [BinWriteNode]. assert (A : wp <= align_up 4 wp <= wp + 3) by (unfold align_up; lia). assert (A4 : align_up 4 wp mod 4 = 0) by (apply align_up_mod; lia). set (x := align_up 4 wp) in *.
  rewrite Ft. cbn [obind]. cbv zeta. change (s16 (zlen [(a, XBT_STRING, s ++ 0 :: r)])) with 1. change (s32 (zlen (@nil bnode))) with 0.
  destruct (wr_fits m x (le 2 idt ++ le 2 1 ++ le 4 0)) as (m1 & E1 & L1 & H1 & X1); [rewrite !bytes_app; repeat split; apply le_bytes|lia|len; lia|]. rewrite E1. cbn [obind]. specialize (X1 x (x + 8)).
  replace (x + 12 + 8 * 1 + 4 * 0) with (x + 20) by lia. unfold store_bin_value. change (node_bin_size XBT_NULL []) with (@Ok (option Z) None). cbn [obind]. change (XBT_NULL =? XBT_UNKNOWN) with false. cbv iota.
  destruct (wr_fits m1 (x + 20) [XBT_NULL]) as (m2 & E2 & L2 & H2 & X2); [apply one_byte; unfold XBT_NULL; lia|lia|len; lia|]. rewrite E2. cbn [obind]. specialize (X2 (x + 20) (x + 21)).
  cbn [store_bin_params]. unfold store_bin_param. rewrite Fa. cbn [obind].
  destruct (wr_fits m2 (x + 12) (le 2 ida) (le_bytes _ _)) as (m3 & E3 & L3 & H3 & X3); [lia|len; lia|]. rewrite E3. cbn [obind]. specialize (X3 (x + 12) (x + 14)).
  change (XBT_STRING =? XBT_NULL) with false. change (XBT_IS_VARSIZE XBT_STRING) with false. change (XBT_Size2 XBT_STRING 0) with (Ok 1). cbv iota. cbn [obind]. change (negb (XBT_STRING =? XBT_STRING)) with false. cbn [andb]. cbv iota. cbv zeta.
  change (align_to (XBT_Align XBT_STRING) (x + 20 + 1)) with (x + 20 + 1). replace (x + 20 + 1) with (x + 21) by lia. replace (x + 12 + 2) with (x + 14) by lia. replace (x + 12 + 4) with (x + 16) by lia. replace (x + 21 - x) with 21 by lia.
  destruct (wr_fits m3 (x + 14) [XBT_STRING]) as (m4 & E4 & L4 & H4 & X4); [apply one_byte; unfold XBT_STRING; lia|lia|len; lia|]. rewrite E4. cbn [obind]. specialize (X4 (x + 14) (x + 15)).
  destruct (wr_fits m4 (x + 16) (le 4 21) (le_bytes _ _)) as (m5 & E5 & L5 & H5 & X5); [lia|len; lia|]. rewrite E5. cbn [obind]. specialize (X5 (x + 16) (x + 20)).
  assert (C : XBT_Copy (s ++ 0 :: r) XBT_STRING 0 (x + 21) (zlen m3) = Ok (mkstored (x + 21) (s ++ [0]) (x + 22))).
  { unfold XBT_Copy. change (XBT_Size2 XBT_STRING 0) with (Ok 1). cbn [obind]. change (XBT_Align XBT_STRING) with 0. destruct (Z.ltb_spec (zlen m3 - (x + 21)) (1 + 0)); [lia|]. change (XBT_STRING =? XBT_STRING) with true. cbv iota.
    rewrite cstr_app by exact Hs. rewrite zlen_app, zlen_cons. pose proof (zlen_nonneg r). destruct (Z.eqb_spec (zlen s) (zlen s + (1 + zlen r))); [lia|]. do 2 f_equal. lia. }
  rewrite C. cbn [st_pos st_bytes st_wp].
  destruct (wr_fits m5 (x + 21) (s ++ [0]) (cstr0_bytes _ Hs)) as (m6 & E6 & L6 & H6 & X6); [lia|len; lia|]. rewrite E6. cbn [obind]. specialize (X6 (x + 21) (x + 21 + zlen (s ++ [0]))).
  cbn [store_bin_children obind].
  destruct (wr_fits m6 (x + 8) (le 4 (x + 22 - x)) (le_bytes _ _)) as (m7 & E7 & L7 & H7 & X7); [lia|len; lia|]. rewrite E7. cbn [obind]. specialize (X7 (x + 8) (x + 12)).
  rewrite ?zlen_app, ?le_zlen in *. change (zlen [XBT_NULL]) with 1 in *. change (zlen [XBT_STRING]) with 1 in *. change (zlen [0]) with 1 in *. change (Z.of_nat 2) with 2 in *. change (Z.of_nat 4) with 4 in *.
  exists m7, (x + 22). split; [reflexivity|]. split; [lia|]. split; [lia|]. split.
  { assert (Y6 : except m5 m7 x (zlen m) x (zlen m)) by (eapply except_trans; [exact X6|exact X7|lia|lia|lia|lia]).
    assert (Y5 : except m4 m7 x (zlen m) x (zlen m)) by (eapply except_trans; [exact X5|exact Y6|lia|lia|lia|lia]).
    assert (Y4 : except m3 m7 x (zlen m) x (zlen m)) by (eapply except_trans; [exact X4|exact Y5|lia|lia|lia|lia]).
    assert (Y3 : except m2 m7 x (zlen m) x (zlen m)) by (eapply except_trans; [exact X3|exact Y4|lia|lia|lia|lia]).
    assert (Y2 : except m1 m7 x (zlen m) x (zlen m)) by (eapply except_trans; [exact X2|exact Y3|lia|lia|lia|lia]).
    eapply except_trans; [exact X1|exact Y2|lia|lia|lia|lia]. }
  split; [reflexivity|]. split; [exact A4|]. split; [lia|]. split; [back|]. split; [back|]. split; [back|]. split; back.
Qed.
End CUT.

Lemma cut_ok m filename modified tags params name a s r : table_source tags -> table_source params -> known_name name tags -> known_name a params -> cstring s -> 3 <= zlen s -> cstring filename -> zlen m <= INT_MAX ->
  convert_room filename tags params (BNode name XBT_NULL [] [(a, XBT_STRING, s ++ 0 :: r)] []) <= zlen m ->
  exists img, BinMake_xb m filename modified tags params (BNode name XBT_NULL [] [(a, XBT_STRING, s ++ 0 :: r)] []) = rret img /\
    forall k, exists R x, Initialize (S k) img = rret R /\ rd_root R = Some x /\ read_bin_attrs 1 img R x 0 = Ub.
Proof.
  intros Ht Hp (ty1 & K1 & K2) (ty2 & K3 & K4) Hs H3 Hf Hm Hr. destruct (copied_table tags Ht) as (t1 & E1 & A1 & A2 & A3 & A4). destruct (copied_table params Hp) as (t2 & E2 & B1 & B2 & B3 & B4).
  set (cr := mkcreator t1 t2). unfold convert_room in Hr. cbn [bin_room map total fold_right attr_room] in Hr. change (value_size XBT_NULL []) with 0 in Hr.
  assert (Vs : value_size XBT_STRING (s ++ 0 :: r) = zlen s + 1) by (change (value_size XBT_STRING (s ++ 0 :: r)) with (zlen (cstr (s ++ 0 :: r)) + 1); rewrite cstr_app by exact Hs; reflexivity). rewrite Vs in Hr.
  assert (Hfind : forall s t, good t -> In s (names t) -> exists id, find_ s t = Ok id).
  { intros s0 t G Hi. destruct (list_eq_dec Z.eq_dec s0 (lit "et-tecera")) as [->|Ne].
    - exists XTNR_ET_TECERA. reflexivity.
    - unfold find_. destruct (find_ok s0 t G Ne) as (id & F & _). exists id. rewrite F. reflexivity. }
  pose proof (A3 _ _ K1 K2) as I1. pose proof (B3 _ _ K3 K4) as I2. destruct (Hfind name t1 ltac:(apply A1) I1) as (idt & Fi1). destruct (Hfind a t2 ltac:(apply B1) I2) as (ida & Fi2).
  destruct (FillDataOf_ok (fun m wp => BinWriteNode cr m wp (BNode name XBT_NULL [] [(a, XBT_STRING, s ++ 0 :: r)] [])) (cut_at s idt ida) (40 + zlen s) ltac:(lia)) with (cr := cr) (m := m) (filename := filename) (modified := modified)
    as (m' & size & y1 & e1 & y2 & e2 & y3 & x & F1 & F2 & F3 & F4 & F5 & F6 & F7).
  - apply cut_frame.
  - intros m0 wp W R. apply (cut_write name a s r cr idt ida Fi1 Fi2 Hs m0 wp W ltac:(lia)).
  - exact A2.
  - exact B2.
  - exact Hf.
  - cbn [cr_tags cr_params cr]. lia.
  - cbn [cr_tags cr_params cr] in F4. pose proof (align_up_ge 4 size ltac:(lia)) as Sg. assert (Sl : align_up 4 size <= size + 3) by (unfold align_up; lia).
    assert (Y0 : 0 <= y3 <= size) by apply F5. destruct F7 as (Es & X4 & X0 & C1 & C2 & C3 & C4 & C5).
    set (img := ztake (align_up 4 size) m'). assert (Li : zlen img = align_up 4 size) by (unfold img; rewrite zlen_take; lia).
    assert (Mv : moves m' img 0 (align_up 4 size)) by apply take_moves.
    assert (Li' : zlen img = x + 24) by (rewrite Li, Es; unfold align_up; lia).
    assert (S : doc_shell cr img size filename y1 e1 y2 e2 y3 x).
    { destruct F5 as (P1 & P2 & P3 & P4 & P5 & P6 & P7 & D1 & D2 & D3 & D4 & D5 & D6 & D7 & D8 & D9 & D10 & T1 & T2 & U1 & U2).
      assert (Q1 : y1 + 36 <= e1) by apply T1. assert (Q2 : y2 + 36 <= e2) by apply T2. pose proof (zlen_nonneg filename).
      unfold doc_shell. do 7 (split; [assumption|]). do 10 (split; [apply Mv; [assumption|lia|len; lia]|]).
      split; [eapply table_frame; [eapply moves_in; [exact Mv|lia|lia]|exact T1]|]. split; [eapply table_frame; [eapply moves_in; [exact Mv|lia|lia]|exact T2]|].
      split; apply Mv; try assumption; len; lia. }
    assert (Hi : int32 (zlen img)) by (unfold int32, INT_MIN, INT_MAX in *; lia).
    exists img. split.
    + unfold BinMake_xb. destruct (Z.leb_spec (zlen tags) 0) as [Z0|_].
      { exfalso. destruct tags; [contradiction K1|]. rewrite zlen_cons in Z0. pose proof (zlen_nonneg tags). lia. }
      unfold CopySymbolTable. rewrite E1, rbind_ret, E2, rbind_ret, rbind_ret. fold cr. rewrite F1, rbind_some. cbv zeta. destruct (Z.ltb_spec (zlen m') (align_up 4 size)); [lia|]. reflexivity.
    + intros k. destruct (Initialize_shell cr img size filename y1 e1 y2 e2 y3 x S Hf ltac:(lia) Hi A1 B1 k) as (R & E & Ex & T1 & T2).
      exists R, x. split; [exact E|]. split; [exact Ex|]. apply head_split in C1. destruct C1 as (G1 & G2 & G3).
      destruct (find_symbol img (rd_params R) _ _ ida B1 T2 (or_introl I2) Fi2) as (J1 & J2). assert (J3 : zlen t2 <= 32768) by apply B1. cbn [cr_params cr] in J1.
      cbn [read_bin_attrs]. unfold getParamByIndex. change (0 <? 0) with false. cbv iota. unfold it_paramcount. rewrite (has_s16 img (x + 2) 1 ltac:(lia) ltac:(apply Mv; [exact G2|lia|len; lia])). cbn [obind]. change (1 <=? 0) with false. cbv iota.
      replace (x + 12 + 8 * 0) with (x + 12) by lia. unfold pd_name. rewrite (has_s16 img (x + 12) ida ltac:(lia) ltac:(apply Mv; [exact C2|lia|len; lia])). cbn [obind]. rewrite J2. cbn [obind].
      unfold param_getData, pd_type, pd_data. replace (x + 12 + 2) with (x + 14) by lia. replace (x + 12 + 4) with (x + 16) by lia.
      rewrite (has_u8 img (x + 14) XBT_STRING ltac:(unfold XBT_STRING; lia) ltac:(apply Mv; [exact C3|lia|len; lia])). cbn [obind]. change (XBT_IS_4 XBT_STRING) with false. cbv iota.
      rewrite (has_s32 img (x + 16) 21 ltac:(unfold int32, INT_MIN, INT_MAX; lia) ltac:(apply Mv; [exact C4|lia|len; lia])). cbn [obind]. change (XBT_STRING =? XBT_STRING) with true. cbv iota.
      assert (Hc : has img (x + 21) (ztake 3 s)).
      { apply Mv; [|lia|rewrite zlen_take; lia]. rewrite <- (ztake_zskip 3 s), <- app_assoc in C5. apply has_app in C5. apply C5. }
      destruct (has_skip _ _ _ Hc) as (b & Hb). assert (Lb : zlen b = 0).
      { assert (Q : zlen (zskip (x + 21) img) = 3) by (rewrite zlen_skip; lia). rewrite Hb, zlen_app, zlen_take in Q; lia. }
      destruct b as [|b0 b]; [|rewrite zlen_cons in Lb; pose proof (zlen_nonneg b); lia]. rewrite app_nil_r in Hb.
      assert (Ub : rd_str img (x + 21) = Ub).
      { unfold rd_str. destruct (Z.leb_spec 0 (x + 21)); [|lia]. destruct (Z.ltb_spec (x + 21) (zlen img)); [|lia]. cbn [andb]. cbv zeta. rewrite Hb. rewrite cstr_id by (rewrite <- (ztake_zskip 3 s) in Hs; unfold cstring in *; apply Forall_app in Hs; apply Hs).
        rewrite zlen_take by lia. destruct (Z.ltb_spec (x + 21 + Z.min 3 (zlen s)) (zlen img)); [lia|]. reflexivity. }
      rewrite Ub. reflexivity.
Qed.
