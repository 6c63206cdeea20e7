(** Adding attributes succeeds when the file can grow. *)
From Verif Require Import Base BaseFacts Types ListFacts SizeProofs Sort Xb XbSpec XbFacts XbWrite WriteProofs Bw BwFacts BwRing BwSpec BwHist BwAlloc BwProofs BwRead BwTop BwSym BwReg BwFileSpec BwFileProofs BwNamesSpec BwNamesFacts BwNamesInv BwNamesReg BwNamesOps BwNamesIndex BwNamesProofs BwLifeSpec BwLife BwOnly BwSet BwNamesTop BwAttr BwAttrSpec BwAttrProofs BwAttrTop BwTagProofs BwRoomSpec.

(** ** The allocator, with and without room *)
Lemma allocate8_none m a n : pool m a -> 0 < n -> zlen m < align_up 8 a + align_up 8 n -> int32 (a + n + 14) -> exists m', allocate8 m n = Ok (None, m') /\ pool m' (align_up 8 a) /\ extends m a m' /\ (bytes m -> bytes m').
Proof.
  intros PO N0 FI IN. pose proof PO as (A & L & _ & _ & B & A4 & _). pose proof (pool_len _ _ PO) as [IZ IA]. pose proof (align8_ge n). pose proof (align8_ge a). unfold HEADER, int32 in *.
  assert (W : exists m', wr32 m 52 (align_up 8 a) = Ok m') by (apply wr32_some; lia). destruct W as (m0 & W0). destruct (round_allocator _ _ _ PO W0) as (PO1 & X1 & L1). pose proof PO1 as (_ & L' & _).
  exists m0. split; [|split; [exact PO1|split; [exact X1|intros BM; eapply wr_is_bytes; [exact W0|exact BM|apply le_bytes]]]].
  unfold allocate8. replace (n <=? 0) with false by lia. rewrite A. cbn [obind]. unfold int_ at 1, int32b. replace ((-2147483648 <=? a + 7) && (a + 7 <=? 2147483647)) with true by lia. cbv zeta. rewrite W0. cbn [obind]. unfold int_ at 1, int32b. replace ((-2147483648 <=? n + 7) && (n + 7 <=? 2147483647)) with true by lia.
  rewrite L'. cbn [obind]. unfold int_, int32b. assert (align_up 8 a + align_up 8 n <= a + n + 14) by (unfold align_up; lia). replace ((-2147483648 <=? align_up 8 a + align_up 8 n) && (align_up 8 a + align_up 8 n <=? 2147483647)) with true by lia. rewrite L1. replace (zlen m <? align_up 8 a + align_up 8 n) with true by lia. reflexivity.
Qed.
Lemma allocate_none m a n : pool m a -> 0 < n -> zlen m < a + align_up 4 n -> int32 (a + n + 14) -> allocate m n = Ok (None, m).
Proof.
  intros PO N0 FI IN. pose proof PO as (A & L & _ & _ & B & A4 & _). pose proof (pool_len _ _ PO) as [IZ IA]. pose proof (align4_ge n). unfold HEADER, int32 in *.
  unfold allocate. replace (n <=? 0) with false by lia. unfold int_ at 1, int32b. replace ((-2147483648 <=? n + 3) && (n + 3 <=? 2147483647)) with true by lia. cbv zeta. rewrite A, L. cbn [obind]. unfold int_, int32b. replace ((-2147483648 <=? a + align_up 4 n) && (a + align_up 4 n <=? 2147483647)) with true by lia. replace (zlen m <? a + align_up 4 n) with true by lia. reflexivity.
Qed.
Definition got (m : list Z) (n : Z) (r : outcome (option Z * list Z)) : Prop := exists x m1, r = Ok (Some x, m1) /\ 60 <= x /\ x + align_up 4 n <= zlen m1 /\ bytes m1 /\ exists a, pool m1 a.
Definition get8 (eight : bool) m n := if eight then allocate8 m n else allocate m n.
Lemma get_grows eight m a n M : pool m a -> bytes m -> p_mmap_size m = Ok M -> 0 < n -> (eight = true -> n mod 8 = 0) -> a + 4103 + n <= M ->
  got m n (obind (get8 eight m n) (fun '(x, m) => match x with Some x => Ok (Some x, m) | None => obind (makeSpace true m n) (fun '(ok, m) => if ok then get8 eight m n else Ok (None, m)) end)).
Proof.
  intros PO BM MM N0 N8 RO. pose proof (pool_len _ _ PO) as [IZ IA]. pose proof (rd_s32_range _ _ _ MM) as IM. pose proof PO as (_ & _ & _ & _ & B & A4 & PG). unfold HEADER, int32 in *. pose proof (align8_ge a) as [A8 A8m]. pose proof (align4_ge n) as [N4 N4m]. unfold got, get8. destruct eight.
  - specialize (N8 eq_refl). assert (E8 : align_up 8 n = n) by (unfold align_up; lia). assert (E4 : align_up 4 n = n) by (unfold align_up; lia).
    destruct (Z.le_gt_cases (align_up 8 a + align_up 8 n) (zlen m)) as [FI|FI].
    + destruct (allocate8_some m a n PO N0 FI) as (m1 & E). rewrite E. cbn [obind]. exists (align_up 8 a), m1. split; [reflexivity|]. pose proof (allocate8_bytes _ _ _ _ E BM). apply (allocate8_ok _ a) in E; [|exact PO]. destruct E as (_ & _ & P1 & _ & ZL & _). split; [lia|]. split; [lia|]. split; [assumption|eexists; exact P1].
    + destruct (allocate8_none m a n PO N0 FI ltac:(unfold int32; lia)) as (m1 & E & P1 & [ZE EX] & BB). rewrite E. cbn [obind]. specialize (BB BM).
      assert (MM1 : p_mmap_size m1 = Ok M) by (unfold p_mmap_size, rd_s32 in *; rewrite EX by lia; exact MM).
      destruct (makeSpace_some m1 (align_up 8 a) n M P1 MM1 ltac:(lia) ltac:(lia)) as (m2 & E2). rewrite E2. cbn [obind]. pose proof (makeSpace_bytes _ _ _ _ _ E2 BB) as B2. apply (makeSpace_ok _ _ (align_up 8 a)) in E2; [|exact P1]. destruct E2 as (P2 & _ & Z2). specialize (Z2 eq_refl).
      assert (AA : align_up 8 (align_up 8 a) = align_up 8 a) by (generalize A8m; generalize (align_up 8 a); intros q Q; unfold align_up; lia).
      destruct (allocate8_some m2 (align_up 8 a) n P2 N0 ltac:(lia)) as (m3 & E3). rewrite E3. exists (align_up 8 (align_up 8 a)), m3. split; [reflexivity|]. pose proof (allocate8_bytes _ _ _ _ E3 B2). apply (allocate8_ok _ (align_up 8 a)) in E3; [|exact P2]. destruct E3 as (_ & _ & P3 & _ & ZL & _). split; [lia|]. split; [lia|]. split; [assumption|eexists; exact P3].
  - destruct (Z.le_gt_cases (a + align_up 4 n) (zlen m)) as [FI|FI].
    + destruct (allocate_some m a n PO N0 FI) as (m1 & E). rewrite E. cbn [obind]. exists a, m1. split; [reflexivity|]. pose proof (allocate_bytes _ _ _ _ E BM). apply (allocate_ok _ a) in E; [|exact PO]. destruct E as (_ & _ & P1 & _ & ZL & _). split; [lia|]. split; [lia|]. split; [assumption|eexists; exact P1].
    + rewrite (allocate_none m a n PO N0 FI ltac:(unfold int32; lia)). cbn [obind]. destruct (makeSpace_some m a n M PO MM ltac:(lia) ltac:(lia)) as (m2 & E2). rewrite E2. cbn [obind]. pose proof (makeSpace_bytes _ _ _ _ _ E2 BM) as B2. apply (makeSpace_ok _ _ a) in E2; [|exact PO]. destruct E2 as (P2 & _ & Z2). specialize (Z2 eq_refl). pose proof P2 as (_ & _ & _ & _ & _ & _ & PG2).
      assert (F2 : a + align_up 4 n <= zlen m2) by (unfold align_up in *; lia). destruct (allocate_some m2 a n P2 N0 F2) as (m3 & E3). rewrite E3. exists a, m3. split; [reflexivity|]. pose proof (allocate_bytes _ _ _ _ E3 B2). apply (allocate_ok _ a) in E3; [|exact P2]. destruct E3 as (_ & _ & P3 & _ & ZL & _). split; [lia|]. split; [lia|]. split; [assumption|eexists; exact P3].
Qed.
Lemma fresh_grows m a id ty n z flags M : pool m a -> bytes m -> p_mmap_size m = Ok M -> XBT_Size2 ty n = Ok z -> 0 <= z -> (XBT_IS_VARSIZE ty = true -> 4 <= z) -> (XBT_Align ty = 8 -> z mod 8 = 0) -> a + z + 4127 <= M ->
  exists x m', fresh true m id ty n flags = Ok (Some x, m') /\ 0 < x /\ x + 24 + (z + 3) / 4 * 4 <= zlen m'.
Proof.
  intros PO BM MM SZ Z0 VZ Z8 RO. pose proof (rd_s32_range _ _ _ MM) as IM. pose proof PO as (_ & _ & _ & _ & B & _). unfold HEADER, int32 in *. unfold fresh, new_element. rewrite SZ. cbn [obind]. replace (z <? 0) with false by lia. unfold int_ at 1, int32b. replace ((-2147483648 <=? 24 + z) && (24 + z <=? 2147483647)) with true by lia. cbv zeta.
  assert (G := get_grows (XBT_Align ty =? 8) m a (24 + z) M PO BM MM ltac:(lia)). destruct G as (x & m1 & G & X0 & XL & B1 & a1 & P1); [intros Q; apply Z.eqb_eq in Q; specialize (Z8 Q); lia|lia|]. unfold get8 in G.
  destruct (file_size_u _ _ P1 B1) as (b & RB & UB). replace (align_up 4 (24 + z)) with (24 + (z + 3) / 4 * 4) in XL by (unfold align_up; lia).
  match goal with |- exists x m', obind (obind ?A ?K) ?L = _ /\ _ => assert (EQ : obind A K = obind (Ok (Some x, m1)) (fun '(x, m) => match x with None => Ok (None, m) | Some x => obind (wr m (x + 7) [ty]) (fun m => obind (wr32 m x x) (fun m => obind (wr32 m (x + 8) x) (fun m => obind (wr32 m (x + 12) x) (fun m => obind (if XBT_IS_VARSIZE ty then wr32 m (x + 24) (z - 4) else Ok m) (fun m => Ok (Some x, m)))))) end)) end.
  { rewrite <- G. destruct (if XBT_Align ty =? 8 then allocate8 m (24 + z) else allocate m (24 + z)) as [[y w]| |]; reflexivity. }
  rewrite EQ. clear EQ G. cbn [obind].
  destruct (wr_some m1 (x + 7) [ty]) as (w1 & W1); [lia|change (zlen [ty]) with 1; lia|]. rewrite W1. cbn [obind]. pose proof (wr_len_ _ _ _ _ W1).
  destruct (wr32_some w1 x x) as (w2 & W2); [lia|lia|]. rewrite W2. cbn [obind]. pose proof (wr_len_ _ _ _ _ W2).
  destruct (wr32_some w2 (x + 8) x) as (w3 & W3); [lia|lia|]. rewrite W3. cbn [obind]. pose proof (wr_len_ _ _ _ _ W3).
  destruct (wr32_some w3 (x + 12) x) as (w4 & W4); [lia|lia|]. rewrite W4. cbn [obind]. pose proof (wr_len_ _ _ _ _ W4).
  assert (G : exists w5, (if XBT_IS_VARSIZE ty then wr32 w4 (x + 24) (z - 4) else Ok w4) = Ok w5 /\ zlen w5 = zlen m1 /\ rd w5 32 4 = rd m1 32 4).
  { assert (K : rd w4 32 4 = rd m1 32 4).
    { apply wr_kept in W1, W2, W3, W4. destruct W1 as (_ & _ & [_ K1] & _), W2 as (_ & _ & [_ K2] & _), W3 as (_ & _ & [_ K3] & _), W4 as (_ & _ & [_ K4] & _). rewrite K4, K3, K2, K1 by lia. reflexivity. }
    destruct (XBT_IS_VARSIZE ty) eqn:V; [|exists w4; split; [reflexivity|split; [lia|exact K]]].
    specialize (VZ eq_refl).
    destruct (wr32_some w4 (x + 24) (z - 4)) as (w5 & W5); [lia|lia|]. exists w5. split; [exact W5|]. split; [pose proof (wr_len_ _ _ _ _ W5); lia|]. rewrite <- K. apply wr_kept in W5. destruct W5 as (_ & _ & [_ K5] & _). apply K5; lia. }
  destruct G as (w5 & -> & ZL5 & K5). cbn [obind]. unfold init. rewrite K5. rewrite RB. cbn [obind].
  rewrite UB. replace ((0 <? x) && (x + 24 <=? zlen m1)) with true by lia. match goal with |- context [wr w5 x ?b] => destruct (wr_some w5 x b) as (w6 & W6); [lia|change (zlen b) with 24; lia|] end. rewrite W6. cbn [obind]. exists x, w6. split; [reflexivity|]. split; [lia|]. pose proof (wr_len_ _ _ _ _ W6). lia.
Qed.

(** ** The calls *)
Definition roomy c ty disk m p id : Prop := exists wanted n d bs, attr_run c disk m p id = attr_ disk m p id wanted n d bs /\ wanted ty = true /\ XBT_Size2 ty n = Ok (attr_size c) /\ 24 <= d /\ d + zlen bs <= 24 + (attr_size c + 3) / 4 * 4 /\ 0 <= attr_size c /\
  (XBT_IS_VARSIZE ty = true -> 4 <= attr_size c) /\ (XBT_Align ty = 8 -> attr_size c mod 8 = 0).
Lemma fixed_run ty n disk m p id v : XBT_Size2 ty 0 = Ok n -> 0 <= n <= zlen v -> exists bs, attrFixed ty disk m p id v = attr_ disk m p id (fun t => t =? ty) 0 24 bs /\ zlen bs = n.
Proof.
  intros SZ L. destruct (rd_some v 0 n) as [bs RV]; [lia..|]. exists bs. split; [unfold attrFixed; rewrite SZ; cbn [obind]; rewrite RV; reflexivity|]. unfold rd in RV. destruct ((0 <=? 0) && _); [|discriminate]. injection RV as <-. apply zlen_slice; lia.
Qed.
Lemma roomy_of c ty disk m p id : In ty (attr_types c) -> attr_args c -> roomy c ty disk m p id.
Proof.
  intros I AR. destruct c; cbn [attr_types attr_args] in I, AR; cbn [In] in I; try match type of I with _ \/ False => destruct I as [<-|[]] end.
  Ltac done_ := repeat match goal with |- _ /\ _ => split end; try reflexivity; try lia; try (intros Q; discriminate Q); try (intros _; reflexivity).
  - exists (fun t => t =? XBT_NULL), 0, 24, []. cbn [attr_size]. done_.
  - exists (fun t => t =? XBT_STRING), (zlen v), 24, (v ++ [0]). cbn [attr_size]. pose proof (zlen_nonneg v). rewrite zlen_app. change (zlen [0]) with 1. done_.
  - pose proof (cstr_len v). pose proof (zlen_nonneg v). pose proof (zlen_nonneg (cstr v)). exists (fun t => t =? XBT_STRING), (zlen v), 24, (cstr v ++ zrepeat 0 (zlen v - zlen (cstr v)) ++ [0]). cbn [attr_size]. rewrite !zlen_app, zlen_repeat by lia. change (zlen [0]) with 1. done_.
  - pose proof (zlen_nonneg v). exists (fun t => t =? XBT_BLOB), (zlen v), 28, v. cbn [attr_size]. done_.
  - exists (fun t => t =? XBT_BLOB), n, 28, (zrepeat 0 n). cbn [attr_size]. rewrite zlen_repeat by lia. done_.
  - pose proof (zlen_nonneg v). exists (fun t => t =? XBT_HEX), (zlen v), 28, v. cbn [attr_size]. done_.
  - exists (fun t => t =? XBT_HEX), n, 28, (zrepeat 0 n). cbn [attr_size]. rewrite zlen_repeat by lia. done_.
  - exists (fun t => t =? XBT_INT32), 0, 24, (le 4 v). cbn [attr_size]. change (zlen (le 4 v)) with 4. done_.
  - exists (fun t => t =? XBT_UINT32), 0, 24, (le 4 v). cbn [attr_size]. change (zlen (le 4 v)) with 4. done_.
  - exists (fun t => t =? XBT_FLOAT), 0, 24, (le 4 bits). cbn [attr_size]. change (zlen (le 4 bits)) with 4. done_.
  - exists XBT_IS_8, 0, 24, (le 8 v). cbn [attr_size]. change (zlen (le 8 v)) with 8. destruct I as [<-|[<-|[<-|[<-|[]]]]]; done_.
  - exists (fun t => t =? XBT_UINT64), 0, 24, (le 8 v). cbn [attr_size]. change (zlen (le 8 v)) with 8. done_.
  - exists (fun t => t =? XBT_DOUBLE), 0, 24, (le 8 bits). cbn [attr_size]. change (zlen (le 8 bits)) with 8. done_.
  - exists (fun t => t =? XBT_UNIX_TIME), 0, 24, (le 4 v). cbn [attr_size]. change (zlen (le 4 v)) with 4. done_.
  - exists (fun t => t =? XBT_UNIX_TIME64_MSEC), 0, 24, (le 8 v). cbn [attr_size]. change (zlen (le 8 v)) with 8. done_.
  - destruct (fixed_run XBT_GUID 16 disk m p id v eq_refl ltac:(lia)) as (bs & R & BL). exists (fun t => t =? XBT_GUID), 0, 24, bs. cbn [attr_size attr_run]. unfold attrGUID. rewrite BL. split; [exact R|]. done_.
  - destruct (fixed_run XBT_SHA1 24 disk m p id v eq_refl ltac:(lia)) as (bs & R & BL). exists (fun t => t =? XBT_SHA1), 0, 24, bs. cbn [attr_size attr_run]. unfold attrSHA1. rewrite BL. split; [exact R|]. done_.
Qed.
Lemma attr_succeeds c k s m T P F p A i nm ty a M : life k s m T P F -> In p (members F) -> owned F p false A -> nth_error P i = Some (nm, ty) -> t_index m PARAMS <> Ok 0 -> attr_args c -> In ty (attr_types c) ->
  bytes m -> p_allocator m = Ok a -> p_mmap_size m = Ok M -> a + attr_size c + 4127 <= M -> exists m', attr_run c true m p (Z.of_nat i) = Ok (Some p, m').
Proof.
  intros LI IP OW NP IX AR TT BM PA MM RO. destruct (roomy_of c ty true m p (Z.of_nat i) TT AR) as (wanted & n & d & bs & R & W & SZ & D & BS & Z0 & VZ & Z8). rewrite R.
  pose proof (life_whole _ _ _ _ _ _ LI) as (B & a0 & I & EL & _). pose proof EL as (hh & aa & PL & RP & SH). destruct (param_type m T P B a0 i nm ty I IX NP) as [GT TY]. destruct (names_pool _ _ _ _ _ _ _ I) as [PO _]. assert (a0 = a) as -> by (destruct PO as (Q & _); congruence).
  assert (ID : -32768 <= Z.of_nat i < 32768). { pose proof (attr_known _ _ _ _ _ _ LI) as P1. assert (IL : (i < List.length P)%nat) by (apply nth_error_Some; congruence). unfold zlen in P1. lia. }
  unfold attr_. rewrite (rep_off _ _ _ RP p IP). cbn [obind]. rewrite Z.eqb_refl. cbn [negb]. rewrite GT. cbn [obind]. rewrite W. cbn [negb].
  destruct (fresh_grows m a (Z.of_nat i) ty n (attr_size c) ATTR M PO BM MM SZ Z0 VZ Z8 RO) as (x & m1 & FR & X0 & XL). rewrite FR. cbn [obind]. destruct (wr_some m1 (x + d) bs) as (m2 & W2); [lia|lia|]. rewrite W2. cbn [obind].
  destruct (made_attr _ _ _ _ _ _ _ _ _ _ _ _ _ _ _ _ LI FR W2 TY SZ D BS ID) as (L1 & NX & _). pose proof (life_whole _ _ _ _ _ _ L1) as (B1 & a1 & I1 & E1 & _). destruct (added_any (set k x false) F p false A x OW ltac:(apply set_same)) as (F' & AD & _).
  destruct (inv_add _ _ _ _ _ _ _ E1 (or_intror IP) AD) as (pre & m3 & EA & _). rewrite EA. cbn [obind]. eauto.
Qed.
