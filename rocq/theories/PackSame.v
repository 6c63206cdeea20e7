(** Two images of the same document read the same, whatever its texts are. *)
From Verif Require Import Base BaseFacts ListFacts Types Scan ScanProofs Dates CalSpec RingProofs RoundtripProofs Sort SortProofs Symtab SymtabSpec SymtabProofs
  Sha1Spec Xb XbSpec XbFacts XbSymProofs XbWrite DocSpec ReadSpec NavSpec WriteProofs FillProofs InitProofs OpenProofs ReadProofs Packer PackSpec PackDoc PackRead PackedProofs PackReadProofs PackSameSpec.

Lemma obind_ok {A B} (x : outcome A) (k : A -> outcome B) v : obind x k = Ok v -> exists y, x = Ok y /\ k y = Ok v.
Proof. destruct x; cbn; try discriminate. eauto. Qed.
(** Only hexadecimal data looks at the end of the space. *)
Lemma from_any fl v ty p l p' l' : ty <> XBT_HEX ->
  match XBT_FromString fl v ty p l, XBT_FromString fl v ty p' l' with Ok s, Ok s' => st_bytes s = st_bytes s' | Fail, Fail => True | Ub, Ub => True | _, _ => False end.
Proof.
  intros NH. unfold XBT_FromString. cbv zeta.
  repeat match goal with |- match (if ty =? ?t then _ else _) with _ => _ end => let H := fresh "H" in destruct (ty =? t) eqn:H; [apply Z.eqb_eq in H; subst ty|] end; try reflexivity; try contradiction; try exact I.
  - destruct v; [reflexivity|exact I].
  - destruct (str2dec v 1); cbn [obind]; [reflexivity|exact I..].
  - destruct (str2dec v 2); cbn [obind]; [reflexivity|exact I..].
  - destruct (str2dec v 3); cbn [obind]; [reflexivity|exact I..].
  - destruct (str2dec v 6); cbn [obind]; [reflexivity|exact I..].
  - destruct (str2dec v 9); cbn [obind]; [reflexivity|exact I..].
  - destruct (ScanIPv4 v) as [[]| |]; cbn [obind]; [reflexivity|exact I..].
  - destruct (ScanInt64 v) as [[]| |]; cbn [obind]; [reflexivity|exact I..].
  - destruct (ScanUInt64 v) as [[]| |]; cbn [obind]; [reflexivity|exact I..].
  - destruct (ScanHex v 16) as [[n bs] rest]. destruct (n =? 16); [reflexivity|exact I].
  - destruct (ScanHex v 20) as [[n bs] rest]. destruct (n =? 20); [reflexivity|exact I].
  - destruct (ScanUnixTime v) as [[]| |]; cbn [obind]; [reflexivity|exact I..].
  - destruct (ScanUnixTime64msec v) as [[]| |]; cbn [obind]; [reflexivity|exact I..].
  - destruct (ScanUnixDate v) as [[]| |]; cbn [obind]; [reflexivity|exact I..].
Qed.
(** The values that do not depend on their place, other than texts: where they are read and how many bytes. *)
Lemma from_place fl v ty p l s : ~ In ty [XBT_INT64; XBT_UINT64; XBT_UNIX_TIME64_MSEC; XBT_HEX; XBT_STRING] -> XBT_FromString fl v ty p l = Ok s ->
  st_pos s = align_to (XBT_Align ty) p /\ (ty = XBT_NULL \/ ty = XBT_GUID /\ zlen (st_bytes s) = 16 \/ ty = XBT_SHA1 /\ zlen (st_bytes s) = 20 \/ (XBT_IS_4 ty || (ty =? XBT_UNIX_DATE) = true /\ zlen (st_bytes s) = 4)).
Proof.
  intros NI E. unfold XBT_FromString in E. cbv zeta in E.
  repeat match type of E with (if ty =? ?t then _ else _) = _ => let H := fresh "H" in destruct (ty =? t) eqn:H; [apply Z.eqb_eq in H; subst ty|] end; try discriminate E; try (exfalso; apply NI; cbn [In]; tauto).
  all: try (apply obind_ok in E as (w & _ & E); cbv beta in E). all: try match type of E with (let '(_, _) := ?w in _) = _ => is_var w; destruct w end. all: try (injection E as <-; split; [reflexivity|]; cbn [st_bytes]; right; right; right; split; reflexivity).
  - destruct v; [|discriminate]. injection E as <-. split; [reflexivity|]. left. reflexivity.
  - pose proof (ScanHex_bound v 16 ltac:(lia)) as HB. destruct (ScanHex v 16) as [[n bs] rest]. destruct HB as (HN & HL & _). destruct (n =? 16) eqn:N; [|discriminate]. injection E as <-. split; [reflexivity|]. right. left. split; [reflexivity|]. cbn [st_bytes]. lia.
  - pose proof (ScanHex_bound v 20 ltac:(lia)) as HB. destruct (ScanHex v 20) as [[n bs] rest]. destruct HB as (HN & HL & _). destruct (n =? 20) eqn:N; [|discriminate]. injection E as <-. split; [reflexivity|]. right. right. left. split; [reflexivity|]. cbn [st_bytes]. lia.
Qed.
Ltac pick t := repeat match goal with |- context [t =? ?u] => let b := eval vm_compute in (t =? u) in change (t =? u) with b end; cbv iota.
Lemma take_app k (bs r : list Z) : zlen bs = k -> ztake k (bs ++ r) = bs.
Proof. intros <-. apply ztake_app_len. reflexivity. Qed.
(** The text of such a value comes from its bytes alone. *)
Lemma shows_same fl ty bs r r' out st : (ty = XBT_NULL \/ ty = XBT_GUID /\ zlen bs = 16 \/ ty = XBT_SHA1 /\ zlen bs = 20 \/ (XBT_IS_4 ty || (ty =? XBT_UNIX_DATE) = true /\ zlen bs = 4)) ->
  (if readable ty (bs ++ r) then XBT_ToString fl ty (bs ++ r) out st else Ub) = if readable ty (bs ++ r') then XBT_ToString fl ty (bs ++ r') out st else Ub.
Proof.
  intros C. pose proof (zlen_nonneg r). pose proof (zlen_nonneg r'). destruct C as [->|[[-> L]|[[-> L]|[C L]]]].
  - reflexivity.
  - unfold readable. cbn [isin existsb]. change (XBT_GUID =? XBT_STRING) with false. change (XBT_IS_VARSIZE XBT_GUID) with false. change (XBT_IS_4 XBT_GUID || (XBT_GUID =? XBT_UNIX_DATE)) with false. change (XBT_IS_8 XBT_GUID) with false. change (XBT_GUID =? XBT_GUID) with true. cbn [orb]. rewrite !zlen_app, L.
    replace (16 <=? 16 + zlen r) with true by lia. replace (16 <=? 16 + zlen r') with true by lia. unfold XBT_ToString. change (XBT_GUID =? XBT_NULL) with false. change (XBT_GUID =? XBT_STRING) with false. change (XBT_GUID =? XBT_GUID) with true. cbv iota zeta. rewrite !(take_app 16) by exact L. reflexivity.
  - assert (RD : forall q, 0 <= zlen q -> readable XBT_SHA1 (bs ++ q) = true) by (intros q Q; change (readable XBT_SHA1 (bs ++ q)) with (20 <=? zlen (bs ++ q)); rewrite zlen_app; lia). rewrite !RD by assumption.
    assert (T : forall q buf, XBT_ToStringChunk fl XBT_SHA1 (bs ++ q) 0 buf = XBT_ToStringChunk fl XBT_SHA1 bs 0 buf).
    { intros q buf. unfold XBT_ToStringChunk. cbv zeta. destruct (zlen buf <=? 256); [reflexivity|].
      repeat match goal with |- context [XBT_SHA1 =? ?t] => first [change (XBT_SHA1 =? t) with false|change (XBT_SHA1 =? t) with true] end. cbv iota.
      change (20 <=? 0) with false. cbv iota. change (zskip 0 (bs ++ q)) with (bs ++ q). change (zskip 0 bs) with bs. change (20 - 0) with 20. rewrite (take_app 20) by exact L. rewrite <- (app_nil_r bs) at 2. rewrite (take_app 20) by exact L. reflexivity. }
    unfold XBT_ToString. repeat match goal with |- context [XBT_SHA1 =? ?t] => first [change (XBT_SHA1 =? t) with false|change (XBT_SHA1 =? t) with true] end. cbv iota zeta. rewrite !T. reflexivity.
  - assert (RD : forall q, 0 <= zlen q -> readable ty (bs ++ q) = true).
    { intros q Q. unfold readable. rewrite C. assert (S0 : (ty =? XBT_STRING) = false) by (destruct (Z.eqb_spec ty XBT_STRING) as [->|]; [discriminate C|reflexivity]). assert (V0 : XBT_IS_VARSIZE ty = false). { destruct (XBT_IS_VARSIZE ty) eqn:V; [|reflexivity]. unfold XBT_IS_VARSIZE, isin in V. cbn [existsb] in V. repeat (apply orb_prop in V as [V|V]); try discriminate; apply Z.eqb_eq in V; subst ty; discriminate C. }
      rewrite S0, V0, zlen_app. lia. }
    rewrite !RD by assumption.
    assert (T : forall q buf, XBT_ToStringChunk fl ty (bs ++ q) 0 buf = XBT_ToStringChunk fl ty bs 0 buf).
    { intros q buf. assert (B : ztake 4 bs = bs) by (rewrite <- (app_nil_r bs) at 1; apply take_app; exact L). unfold XBT_ToStringChunk. cbv zeta. rewrite (take_app 4) by exact L. rewrite B. destruct (zlen buf <=? 256); [reflexivity|]. unfold XBT_IS_4, isin in C. cbn [existsb] in C.
      repeat (apply orb_prop in C as [C|C]); try discriminate; apply Z.eqb_eq in C; subst ty; match goal with |- context [?t =? XBT_BLOB_STRING] => pick t end; reflexivity. }
    unfold XBT_IS_4, isin in C. cbn [existsb] in C. repeat (apply orb_prop in C as [C|C]); try discriminate; apply Z.eqb_eq in C; subst ty; unfold XBT_ToString, isin; cbn [existsb];
    match goal with |- context [?t =? XBT_NULL] => pick t end; cbn [orb]; cbv iota zeta; rewrite ?T; reflexivity.
Qed.

Section SAME.
Context (fl : floats) (cr : creator) (m1 m2 : list Z) (R1 R2 : reader) (root : node).
Context (B1 : bytes m1) (B2 : bytes m2) (L1 : zlen m1 <= INT_MAX) (L2 : zlen m2 <= INT_MAX).
Context (M : made root cr) (NH : no_hex root) (F : document_fits root) (MV : movable root).
Context (T1 : table_names m1 (rd_tags R1) (names (cr_tags cr))) (P1 : table_names m1 (rd_params R1) (names (cr_params cr))).
Context (T2 : table_names m2 (rd_tags R2) (names (cr_tags cr))) (P2 : table_names m2 (rd_params R2) (names (cr_params cr))).

Lemma image_at m p s ty : has m (st_pos s) (st_bytes s) -> st_pos s = align_to (XBT_Align ty) p -> forall out st, exists r, image_ToString fl m ty p out st = if readable ty (st_bytes s ++ r) then XBT_ToString fl ty (st_bytes s ++ r) out st else Ub.
Proof using.
  intros H E out st. destruct (has_skip _ _ _ H) as (r & S). apply has_range in H. pose proof (zlen_nonneg (st_bytes s)). exists r. unfold image_ToString. cbv zeta. rewrite <- E, S. destruct (Z.leb_spec 0 (st_pos s)); [|lia]. destruct (Z.leb_spec (st_pos s) (zlen m)); [|lia]. reflexivity.
Qed.
Lemma image_same v ty p p' l l' s s' out st : ~ In ty [XBT_INT64; XBT_UINT64; XBT_UNIX_TIME64_MSEC; XBT_HEX; XBT_STRING] -> XBT_FromString fl v ty p l = Ok s -> XBT_FromString fl v ty p' l' = Ok s' ->
  has m1 (st_pos s) (st_bytes s) -> has m2 (st_pos s') (st_bytes s') -> image_ToString fl m1 ty p out st = image_ToString fl m2 ty p' out st.
Proof using.
  intros NI E E' H H'. destruct (from_place _ _ _ _ _ _ NI E) as [PL KD]. destruct (from_place _ _ _ _ _ _ NI E') as [PL' _]. assert (NX : ty <> XBT_HEX) by (intros ->; apply NI; cbn [In]; tauto).
  pose proof (from_any fl v ty p l p' l' NX) as S. rewrite E, E' in S. destruct (image_at m1 p s ty H PL out st) as (r & ->). destruct (image_at m2 p' s' ty H' PL' out st) as (r' & ->). rewrite <- S. apply shows_same. exact KD.
Qed.
Lemma value_same x y p q v l l' e e' out st : value_pos m1 x = Ok p -> value_pos m2 y = Ok q -> value_at fl m1 p v l e -> value_at fl m2 q v l' e' -> (forall t, v = Some t -> cstring t /\ movable_value t) ->
  getString fl m1 (Some x) out st = getString fl m2 (Some y) out st.
Proof using.
  intros HP HQ (_ & V) (_ & V') MT. unfold getString, value_type. rewrite HP, HQ. cbn [obind].
  assert (NUL : forall m p e, inside m p e p [XBT_NULL] -> obind (obind (rd_u8 m p) (fun t => Ok (s8 t, p + 1))) (fun '(t, p0) => if t =? XBT_STRING then obind (rd_str m p0) (fun s => Ok (Text s, st)) else image_ToString fl m t p0 out st) = Ok (NoText, st)).
  { clear. intros m p e (A & B & C). rewrite (has_u8 _ _ XBT_NULL ltac:(unfold XBT_NULL; lia) A). cbn [obind]. change (s8 XBT_NULL) with XBT_NULL. change (XBT_NULL =? XBT_STRING) with false. cbv iota.
    apply has_range in A. change (zlen [XBT_NULL]) with 1 in A. unfold image_ToString. change (align_to (XBT_Align XBT_NULL) (p + 1)) with (p + 1). cbv zeta.
    destruct (Z.leb_spec 0 (p + 1)); [|lia]. destruct (Z.leb_spec (p + 1) (zlen m)); [|lia]. reflexivity. }
  destruct v as [t|]; [|destruct V as [V _]; destruct V' as [V' _]; rewrite (NUL m1 p e V), (NUL m2 q e' V'); reflexivity].
  destruct (MT t eq_refl) as [CS MO]. destruct V as ((A & _) & s & S1 & (H & _) & _). destruct V' as ((A' & _) & s' & S1' & (H' & _) & _). pose proof (detect_type t) as D.
  rewrite (has_u8 _ _ (XBT_Detect t) ltac:(lia) A), (has_u8 _ _ (XBT_Detect t) ltac:(lia) A'). cbn [obind]. assert (S8 : s8 (XBT_Detect t) = XBT_Detect t) by (unfold s8; lia). rewrite S8. destruct (Z.eqb_spec (XBT_Detect t) XBT_STRING) as [E|E].
  - rewrite E in S1, S1'. change (XBT_FromString fl t XBT_STRING (p + 1) l) with (Ok (mkstored (p + 1) (t ++ [0]) (p + 1 + zlen (t ++ [0])))) in S1. change (XBT_FromString fl t XBT_STRING (q + 1) l') with (Ok (mkstored (q + 1) (t ++ [0]) (q + 1 + zlen (t ++ [0])))) in S1'. injection S1 as <-. injection S1' as <-. cbn [st_pos st_bytes] in H, H'.
    rewrite (has_str _ _ t CS H), (has_str _ _ t CS H'). reflexivity.
  - apply (image_same t _ _ _ l l' s s'); auto. unfold movable_value in MO. cbn [In] in *. intuition congruence.
Qed.
Lemma attr_same x y q q' a l l' wp wp' e e' out st : 0 <= x <= zlen m1 -> 0 <= y <= zlen m2 -> attr_at fl cr m1 x q a l wp e -> attr_at fl cr m2 y q' a l' wp' e' -> In (fst a) (names (cr_params cr)) -> cstring (snd a) -> XBT_Detect (snd a) <> XBT_HEX -> movable_attr root a ->
  exists id, pd_name m1 q = Ok id /\ pd_name m2 q' = Ok id /\ getSymbol m1 (rd_params R1) id = Ok (fst a) /\ getSymbol m2 (rd_params R2) id = Ok (fst a) /\ param_getString fl m1 (Some q) (Some x) out st = param_getString fl m2 (Some q') (Some y) out st.
Proof using L1 L2 M NH P1 P2.
  intros HX HY (W0 & id & A1 & (A2 & _) & A3) (W0' & id' & A1' & (A2' & _) & A3') IN CS DH (NE & ND). rewrite A1 in A1'. injection A1' as <-. pose proof M as (_ & M2 & _ & _ & _ & M6 & M7). pose proof (M6 NH) as TO.
  destruct (find_symbol m1 (rd_params R1) _ _ id M2 P1 (or_introl IN) A1) as (I1 & I2). destruct (find_symbol m2 (rd_params R2) _ _ id M2 P2 (or_introl IN) A1) as (_ & I3). assert (Hid : zlen (cr_params cr) <= 32768) by apply M2.
  exists id. split; [apply has_s16; [lia|exact A2]|]. split; [apply has_s16; [lia|exact A2']|]. split; [exact I2|]. split; [exact I3|]. unfold param_getString, pd_type, pd_data. unfold INT_MAX in *.
  assert (NUL : forall m x q, 0 <= x <= zlen m -> has m (q + 2) [XBT_NULL] -> has m (q + 4) (le 4 0) -> obind (rd_u8 m (q + 2)) (fun ty => if ty =? XBT_STRING then obind (rd_s32 m (q + 4)) (fun d => obind (rd_str m (x + d)) (fun s => Ok (Text s, st)))
     else if XBT_IS_4 ty then image_ToString fl m ty (q + 4) out st else obind (rd_s32 m (q + 4)) (fun d => image_ToString fl m ty (x + d) out st)) = Ok (NoText, st)).
  { clear. intros m x q HX A B. rewrite (has_u8 _ _ XBT_NULL ltac:(unfold XBT_NULL; lia) A). cbn [obind]. change (XBT_NULL =? XBT_STRING) with false. change (XBT_IS_4 XBT_NULL) with false. cbv iota. rewrite (has_s32 _ _ 0 ltac:(unfold int32, INT_MIN, INT_MAX; lia) B). cbn [obind].
    unfold image_ToString. change (align_to (XBT_Align XBT_NULL) (x + 0)) with (x + 0). cbv zeta. destruct (Z.leb_spec 0 (x + 0)); [|lia]. destruct (Z.leb_spec (x + 0) (zlen m)); [|lia]. reflexivity. }
  assert (TXT : forall m x q wp, 0 <= x <= zlen m -> zlen m <= 2147483647 -> has m (q + 2) [XBT_STRING] -> has m (q + 4) (le 4 (wp - x)) -> has m wp (snd a ++ [0]) -> obind (rd_u8 m (q + 2)) (fun ty => if ty =? XBT_STRING then obind (rd_s32 m (q + 4)) (fun d => obind (rd_str m (x + d)) (fun s => Ok (Text s, st)))
     else if XBT_IS_4 ty then image_ToString fl m ty (q + 4) out st else obind (rd_s32 m (q + 4)) (fun d => image_ToString fl m ty (x + d) out st)) = Ok (Text (snd a), st)).
  { clear - CS. intros m x q wp HX LM A B C. rewrite (has_u8 _ _ XBT_STRING ltac:(unfold XBT_STRING; lia) A). cbn [obind]. change (XBT_STRING =? XBT_STRING) with true. cbv iota. pose proof (has_range _ _ _ C). pose proof (zlen_nonneg (snd a ++ [0])). rewrite (has_s32 _ _ (wp - x) ltac:(unfold int32, INT_MIN, INT_MAX; lia) B). cbn [obind]. replace (x + (wp - x)) with wp by lia. rewrite (has_str _ _ (snd a) CS C). reflexivity. }
  destruct A3 as [(C1 & (C2 & _) & (C3 & _) & _)|(C1 & ty & TY & C)].
  { destruct A3' as [(_ & (C2' & _) & (C3' & _) & _)|(C1' & _)]; [|contradiction]. rewrite (NUL m1 x q), (NUL m2 y q'); auto. }
  destruct A3' as [(C1' & _)|(_ & ty' & TY' & C')]; [contradiction|]. assert (ty' = ty) as -> by (destruct TY as (t0 & X & ->); destruct TY' as (t1 & X' & ->); congruence).
  destruct (attr_type_ok cr id (snd a) ty TO DH TY) as [RT NX].
  assert (Ety : ty = XBT_Detect2 (snd a) (column_type (values_of (fst a) (flat_map attrs_of (elements root))))).
  { destruct TY as (ty0 & K1 & K2). rewrite K2. f_equal. assert (Z0 : 0 <= id < zlen (cr_params cr) /\ name_at (cr_params cr) id = Ok (fst a)).
    { unfold find_ in A1. destruct (find_ok (fst a) (cr_params cr) (proj1 M2) NE) as (i & Fi & [[Hi Hni]|[_ Hni]]); [|contradiction]. rewrite Fi in A1. inversion A1; subst i. auto. }
    destruct Z0 as (Z0 & Z1). assert (Es : s16 id = id) by (unfold s16; lia). rewrite Es in K1. destruct (Z.leb_spec 0 id); [|lia]. unfold type_at in K1. unfold name_at in Z1. destruct (id <? 0); [discriminate|].
    destruct (nth_error (cr_params cr) (Z.to_nat id)) as [[n t]|] eqn:En; [|discriminate]. inversion K1; inversion Z1; subst. apply nth_error_In in En. apply (M7 _ _ En). }
  rewrite <- Ety in ND. pose proof (from_any fl (snd a) ty (q + 4) l (q' + 4) l' NX) as SF.
  destruct C as [(S4 & (D1 & _) & _ & s & D2 & (D3 & _))|(S4 & (D1 & _) & (D2 & _) & (D3 & _) & _)]; destruct C' as [(S4' & (D1' & _) & _ & s' & D2' & (D3' & _))|(S4' & (D1' & _) & (D2' & _) & (D3' & _) & _)].
  - rewrite (has_u8 _ _ ty RT D1), (has_u8 _ _ ty RT D1'). cbn [obind].
    assert (NI : ~ In ty [XBT_INT64; XBT_UINT64; XBT_UNIX_TIME64_MSEC; XBT_HEX; XBT_STRING]) by (intros I; cbn [In] in I; repeat (destruct I as [<-|I]; [first [discriminate S4|contradiction]|]); exact I).
    destruct (from_place _ _ _ _ _ _ NI D2) as (_ & [->|[[-> _]|[[-> _]|[I4 _]]]]); try discriminate S4. apply orb_prop in I4 as [I4|I4]; [|apply Z.eqb_eq in I4; contradiction].
    assert (S0 : (ty =? XBT_STRING) = false) by (destruct (Z.eqb_spec ty XBT_STRING) as [->|]; [discriminate I4|reflexivity]). rewrite S0, I4. apply (image_same (snd a) _ _ _ l l' s s'); auto.
  - destruct S4' as [S4'|S4']; [contradiction|]. rewrite D2, S4' in SF. destruct SF.
  - destruct S4 as [S4|S4]; [contradiction|]. rewrite D2', S4 in SF. destruct SF.
  - rewrite (TXT m1 x q wp), (TXT m2 y q' wp'); auto.
Qed.
Lemma attrs_same x y l l' out A : forall i wp wp' e e' st, 0 <= x <= zlen m1 -> 0 <= y <= zlen m2 -> 0 <= i -> it_paramcount m1 x = Ok (i + zlen A) -> it_paramcount m2 y = Ok (i + zlen A) -> attrs_at fl cr m1 x (x + 12 + 8 * i) A l wp e -> attrs_at fl cr m2 y (y + 12 + 8 * i) A l' wp' e' ->
  (forall a, In a A -> In (fst a) (names (cr_params cr)) /\ cstring (snd a) /\ XBT_Detect (snd a) <> XBT_HEX /\ movable_attr root a) ->
  read_attrs (List.length A) fl m1 R1 x i out st = read_attrs (List.length A) fl m2 R2 y i out st.
Proof using L1 L2 M NH P1 P2.
  induction A as [|a A IH]; intros i wp wp' e e' st HX HY I0 PC PC' AT AT' HA; [reflexivity|]. cbn [attrs_at] in AT, AT'. destruct AT as (e1 & A1 & A2). destruct AT' as (e1' & A1' & A2'). destruct (HA a (or_introl eq_refl)) as (H1 & H2 & H3 & H4).
  destruct (attr_same x y _ _ a l l' wp wp' e1 e1' out st HX HY A1 A1' H1 H2 H3 H4) as (id & N1 & N2 & S1 & S2 & G). rewrite zlen_cons in PC, PC'. pose proof (zlen_nonneg A).
  cbn [List.length read_attrs]. unfold getParamByIndex. destruct (Z.ltb_spec i 0); [lia|]. rewrite PC, PC'. cbn [obind]. destruct (Z.leb_spec (i + (1 + zlen A)) i); [lia|].
  rewrite N1, N2. cbn [obind]. rewrite S1, S2. cbn [obind]. rewrite G. destruct (param_getString fl m2 (Some (y + 12 + 8 * i)) (Some y) out st) as [[s st1]| |]; [|reflexivity..]. cbn [obind].
  rewrite (IH (i + 1) e1 e1' e e' st1); auto; try lia.
  - rewrite PC. f_equal. lia.
  - rewrite PC'. f_equal. lia.
  - replace (x + 12 + 8 * (i + 1)) with (x + 12 + 8 * i + 8) by lia. exact A2.
  - replace (y + 12 + 8 * (i + 1)) with (y + 12 + 8 * i + 8) by lia. exact A2'.
  - intros b Hb. apply HA. right. exact Hb.
Qed.
Lemma nodes_same t : (forall u, In u (elements t) -> In u (elements root)) -> forall x y fuel out st, dag_at fl cr m1 x t -> dag_at fl cr m2 y t -> read_node fuel fl m1 R1 x out st = read_node fuel fl m2 R2 y out st.
Proof using L1 L2 M NH P1 P2 T1 T2 F MV.
  induction t as [n v a k IH] using node_ind'. intros Sub x y fuel out st N N'. destruct fuel as [|fuel]; [reflexivity|]. cbn [dag_at] in N, N'.
  destruct N as (l & id & e1 & e2 & N1 & N3 & N4 & N5 & N6 & N8 & N9 & N10). destruct N' as (l' & id' & e1' & e2' & N1' & N3' & _ & _ & N6' & N8' & N9' & N10'). rewrite N1 in N1'. injection N1' as <-.
  assert (Hx : x <= zlen m1) by (apply has_range in N6; rewrite !zlen_app, !le_zlen in N6; lia). assert (Hy : y <= zlen m2) by (apply has_range in N6'; rewrite !zlen_app, !le_zlen in N6'; lia).
  pose proof (Sub (Node n v a k) (or_introl eq_refl)) as IN. destruct (proj1 F _ IN) as (F1 & F2 & F3 & _). destruct (MV _ IN) as [V1 V2]. pose proof (NH _ IN) as V3. pose proof M as (M1 & _ & _ & _ & M5 & _). destruct (M5 _ IN) as [M6 M7]. unfold no_hex_attr in V3. cbn [name_of value_of attrs_of kids_of] in *.
  destruct (find_symbol m1 (rd_tags R1) _ _ id M1 T1 (or_introl M6) N1) as (I1 & I2). destruct (find_symbol m2 (rd_tags R2) _ _ id M1 T2 (or_introl M6) N1) as (_ & I2'). assert (Hid : zlen (cr_tags cr) <= 32768) by apply M1.
  apply head_split in N6 as (H1 & H2 & H3). apply head_split in N6' as (H1' & H2' & H3'). unfold INT_MAX in *. pose proof (zlen_nonneg a). pose proof (zlen_nonneg k).
  assert (E1 : it_name m1 x = Ok id) by (apply has_s16; [lia|exact H1]). assert (E1' : it_name m2 y = Ok id) by (apply has_s16; [lia|exact H1']).
  assert (E2 : it_paramcount m1 x = Ok (zlen a)) by (apply has_s16; [lia|exact H2]). assert (E2' : it_paramcount m2 y = Ok (zlen a)) by (apply has_s16; [lia|exact H2']).
  assert (E3 : it_childcount m1 x = Ok (zlen k)) by (apply has_s32; [unfold int32, INT_MIN, INT_MAX; lia|exact H3]). assert (E3' : it_childcount m2 y = Ok (zlen k)) by (apply has_s32; [unfold int32, INT_MIN, INT_MAX; lia|exact H3']).
  cbn [read_node]. rewrite E1, E1'. cbn [obind]. rewrite I2, I2'. change (Some (Ok n)) with (rret n). rb. rewrite E2, E2'. change (Some (Ok (zlen a))) with (rret (zlen a)). rb. rewrite E3, E3'. change (Some (Ok (zlen k))) with (rret (zlen k)). rb.
  assert (La : Z.to_nat (zlen a) = List.length a) by (unfold zlen; lia). rewrite La. assert (Lk : Z.to_nat (zlen k) = List.length k) by (unfold zlen; lia). rewrite Lk.
  assert (AS : read_attrs (List.length a) fl m1 R1 x 0 out st = read_attrs (List.length a) fl m2 R2 y 0 out st).
  { apply (attrs_same x y l l' out a 0 e1 e1' e2 e2' st); [lia|lia|lia|exact E2|exact E2'|replace (x + 12 + 8 * 0) with (x + 12) by lia; exact N9|replace (y + 12 + 8 * 0) with (y + 12) by lia; exact N9'|].
    intros [bn bv] Hin. split; [apply (M7 bn bv Hin)|]. split; [apply (F3 bn bv Hin)|]. split; [apply (V3 bn bv Hin)|apply V2, Hin]. }
  rewrite AS. clear AS.
  destruct (read_attrs (List.length a) fl m2 R2 y 0 out st) as [[A st1]| |]; [|reflexivity..]. change (Some (Ok (A, st1))) with (rret (A, st1)). rb.
  rewrite (value_same x y (x + 12 + 8 * zlen a + 4 * zlen k) (y + 12 + 8 * zlen a + 4 * zlen k) v l l' e1 e1' out st1); auto; [|unfold value_pos; rewrite E2, E3; reflexivity|unfold value_pos; rewrite E2', E3'; reflexivity].
  destruct (getString fl m2 (Some y) out st1) as [[s st2]| |]; [|reflexivity..]. change (Some (Ok (s, st2))) with (rret (s, st2)). rb.
  match goal with |- rbind (?g _ 0 st2) _ = rbind (?h _ 0 st2) _ => set (go := g); set (go' := h) end.
  assert (K : forall q c c' i st3, Forall (fun t => In t k) q -> i + zlen q = zlen k -> 0 <= i -> c = x + 12 + 8 * zlen a + 4 * i -> c' = y + 12 + 8 * zlen a + 4 * i -> links_at (fun z t => dag_at fl cr m1 z t) m1 x c q -> links_at (fun z t => dag_at fl cr m2 z t) m2 y c' q -> go (List.length q) i st3 = go' (List.length q) i st3).
  { clear N9 N9' N10 N10' N8 N8' st st1 st2 A s. induction q as [|t q IHq]; intros c c' i st3 Hl Hi Hi0 -> -> Hk Hk'; [reflexivity|]. cbn [links_at] in Hk, Hk'. destruct Hk as ((z & K3 & K2 & K1) & K4). destruct Hk' as ((z' & K3' & K2' & K1') & K4'). inversion Hl as [|? ? Ht Hl']; subst. rewrite zlen_cons in Hi. pose proof (zlen_nonneg q). cbn [List.length].
    match goal with |- go (Datatypes.S ?n) ?i ?s = _ => change (go (Datatypes.S n) i s) with (rbind (Some (getChildByIndex m1 (Some x) i)) (fun c => match c with None => Some Fail | Some y => rbind (read_node fuel fl m1 R1 y out s) (fun '(t, st) => rbind (go n (i + 1) st) (fun '(l, st) => rret (t :: l, st))) end)) end.
    match goal with |- _ = go' (Datatypes.S ?n) ?i ?s => change (go' (Datatypes.S n) i s) with (rbind (Some (getChildByIndex m2 (Some y) i)) (fun c => match c with None => Some Fail | Some y => rbind (read_node fuel fl m2 R2 y out s) (fun '(t, st) => rbind (go' n (i + 1) st) (fun '(l, st) => rret (t :: l, st))) end)) end.
    unfold getChildByIndex, children_pos. rewrite E3, E3'. cbn [obind]. destruct (Z.ltb_spec i 0); [lia|]. destruct (Z.leb_spec (zlen k) i); [lia|]. cbn [orb]. rewrite E2, E2'. cbn [obind].
    rewrite (has_s32 _ _ (z - x) ltac:(unfold int32, INT_MIN, INT_MAX in *; lia) K3), (has_s32 _ _ (z' - y) ltac:(unfold int32, INT_MIN, INT_MAX in *; lia) K3'). cbn [obind]. replace (x + (z - x)) with z by lia. replace (y + (z' - y)) with z' by lia.
    change (Some (Ok (Some z))) with (rret (Some z)). change (Some (Ok (Some z'))) with (rret (Some z')). rb. rewrite Forall_forall in IH. rewrite (IH t Ht) with (y := z'); auto; [|intros u Hu; apply Sub; eapply elements_kids; eassumption].
    destruct (read_node fuel fl m2 R2 z' out st3) as [[[w st4]| |]|]; [|reflexivity..]. change (Some (Ok (w, st4))) with (rret (w, st4)). rb. rewrite (IHq (x + 12 + 8 * zlen a + 4 * i + 4) (y + 12 + 8 * zlen a + 4 * i + 4) (i + 1) st4); auto; lia. }
  rewrite (K k (x + 12 + 8 * zlen a) (y + 12 + 8 * zlen a) 0 st2); auto; try lia. apply Forall_forall. auto.
Qed.
End SAME.

Lemma packed_same fl m filename modified root img W scratch heap depth : bytes m -> zlen m <= INT_MAX -> cstring filename -> document_fits root -> no_hex root ->
  Make_xb fl m filename modified root = rret img -> sha1_separates img -> zlen W = 64 -> bytes heap -> zlen img <= zlen heap -> zlen scratch = 4 + zlen (elements root) -> (height root + 2 <= depth)%nat -> movable root ->
  forall k, exists img' R x R' x', Make_packed W scratch heap depth fl m filename modified root = rret img' /\
    Initialize (S k) img = rret R /\ rd_root R = Some x /\ Initialize (S k) img' = rret R' /\ rd_root R' = Some x' /\ forall fuel out st, read_node fuel fl img' R' x' out st = read_node fuel fl img R x out st.
Proof.
  intros Hb Hm Hf F NH H Sep HW Hh Hhl Hsc Hdp MV k.
  destruct (packs_doc fl m filename modified root img W scratch heap depth Hb Hm Hf F NH H Sep HW Hh Hhl Hsc Hdp) as (img' & P & cr & d & o & size & size' & U & Pl & J & x0 & y1 & e1 & y2 & e2 & y3 & z1 & f1 & z2 & f2 & z3 & z & M & Hg & Hd & Hz & Bi & D & Hs & Jx & L & Li & Sh & Shi & _ & Pk & Pf & Pp & Mv & HU & Hs' & Ds).
  pose proof M as (A1 & A2 & A3 & A4 & A5 & A6 & _). assert (Hi : int32 (zlen img')) by (pose proof (zlen_nonneg img'); unfold int32, INT_MIN, INT_MAX in *; lia). assert (Hi2 : int32 (zlen img)) by (pose proof (zlen_nonneg img); unfold int32, INT_MIN, INT_MAX in *; lia).
  destruct (Initialize_shell cr img' size' filename z1 f1 z2 f2 z3 z Ds Hf Hs' Hi A1 A2 k) as (R' & E1' & E2' & T1 & T2).
  destruct (Initialize_doc fl cr img (zlen m) size filename root y1 e1 y2 e2 y3 x0 D Hf ltac:(lia) Hi2 A1 A2 k) as (R & E & Ex & T3 & T4).
  assert (PA : payload_at fl cr img (zlen m) y3 x0 size root) by apply D. destruct PA as (_ & _ & _ & _ & _ & _ & _ & _ & _ & N).
  assert (Dp : dag_at fl cr img x0 root) by (eapply node_dag; [apply N, Hg|lia]).
  assert (Dg : dag_at fl cr img' z root).
  { eapply (packed_dag fl cr d o img' (zlen m) size' U Pl); try eassumption; try lia. intros u v Hu Hv. destruct (MV u Hu) as (Sv & _). specialize (Sv v Hv). unfold movable_value in Sv. cbn [In] in Sv. intuition congruence. }
  exists img', R, x0, R', z. repeat (split; [assumption|]). intros fuel out st. symmetry. eapply (nodes_same fl cr img img' R R' root); try eassumption; try (unfold INT_MAX in *; lia). auto.
Qed.
