(** Copying a document into a pool: the values and one element or attribute. *)
From Verif Require Import Base BaseFacts Types ListFacts SizeProofs Sort Xb XbSpec XbFacts XbWrite WriteProofs XbBin BinSpec Bw BwFacts BwRing BwSpec BwHist BwAlloc BwProofs BwRead BwTop BwSym BwReg BwFileSpec BwFileProofs BwNamesSpec BwNamesFacts BwNamesInv BwNamesReg BwNamesOps BwNamesIndex BwNamesProofs BwLifeSpec BwLife BwOnly JsonSource BwSet BwNamesTop BwAttr BwAttrSpec BwAttrProofs BwAttrTop BwTag BwTagSpec BwTagProofs BwTagTop BwSourceSpec BwCopy BwCopySpec.

(** ** Values *)
(** A value with the room the pool reserves for it, and what follows is not part of it. *)
Definition fits ty bs : Prop :=
  exists n z, XBT_Size2 ty n = Ok z /\ 0 <= z /\ zlen bs <= (z + 3) / 4 * 4 /\ 24 + z <= align_up 8 (24 + zlen bs) /\ forall pad, value_bytes ty (bs ++ pad) = bs.
Definition ref_ok d (r : data_ref) p : Prop :=
  dr_data r = Some p /\
  (XBT_IS_4 (dr_type r) = true /\ dr_size r = 4 \/ dr_type r = XBT_STRING /\ (exists s, rd_str d p = Ok s /\ dr_size r = zlen s + 1) \/
   XBT_IS_VARSIZE (dr_type r) = true /\ (exists n, rd_s32 d p = Ok n /\ dr_size r = 4 + n) \/
   XBT_IS_4 (dr_type r) = false /\ dr_type r <> XBT_STRING /\ XBT_IS_VARSIZE (dr_type r) = false /\ dr_size r = XBT_FIXEDSIZE (dr_type r)).
Lemma param_ref d q y r : param_getData d (Some q) (Some y) = Ok r -> exists p, ref_ok d r p.
Proof.
  unfold param_getData. intro E. apply obind_inv in E as (ty & _ & E). destruct (XBT_IS_4 ty) eqn:I4; [injection E as <-; exists (q + 4); split; [reflexivity|]; left; auto|].
  apply obind_inv in E as (o & _ & E). destruct (Z.eqb_spec ty XBT_STRING) as [->|NS].
  { apply obind_inv in E as (s & S & E). injection E as <-. exists (y + o). split; [reflexivity|]. right. left. cbn. split; [reflexivity|]. exists s. split; [exact S|lia]. }
  destruct (XBT_IS_VARSIZE ty) eqn:V; [apply obind_inv in E as (n & S & E)|]; injection E as <-; exists (y + o); (split; [reflexivity|]); right; right; [left|right; auto]. cbn. split; [exact V|]. exists n. auto.
Qed.
Lemma item_ref d y r : getData d (Some y) = Ok r -> exists p, ref_ok d r p.
Proof.
  unfold getData. intro E. apply obind_inv in E as ([t p] & _ & E). cbv zeta in E. destruct (XBT_IS_4 t) eqn:I4; [injection E as <-; exists (align_up 4 p); split; [reflexivity|]; left; auto|].
  destruct (XBT_IS_8 t) eqn:I8. { injection E as <-. exists (align_up 8 p). split; [reflexivity|]. right. right. right. cbn. revert I8. unfold XBT_IS_8, isin. cbn [existsb]. intro H. repeat (apply orb_prop in H as [H|H]; [apply Z.eqb_eq in H; subst t; repeat split; discriminate|]). discriminate H. }
  destruct (Z.eqb_spec t XBT_STRING) as [->|NS].
  { apply obind_inv in E as (s & S & E). destruct (_ <? 0) in E; [discriminate|]. injection E as <-. exists p. split; [reflexivity|]. right. left. cbn. split; [reflexivity|]. exists s. auto. }
  destruct (XBT_IS_VARSIZE t) eqn:V; [apply obind_inv in E as (n & S & E)|]; (destruct (_ <? 0) in E; [discriminate|]); injection E as <-; exists (align_up 4 p); (split; [reflexivity|]); right; right; [left|right; auto]. cbn. split; [exact V|]. exists n. auto.
Qed.
Lemma take_app (a b : list Z) : ztake (zlen a) (a ++ b) = a.
Proof. apply ztake_app_len. reflexivity. Qed.
Lemma ref_fits d r p ty v : bytes d -> ref_ok d r p -> read_data d r = Ok (ty, v) -> 0 <= dr_size r -> holdable ty v -> dr_type r = ty /\ dr_size r = zlen v /\ ref_bytes d (dr_data r) (dr_size r) = Ok v /\ fits ty v.
Proof.
  intros BD (DP & SZ) RD S0 [NB BL]. unfold read_data in RD. rewrite DP in RD. apply obind_inv in RD as (b & RB & E). injection E as TY <-. rewrite DP. unfold ref_bytes. replace (dr_size r <? 0) with false by lia.
  pose proof RB as RI. apply rd_inv in RI as (P0 & PZ & HB & ZB); [|exact S0]. split; [exact TY|]. split; [lia|]. split; [exact RB|]. rewrite TY in SZ. destruct SZ as [[I4 S4]|[[-> (s & RS & SS)]|[[V (n & RN & SN)]|(_ & _ & _ & SF)]]].
  - assert (X : In ty four_bytes). { unfold XBT_IS_4, isin in I4. apply existsb_exists in I4 as (u & J & Q). apply Z.eqb_eq in Q. subst u. cbn [In four_bytes] in *. tauto. }
    exists 0, 4. split; [apply size_4, I4|]. split; [lia|]. split; [change ((4 + 3) / 4 * 4) with 4; lia|]. split; [rewrite ZB, S4; vm_compute; congruence|]. intro pad. unfold value_bytes, value_size.
    replace (isin ty four_bytes) with true by (symmetry; unfold isin; apply existsb_exists; exists ty; split; [exact X|apply Z.eqb_refl]). replace 4 with (zlen b) by lia. apply take_app.
  - destruct (rd_str_inv _ _ _ RS) as [HS SC]. assert (CS : cstring s) by (rewrite SC; apply cstr_cstring, bytes_skip, BD). assert (b = s ++ [0]) as ->. { pose proof (has_rd _ _ _ HS) as RR. rewrite zlen_app in RR. change (zlen [0]) with 1 in RR. rewrite <- SS in RR. congruence. }
    exists (zlen s), (zlen s + 1). split; [reflexivity|]. pose proof (zlen_nonneg s). split; [lia|]. split; [lia|]. split; [pose proof (align8_ge (24 + zlen (s ++ [0]))); lia|]. intro pad. unfold value_bytes. rewrite <- app_assoc. cbn [app].
    change (value_size XBT_STRING (s ++ 0 :: pad)) with (zlen (cstr (s ++ 0 :: pad)) + 1). rewrite (cstr_app s pad CS). replace (s ++ 0 :: pad) with ((s ++ [0]) ++ pad) by (rewrite <- app_assoc; reflexivity). replace (zlen s + 1) with (zlen (s ++ [0])) by (rewrite zlen_app; reflexivity). apply take_app.
  - assert (BH : ty = XBT_BLOB \/ ty = XBT_HEX). { unfold XBT_IS_VARSIZE, isin in V. apply existsb_exists in V as (u & J & Q). apply Z.eqb_eq in Q. subst u. cbn [In] in J. destruct J as [J|[J|[J|[]]]]; auto. congruence. }
    specialize (BL BH). assert (N0 : 0 <= n) by lia. exists n, (n + 4). assert (SE : XBT_Size2 ty n = Ok (n + 4)) by (destruct BH as [-> | ->]; reflexivity). split; [exact SE|]. split; [lia|]. split; [lia|]. split; [pose proof (align8_ge (24 + zlen b)); lia|].
    assert (UN : unle (ztake 4 b) = n). { unfold rd_s32 in RN. apply obind_inv in RN as (c & RC & E). injection E as E. assert (c = ztake 4 b) as ->. { apply rd_inv in RC as (_ & _ & HC & ZC); [|lia]. assert (HB4 : has d p (ztake 4 b)) by (rewrite <- (ztake_zskip 4 b) in HB; apply has_app in HB as [HB _]; exact HB). assert (Z4 : zlen (ztake 4 b) = 4) by (rewrite zlen_take; lia). pose proof (has_rd _ _ _ HC) as R1. pose proof (has_rd _ _ _ HB4) as R2. rewrite ZC in R1. rewrite Z4 in R2. congruence. }
      assert (BB : bytes (ztake 4 b)). { unfold rd in RB. destruct (_ && _) in RB; [|discriminate]. injection RB as <-. apply bytes_take. unfold slice. apply bytes_take, bytes_skip, BD. }
      pose proof (unle_bound _ BB) as UB. rewrite zlen_take in UB by lia. replace (Z.min 4 (zlen b)) with 4 in UB by lia. change (256 ^ 4) with 4294967296 in UB. unfold s32 in E. lia. }
    intro pad. unfold value_bytes. assert (VS : value_size ty (b ++ pad) = 4 + unle (ztake 4 (b ++ pad))) by (destruct BH as [-> | ->]; reflexivity). rewrite VS. rewrite (ztake_app_l 4) by lia. rewrite UN. replace (4 + n) with (zlen b) by lia. apply take_app.
  - unfold XBT_FIXEDSIZE in SF. destruct (Z.eqb_spec ty XBT_NULL) as [->|_].
    { exists 0, 0. split; [reflexivity|]. split; [lia|]. rewrite ZB, SF. split; [vm_compute; congruence|]. split; [vm_compute; congruence|]. intro pad. change (ztake 0 (b ++ pad) = b). destruct b as [|? b]; [reflexivity|]. unfold zlen in ZB. cbn [List.length] in ZB. lia. }
    assert (G : forall n z w, XBT_Size2 ty n = Ok z -> 0 <= w <= z -> 24 + z <= align_up 8 (24 + w) -> dr_size r = w -> (forall src, value_size ty src = w) -> fits ty b).
    { intros n z w E1 E2 E3 E4 E5. exists n, z. split; [exact E1|]. split; [lia|]. rewrite ZB, E4. split; [lia|]. split; [exact E3|]. intro pad. unfold value_bytes. rewrite E5. replace w with (zlen b) by lia. apply take_app. }
    destruct (isin ty [XBT_INT64; XBT_DOUBLE; XBT_UINT64; XBT_UNIX_TIME64_MSEC]) eqn:I8.
    { unfold isin in I8. apply existsb_exists in I8 as (u & J & Q). apply Z.eqb_eq in Q. subst u. cbn [In] in J. destruct J as [<-|[<-|[<-|[<-|[]]]]]; apply (G 8 8 8); auto; try (vm_compute; congruence); vm_compute; split; discriminate. }
    destruct (Z.eqb_spec ty XBT_GUID) as [->|_]; [apply (G 16 16 16); auto; try (vm_compute; congruence); vm_compute; split; discriminate|].
    destruct (Z.eqb_spec ty XBT_SHA1) as [->|_]; [apply (G 0 24 20); auto; try (vm_compute; congruence); vm_compute; split; discriminate|].
    destruct (Z.eqb_spec ty XBT_IPv6) as [->|_]; [apply (G 16 16 16); auto; try (vm_compute; congruence); vm_compute; split; discriminate|lia].
Qed.

(** ** One element or attribute *)
(** The tables of names and the root stay. *)
Definition heads m m' : Prop := rd m' TAGS 32 = rd m TAGS 32 /\ rd m' 44 4 = rd m 44 4.
Lemma heads_refl m : heads m m.
Proof. split; reflexivity. Qed.
Lemma heads_trans m1 m2 m3 : heads m1 m2 -> heads m2 m3 -> heads m1 m3.
Proof. intros [A1 A2] [B1 B2]. split; congruence. Qed.
Lemma extends_heads m a m' : HEADER <= a -> extends m a m' -> heads m m'.
Proof. unfold HEADER. intros A [_ EX]. split; apply EX; unfold TAGS; lia. Qed.
Definition quiet s m m' F : Prop := (forall e, In e (members F) -> rd m' e (s e) = rd m e (s e)) /\ heads m m'.
Lemma s32_small x : int32 x -> s32 x = x.
Proof. unfold int32, s32. lia. Qed.
Lemma put_done k s m T P F id ty flags bs r m' : life k s m T P F -> 0 <= ty < 256 -> 0 <= flags < 256 -> -32768 <= id < 32768 -> fits ty bs -> zlen bs <= INT_MAX ->
  put_el m id ty flags (zlen bs) (Ok bs) = Ok (r, m') ->
  quiet s m m' F /\ match r with
  | None => life k s m' T P F
  | Some x => exists k' s' v, life k' s' m' T P ((None, [x]) :: F) /\ (forall e, In e (members F) -> k' e = k e /\ s' e = s e) /\ ~ In x (members F) /\ k' x = is_element flags /\ el_id m' x = Ok id /\ el_type m' x = Ok ty /\
      rd m' (x + 24) (s' x - 24) = Ok v /\ value_bytes ty v = bs
  end.
Proof.
  intros LI TY FL ID (n & z & SZ & Z0 & BZ & AZ & VB) MX E. pose proof (zlen_nonneg bs) as B0. unfold INT_MAX in MX. unfold put_el in E. apply obind_inv in E as ([x m1] & AL & E). pose proof (life_whole _ _ _ _ _ _ LI) as WH. pose proof WH as (B & a & I & EL & _). destruct (names_pool _ _ _ _ _ _ _ I) as [PO _]. pose proof PO as (_ & _ & _ & _ & BB & _). unfold HEADER in BB.
  destruct x as [x|].
  2:{ injection E as <- <-. split; [|eapply life_allocate8; eauto]. apply (allocate8_ok _ a) in AL; [|exact PO]. destruct AL as (_ & [EZ EX] & _). split; [|apply (extends_heads _ a); [unfold HEADER; lia|split; auto]]. intros e J. destruct (inv_in _ _ _ _ _ e EL PO J) as (? & ? & ?). unfold HEADER in *. apply EX; lia. }
  apply obind_inv in E as (m2 & IN & E). apply obind_inv in E as (b & EB & E). injection EB as <-. apply obind_inv in E as (m3 & W & E). injection E as <- <-.
  assert (LE : 24 + zlen bs <= 2147483647). { destruct (Z.le_gt_cases (24 + zlen bs) 2147483647); [assumption|]. exfalso. unfold allocate8 in AL. replace (s32 (24 + zlen bs) <=? 0) with true in AL by (unfold s32; lia). congruence. }
  rewrite s32_small in AL by (unfold int32; lia). destruct (put_ok _ a _ _ _ _ _ _ _ PO AL IN ltac:(lia)) as (AX & X8 & PO' & [EZ EX] & ZL & HD & _). pose proof PO' as (_ & _ & _ & _ & BB' & _). pose proof (align8_ge (24 + zlen bs)) as [_ A8].
  assert (IX : int32 x). { destruct (pool_len _ _ PO') as [_ IA]. unfold HEADER, int32 in *. lia. } destruct (header_fields _ _ _ _ _ HD IX FL) as (_ & _ & HT & HI & _). specialize (HT TY). specialize (HI ID).
  destruct (whole_put k s m T P F id ty n z flags _ x m1 m2 WH FL TY AL IN SZ Z0 AZ) as (_ & NI & KK). pose proof (life_put k s m T P F id ty n z flags _ x m1 m2 LI FL TY AL IN SZ Z0 AZ) as L2. set (k' := set k x (is_element flags)) in *. set (s' := set s x (24 + (z + 3) / 4 * 4)) in *.
  assert (SX : s' x = 24 + (z + 3) / 4 * 4) by apply set_same. destruct (wr_kept _ _ _ _ W) as (_ & _ & KW & GW). pose proof KW as [_ KE].
  assert (L3 : life k' s' m3 T P ((None, [x]) :: F)) by (apply (life_write _ _ m2 _ _ _ x (x + 24) bs); auto; [left; reflexivity|lia|lia]).
  split; [split|].
  - intros e J. rewrite <- (KK e J). destruct (inv_in _ _ _ _ _ e EL PO J) as (? & ? & ?). apply KE; lia.
  - split; (rewrite KE by (unfold TAGS; lia)); apply EX; unfold TAGS; lia.
  - destruct (rd_some m3 (x + 24) (s' x - 24)) as [v RV]; [lia|rewrite (kept_len _ _ _ _ KW); unfold HEADER in *; lia|]. exists k', s', v. split; [exact L3|]. split; [intros e J; assert (e <> x) by (intros ->; auto); unfold k', s'; rewrite !set_other by auto; auto|]. split; [exact NI|]. split; [apply set_same|].
    split; [unfold el_id, rd_s16 in *; rewrite KE by lia; exact HI|]. split; [unfold el_type, rd_u8 in *; rewrite KE by lia; exact HT|]. split; [exact RV|].
    assert (v = bs ++ zskip (zlen bs) v) as ->; [|apply VB]. rewrite <- (ztake_zskip (zlen bs) v) at 1. f_equal. apply rd_inv in RV as (_ & _ & HV & ZV); [|lia]. rewrite <- (ztake_zskip (zlen bs) v) in HV. apply has_app in HV as [HV _]. apply has_rd in HV. rewrite zlen_take in HV by lia. replace (Z.min (zlen bs) (zlen v)) with (zlen bs) in HV by lia. congruence.
Qed.
(** Adding a free element to another one *)
Lemma owned_perm F F' q b L : Permutation F F' -> owned F q b L -> owned F' q b L.
Proof. intros PM [O|[-> U]]; [left; eapply Permutation_in; eauto|right]. split; [reflexivity|]. intros L' J. apply (U L'). eapply Permutation_in; [apply Permutation_sym; exact PM|exact J]. Qed.
Lemma adds_perm k p x F F2 F' : Permutation F F2 -> adds k p x F2 F' -> adds k p x F F'.
Proof. intros PM A. destruct A as [F2 B1 B2 R PM2 U|F2 B1 B2 L R PM2]; [apply (adds_first k p x F B1 B2 R); [eapply perm_trans; eauto|exact U]|apply (adds_last k p x F B1 B2 L R); eapply perm_trans; eauto]. Qed.
Lemma added_free k F p c L x : owned F p c L -> k x = c -> exists F', adds k p x ((None, [x]) :: F) F' /\ owned F' p c (L ++ [x]) /\ (forall q b Lq, (q, b) <> (p, c) -> owned F q b Lq -> owned F' q b Lq) /\ forall B, In (None, B) F -> In (None, B) F'.
Proof.
  intros [O|[-> U]] KX.
  - apply in_split in O as (F1 & F2 & ->). assert (PM : Permutation (F1 ++ (Some (p, c), L) :: F2) ((Some (p, c), L) :: F1 ++ F2)) by (symmetry; apply Permutation_middle).
    exists ((Some (p, c), L ++ [x]) :: F1 ++ F2). split; [|split; [|split]].
    + pose proof (adds_last k p x ((None, [x]) :: F1 ++ (Some (p, c), L) :: F2) [] [] L (F1 ++ F2)) as A. rewrite KX in A. cbn [app] in A. apply A. apply perm_skip, PM.
    + left. left. reflexivity.
    + intros q b Lq N [O|[-> U]]; [left; right; apply (in_other _ _ _ _ _ _ _ PM) in O; [exact O|congruence]|]. right. split; [reflexivity|]. intros L' [E|J]; [congruence|]. apply (U L'). apply (in_other _ _ _ _ _ _ _ PM); [congruence|exact J].
    + intros B J. right. apply (Permutation_in _ PM) in J. destruct J as [J|J]; [discriminate|exact J].
  - exists ((Some (p, c), [x]) :: F). split; [|split; [|split]].
    + pose proof (adds_first k p x ((None, [x]) :: F) [] [] F) as A. rewrite KX in A. apply A; [reflexivity|exact U].
    + left. left. reflexivity.
    + intros q b Lq N [O|[-> V]]; [left; right; exact O|]. right. split; [reflexivity|]. intros L' [E|J]; [congruence|]. apply (V L' J).
    + intros B J. right. exact J.
Qed.
Lemma add_step k s m T P F p x c A ok tr : life k s m T P F -> In (None, [x]) F -> In p (members F) -> p <> x -> owned F p c A -> k x = c -> add m p x = Ok (ok, tr) ->
  exists F', life k s (final m tr) T P F' /\ (forall e, In e (members F) -> In e (members F') /\ same_data s m (final m tr) e) /\ owned F' p c (A ++ [x]) /\
    (forall q b Lq, (q, b) <> (p, c) -> owned F q b Lq -> owned F' q b Lq) /\ (forall B, In (None, B) F -> B <> [x] -> In (None, B) F') /\ heads m (final m tr) /\ zlen (final m tr) = zlen m /\ forall q n, 0 <= n -> q + n <= 92 -> rd (final m tr) q n = rd m q n.
Proof.
  intros LI IX IP NE OW KX E. apply in_split in IX as (R1 & R2 & ->). assert (PM : Permutation (R1 ++ (None, [x]) :: R2) ((None, [x]) :: R1 ++ R2)) by (symmetry; apply Permutation_middle). set (R := R1 ++ R2) in *.
  assert (OR : forall q b Lq, owned (R1 ++ (None, [x]) :: R2) q b Lq -> owned R q b Lq). { intros q b Lq O. apply (owned_perm _ _ _ _ _ PM) in O. destruct O as [[O|O]|[-> U]]; [discriminate|left; exact O|right]. split; [reflexivity|]. intros L' J. apply (U L'). right. exact J. }
  destruct (added_free k R p c A x (OR _ _ _ OW) KX) as (F' & AD & OW' & OT & FR). apply (adds_perm _ _ _ _ _ _ PM) in AD. pose proof (life_whole _ _ _ _ _ _ LI) as WH. pose proof WH as (B & a & I & EL & _). destruct (inv_add _ _ _ _ _ _ _ EL IP AD) as (pre & m2 & EA & _ & _ & OL).
  pose proof (life_add k s m T P _ p x F' ok tr LI IP AD E) as L2. rewrite EA in E. injection E as <- <-. rewrite final_snoc in *. destruct (whole_data _ _ _ _ _ _ _ WH OL) as [DD _]. pose proof (whole_more _ _ _ _ _ _ _ WH OL) as TG.
  exists F'. split; [exact L2|]. split; [intros e J; split; [eapply BwAttrProofs.adds_members; eauto|apply DD, J]|]. split; [exact OW'|]. split; [intros q b Lq N O; apply OT; auto|]. split; [|split; [split; [exact TG|]|]].
  - intros B0 J NB. apply (Permutation_in _ PM) in J. destruct J as [J|J]; [congruence|]. apply FR, J.
  - destruct OL as [_ OL]. apply OL; [lia|]. intros e J. destruct (names_pool _ _ _ _ _ _ _ I) as [PO _]. destruct (inv_in _ _ _ _ _ e EL PO J) as (? & ? & ?). unfold HEADER in *. lia.
  - destruct OL as [ZL OL]. split; [exact ZL|]. intros q n N Q. apply OL; [exact N|]. intros e J. destruct (names_pool _ _ _ _ _ _ _ I) as [PO _]. destruct (inv_in _ _ _ _ _ e EL PO J) as (? & ? & ?). unfold HEADER in *. lia.
Qed.

(** ** Steps *)
Definition evo p (k : Z -> bool) (s : Z -> Z) m F (k' : Z -> bool) (s' : Z -> Z) m' F' : Prop :=
  grown k s m F p k' s' m' F' /\ heads m m' /\ forall B, In (None, B) F -> In (None, B) F'.
Lemma quiet_grown k s m T P F p m' k' s' : life k s m T P F -> quiet s m m' F -> (forall e, In e (members F) -> k' e = k e /\ s' e = s e) -> evo p k s m F k' s' m' F.
Proof.
  intros LI [Q TG] AG. split; [|split; [exact TG|auto]]. split; [|auto]. intros e J. split; [exact J|]. destruct (AG e J) as [-> ->]. split; [reflexivity|]. split; [reflexivity|].
  pose proof (life_whole _ _ _ _ _ _ LI) as (B & a & I & EL & _). destruct (names_pool _ _ _ _ _ _ _ I) as [PO _]. destruct (inv_in _ _ _ _ _ e EL PO J) as (? & ? & ?). pose proof PO as (_ & _ & _ & _ & BB & _). unfold HEADER in *. apply rd_same_data; auto; lia.
Qed.
Lemma same_trans s s' m1 m2 m3 e : s' e = s e -> same_data s m1 m2 e -> same_data s' m2 m3 e -> same_data s m1 m3 e.
Proof. unfold same_data. intros -> (A1 & A2 & A3) (B1 & B2 & B3). rewrite B1, B2, B3. auto. Qed.
Lemma evo_trans p k1 s1 m1 F1 k2 s2 m2 F2 k3 s3 m3 F3 : evo p k1 s1 m1 F1 k2 s2 m2 F2 -> evo p k2 s2 m2 F2 k3 s3 m3 F3 -> evo p k1 s1 m1 F1 k3 s3 m3 F3.
Proof.
  intros ((A1 & A2) & A3 & A4) ((B1 & B2) & B3 & B4). split; [|split; [eapply heads_trans; eauto|auto]]. split.
  - intros e J. destruct (A1 e J) as (J2 & K2 & S2 & D2). destruct (B1 e J2) as (J3 & K3 & S3 & D3). split; [exact J3|]. split; [congruence|]. split; [congruence|]. eapply same_trans; eauto.
  - intros q b L J N O. destruct (A1 q J) as (J2 & _). auto.
Qed.
Lemma evo_same p k s m F : evo p k s m F k s m F.
Proof. split; [split; [intros e J; repeat split; auto|auto]|split; [apply heads_refl|auto]]. Qed.
Lemma owned_free x F q b L : owned F q b L -> owned ((None, [x]) :: F) q b L.
Proof. intros [O|[-> U]]; [left; right; exact O|right; split; [reflexivity|]]. intros L' [J|J]; [discriminate|apply (U L' J)]. Qed.
(** A new free element *)
Lemma evo_free p x k s m T P F k' s' m' : life k s m T P F -> quiet s m m' F -> (forall e, In e (members F) -> k' e = k e /\ s' e = s e) -> evo p k s m F k' s' m' ((None, [x]) :: F).
Proof.
  intros LI Q AG. destruct (quiet_grown k s m T P F p m' k' s' LI Q AG) as ((A1 & A2) & A3 & A4). split; [|split; [exact A3|intros B J; right; exact J]]. split; [intros e J; destruct (A1 e J) as (_ & H); split; [right; exact J|exact H]|].
  intros q b L J N O. apply owned_free, O.
Qed.
Lemma flag_attr : 0 <= ATTR < 256.
Proof. unfold ATTR. lia. Qed.
Lemma flag_element : 0 <= ELEMENT < 256.
Proof. unfold ELEMENT. lia. Qed.
Lemma put_neg k s m T P F id ty flags n q d r m' : life k s m T P F -> n < 0 -> put_el m id ty flags n (ref_bytes d q n) = Ok (r, m') -> r = None /\ life k s m' T P F /\ quiet s m m' F.
Proof.
  intros LI N E. unfold put_el in E. apply obind_inv in E as ([x m1] & AL & E). pose proof (life_whole _ _ _ _ _ _ LI) as (B & a & I & EL & _). destruct (names_pool _ _ _ _ _ _ _ I) as [PO _]. pose proof PO as (_ & _ & _ & _ & BB & _). unfold HEADER in BB.
  destruct x as [x|]. { apply obind_inv in E as (m2 & IN & E). apply obind_inv in E as (b & EB & E). unfold ref_bytes in EB. replace (n <? 0) with true in EB by lia. destruct q; discriminate. }
  injection E as <- <-. split; [reflexivity|]. split; [eapply life_allocate8; eauto|]. apply (allocate8_ok _ a) in AL; [|exact PO]. destruct AL as (_ & [EZ EX] & _). split; [|apply (extends_heads _ a); [unfold HEADER; lia|split; auto]]. intros e J. destruct (inv_in _ _ _ _ _ e EL PO J) as (? & ? & ?). unfold HEADER in *. apply EX; lia.
Qed.
Lemma ref_len d r p ty v : read_data d r = Ok (ty, v) -> ref_ok d r p -> 0 <= dr_size r -> zlen v <= zlen d.
Proof. intros RD [DP _] S0. unfold read_data in RD. rewrite DP in RD. apply obind_inv in RD as (b & RB & E). injection E as _ <-. apply rd_inv in RB as (? & ? & _ & ->); lia. Qed.
(** An attribute *)
Definition attr_result k s m T P F p A (res : option Z) m' nm ty v : Prop :=
  exists k' s' F', life k' s' m' T P F' /\ evo p k s m F k' s' m' F' /\ (forall L, owned F p true L -> owned F' p true L) /\
  (res = None \/ res = Some p /\ exists x v', owned F' p false (A ++ [x]) /\ attr_says k' s' m' P x (nm, ty, v') /\ value_bytes ty v' = v).
Lemma attr_step fl d k s m T P F p A i nm tyr r q ty v res m' : life k s m T P F -> In p (members F) -> owned F p false A -> t_index m PARAMS <> Ok 0 -> nth_error P i = Some (nm, tyr) -> tyr <> XBT_UNKNOWN ->
  bytes d -> zlen d <= INT_MAX -> ref_ok d r q -> read_data d r = Ok (ty, v) -> holdable ty v -> (ty = XBT_STRING -> tyr = XBT_STRING) -> attrData fl d m p (Z.of_nat i) r = Ok (res, m') ->
  attr_result k s m T P F p A res m' nm ty v.
Proof.
  intros LI IP OW IX NT NU BD ZD RO RD HO TX E. pose proof (life_whole _ _ _ _ _ _ LI) as (B & a & I & EL & _). pose proof EL as (hh & aa & PL & RP & SH). destruct (param_type m T P B a i nm tyr I IX NT) as [GT TY].
  assert (DT : dr_type r = ty). { unfold read_data in RD. destruct (dr_data r); [|discriminate]. apply obind_inv in RD as (b & _ & Q). injection Q as <- _. reflexivity. }
  unfold attrData in E. rewrite (rep_off _ _ _ RP p IP) in E. cbn [obind] in E. rewrite Z.eqb_refl in E. cbn [negb] in E. rewrite GT in E. cbn [obind] in E. cbv zeta in E.
  assert (CV : (dr_type r =? XBT_STRING) && negb (tyr =? XBT_STRING) = false). { rewrite DT. destruct (Z.eqb_spec ty XBT_STRING) as [Q|]; [|reflexivity]. rewrite (TX Q). reflexivity. } rewrite CV in E. clear CV.
  destruct (Z.eqb_spec tyr (dr_type r)) as [TE|TN]; cbn [negb] in E.
  2:{ injection E as <- <-. exists k, s, F. split; [exact LI|]. split; [apply evo_same|]. split; [auto|]. left. reflexivity. }
  assert (TT : tyr = ty) by congruence. clear TE. subst tyr. apply obind_inv in E as ([x m1] & PE & E).
  assert (ID : -32768 <= Z.of_nat i < 32768). { pose proof (attr_known _ _ _ _ _ _ LI) as P1. assert (IL : (i < List.length P)%nat) by (apply nth_error_Some; congruence). unfold zlen in P1. lia. }
  destruct (Z.lt_ge_cases (dr_size r) 0) as [NEG|POS].
  { destruct (put_neg _ _ _ _ _ _ _ _ _ _ _ _ _ _ LI NEG PE) as (-> & L1 & Q). injection E as <- <-. exists k, s, F. split; [exact L1|]. split; [eapply quiet_grown; eauto|]. split; [auto|]. left. reflexivity. }
  destruct (ref_fits _ _ _ _ _ BD RO RD POS HO) as (_ & SZ & RB & FI). rewrite RB, SZ in PE. pose proof (ref_len _ _ _ _ _ RD RO POS) as LV.
  destruct (put_done _ _ _ _ _ _ _ _ _ _ _ _ LI TY flag_attr ID FI ltac:(lia) PE) as [QU H]. destruct x as [x|].
  2:{ injection E as <- <-. exists k, s, F. split; [exact H|]. split; [eapply quiet_grown; eauto|]. split; [auto|]. left. reflexivity. }
  destruct H as (k1 & s1 & w & L1 & AG & NX & KX & EI & ET & RW & VB). change (is_element ATTR) with false in KX. apply obind_inv in E as ([ok tr] & EA & E). injection E as <- <-.
  assert (NPX : p <> x) by (intros ->; auto). destruct (add_step k1 s1 m1 T P _ p x false A ok tr L1 (or_introl eq_refl) (or_intror IP) NPX (owned_free _ _ _ _ _ OW) KX EA) as (F' & L2 & DD & OW' & OT & FR & TG & _).
  destruct (evo_free p x k s m T P F k1 s1 m1 LI QU AG) as ((A1 & A2) & A3 & A4). exists k1, s1, F'. split; [exact L2|]. split; [|split].
  - split; [split|split; [eapply heads_trans; eauto|]].
    + intros e J. destruct (A1 e J) as (J1 & K1 & S1 & D1). destruct (DD e J1) as [J2 D2]. split; [exact J2|]. split; [exact K1|]. split; [exact S1|]. eapply same_trans; [exact S1|exact D1|exact D2].
    + intros q2 b L J N O. apply OT; [congruence|]. apply owned_free, O.
    + intros B0 J. apply FR; [right; exact J|]. intros ->. apply NX. apply in_flat_map. exists (None, [x]). split; [exact J|left; reflexivity].
  - intros L O. apply OT; [congruence|]. apply owned_free, O.
  - right. split; [reflexivity|]. exists x, w. split; [exact OW'|]. destruct (DD x (or_introl eq_refl)) as (_ & D1 & D2 & D3). split; [|exact VB]. split; [exact KX|]. exists i, ty. rewrite D1, D2, D3. auto.
Qed.
(** An element *)
Definition tag_result k s m T P F i (res : option Z) m' nm ty v : Prop :=
  quiet s m m' F /\ match res with
  | None => life k s m' T P F
  | Some x => exists k' s' v', life k' s' m' T P ((None, [x]) :: F) /\ (forall e, In e (members F) -> k' e = k e /\ s' e = s e) /\ ~ In x (members F) /\ k' x = true /\ el_id m' x = Ok (Z.of_nat i) /\ says s' m' T x nm ty v' /\ value_bytes ty v' = v
  end.
Lemma quiet_trans s m1 m2 m3 F : quiet s m1 m2 F -> quiet s m2 m3 F -> quiet s m1 m3 F.
Proof. intros [A1 A2] [B1 B2]. split; [|eapply heads_trans; eauto]. intros e J. rewrite (B1 e J). apply A1, J. Qed.
Lemma space_heads k s m T P F disk n ok m1 : life k s m T P F -> makeSpace disk m n = Ok (ok, m1) -> heads m m1.
Proof.
  intros LI E. pose proof (life_whole _ _ _ _ _ _ LI) as (B & a & I & EL & _). destruct (names_pool _ _ _ _ _ _ _ I) as [PO _]. apply (makeSpace_ok _ _ a) in E; [|exact PO]. destruct E as (_ & EX & _). pose proof PO as (_ & _ & _ & _ & BB & _). apply (extends_heads _ a); [lia|exact EX].
Qed.
Lemma make_heads k s m T P F disk id ty extra n d bs r m' : life k s m T P F -> 24 <= d -> make disk m id ty extra n d bs = Ok (r, m') -> heads m m'.
Proof.
  intros LI D E. unfold make in E. apply int_inv in E as [_ E]. apply obind_inv in E as ([ok m1] & SP & E). pose proof (space_heads _ _ _ _ _ _ _ _ _ _ LI SP) as H1. destruct ok; cbn [negb] in E; [|injection E as _ <-; exact H1].
  pose proof (life_space _ _ _ _ _ _ _ _ _ _ LI SP) as L1. apply (heads_trans _ _ _ H1). apply obind_inv in E as ([x m2] & FR & E). pose proof (life_whole _ _ _ _ _ _ L1) as (B & a & I & EL & _). destruct (names_pool _ _ _ _ _ _ _ I) as [PO _]. pose proof PO as (_ & _ & _ & _ & BB & _). apply (fresh_ok _ _ a) in FR; [|exact PO].
  destruct x as [x|].
  - destruct FR as (z & a' & _ & _ & AX & _ & _ & _ & _ & EX & _). apply obind_inv in E as (m3 & W & E). injection E as _ <-. apply (heads_trans _ m2); [apply (extends_heads _ a); [lia|exact EX]|]. destruct (wr_kept _ _ _ _ W) as (_ & _ & [_ KE] & _). unfold HEADER in *. split; apply KE; unfold TAGS; lia.
  - destruct FR as (a' & _ & _ & EX). injection E as _ <-. apply (extends_heads _ a); [lia|exact EX].
Qed.
Lemma tag_step fl disk d k s m T P F i nm tyr r q ty v res m' : life k s m T P F -> t_index m TAGS <> Ok 0 -> nth_error T i = Some (nm, tyr) -> tyr <> XBT_UNKNOWN ->
  bytes d -> zlen d <= INT_MAX -> ref_ok d r q -> read_data d r = Ok (ty, v) -> holdable ty v -> (ty = XBT_STRING -> tyr = XBT_STRING) -> tagData fl disk d m (Z.of_nat i) r = Ok (res, m') ->
  tag_result k s m T P F i res m' nm ty v.
Proof.
  intros LI IX NT NU BD ZD RO RD HO TX E. assert (DT : dr_type r = ty). { unfold read_data in RD. destruct (dr_data r); [|discriminate]. apply obind_inv in RD as (b & _ & Q). injection Q as <- _. reflexivity. }
  assert (ID : -32768 <= Z.of_nat i < 32768). { pose proof (tags_few _ _ _ _ _ _ LI) as T1. assert (IL : (i < List.length T)%nat) by (apply nth_error_Some; congruence). unfold zlen in T1. lia. }
  unfold tagData in E. apply int_inv in E as [_ E]. apply obind_inv in E as ([ok m1] & MS & E). destruct (space_same _ _ _ _ _ _ _ _ _ _ LI MS) as (L1 & S1 & TG). assert (Q1 : quiet s m m1 F) by (split; [exact S1|eapply space_heads; eauto]).
  destruct (pool_short _ _ _ _ _ _ LI) as [ZL _].
  destruct ok; cbn [negb] in E; [|injection E as <- <-; split; auto]. rewrite DT in E. destruct (Z.eqb_spec ty XBT_NULL) as [->|NN].
  - unfold bw_tag in E. destruct (make_ok k s m1 T P F disk (Z.of_nat i) XBT_NULL 0 0 0 24 [] res m' L1 ltac:(vm_compute; intuition congruence) eq_refl ltac:(lia) ltac:(vm_compute; congruence) ID E) as [(-> & L2 & S2)|(x & -> & TD & XV & TG2 & _ & _ & X0 & XL)].
    + split; [|exact L2]. apply (quiet_trans s m m1 m' F Q1). split; [exact S2|]. eapply make_heads; [exact L1| |exact E]; lia.
    + destruct TD as (k' & s' & L2 & AG & NX & KX & EI & ET & KK). split; [apply (quiet_trans s m m1 m' F Q1); split; [exact KK|eapply make_heads; [exact L1| |exact E]; lia]|]. pose proof (life_whole _ _ _ _ _ _ L2) as (B2 & a2 & I2 & EL2 & _). destruct (names_pool _ _ _ _ _ _ _ I2) as [PO2 _]. destruct (inv_in _ _ _ _ _ x EL2 PO2 (or_introl eq_refl)) as (? & ? & ?). pose proof PO2 as (_ & _ & _ & _ & BB & _). unfold HEADER in *.
      destruct (rd_some m' (x + 24) (s' x - 24)) as [w RW]; [lia|lia|]. exists k', s', w. split; [exact L2|]. split; [exact AG|]. split; [exact NX|]. split; [exact KX|]. split; [exact EI|]. split; [exists i, tyr; auto|].
      unfold read_data in RD. destruct RO as [DP SZ]. rewrite DP in RD. apply obind_inv in RD as (b & RB & Q). injection Q as _ <-. rewrite DT in SZ. assert (S0 : dr_size r = 0) by (destruct SZ as [[SZ _]|[[SZ _]|[[SZ _]|(_ & _ & _ & SZ)]]]; [vm_compute in SZ; congruence..|exact SZ]). rewrite S0 in RB. apply rd_inv in RB as (_ & _ & _ & ZB); [|lia]. destruct b; [reflexivity|unfold zlen in ZB; cbn [List.length] in ZB; lia].
  - pose proof (life_whole _ _ _ _ _ _ L1) as (B & a & I & EL & _). assert (IX1 : t_index m1 TAGS <> Ok 0). { unfold t_index, rd_s32 in *. rewrite (rd_within m m1 TAGS 32) by (auto; unfold TAGS; lia). exact IX. } destruct (tag_type m1 T P B a i nm tyr I IX1 NT) as [GT TY]. rewrite GT in E. cbn [obind] in E.
    destruct (Z.eqb_spec tyr ty) as [->|TN]; cbn [negb] in E.
    2:{ destruct (Z.eqb_spec ty XBT_STRING) as [Q|_]; [exfalso; apply TN; rewrite (TX Q); congruence|]. injection E as <- <-. split; auto. }
    destruct (Z.lt_ge_cases (dr_size r) 0) as [NEG|POS]. { destruct (put_neg _ _ _ _ _ _ _ _ _ _ _ _ _ _ L1 NEG E) as (-> & L2 & Q2). split; [eapply quiet_trans; eauto|exact L2]. }
    destruct (ref_fits _ _ _ _ _ BD RO RD POS HO) as (_ & SZ & RB & FI). rewrite RB, SZ in E. pose proof (ref_len _ _ _ _ _ RD RO POS) as LV.
    destruct (put_done _ _ _ _ _ _ _ _ _ _ _ _ L1 TY flag_element ID FI ltac:(lia) E) as [QU H]. split; [eapply quiet_trans; eauto|]. destruct res as [x|]; [|exact H].
    destruct H as (k1 & s1 & w & L2 & AG & NX & KX & EI & ET & RW & VB). exists k1, s1, w. split; [exact L2|]. split; [exact AG|]. split; [exact NX|]. split; [exact KX|]. split; [exact EI|]. split; [|exact VB]. exists i, ty. auto.
Qed.
