(** Setting the text of a child. *)
From Verif Require Import Base BaseFacts Types ListFacts SizeProofs Sort Xb XbSpec XbFacts XbWrite WriteProofs Bw BwFacts BwRing BwSpec BwHist BwAlloc BwProofs BwRead BwTop BwSym BwReg BwFileSpec BwFileProofs BwNamesSpec BwNamesFacts BwNamesInv BwNamesReg BwNamesOps BwNamesIndex BwNamesProofs BwLifeSpec BwDetach BwLife BwOnly JsonSource BwSet BwNamesTop BwAttr BwAttrSpec BwAttrProofs BwAttrTop BwTag BwTagSpec BwTagProofs BwTagTop BwCopy BwCopySpec BwCopyProofs BwSetStr BwSetStrSpec.

(** ** Lists *)
Lemma owned_rest (F : forest) o A R q b L : Permutation F ((o, A) :: R) -> o <> Some (q, b) -> owned F q b L -> owned R q b L.
Proof. intros PM N O. apply (BwProofs.owned_perm _ _ _ _ _ PM) in O. destruct O as [[O|O]|[-> U]]; [congruence|left; exact O|right; split; [reflexivity|]]. intros L' J. apply (U L'). right. exact J. Qed.
Lemma owned_more (R : forest) o A q b L : o <> Some (q, b) -> owned R q b L -> owned ((o, A) :: R) q b L.
Proof. intros N [O|[-> U]]; [left; right; exact O|right; split; [reflexivity|]]. intros L' [J|J]; [congruence|exact (U L' J)]. Qed.
Lemma no_owner k s m F o A R : BwProofs.inv k s m F -> Permutation F ((Some o, A) :: R) -> forall L, ~ In (Some o, L) R.
Proof. intros (h & a & _ & _ & S) PM L J. apply (nodup_owner_cons _ _ _ _ PM (sh_owners _ _ S)). eapply owners_in; eauto. Qed.
Lemma not_owner k s m F x b : BwProofs.inv k s m F -> ~ In x (members F) -> forall L, ~ In (Some (x, b), L) F.
Proof. intros (h & a & _ & _ & S) N L J. apply N. apply (sh_head _ _ S _ _ _ J). Qed.

(** The attributes are given away. *)
Lemma give k s m T P F x A fa m1 : life k s m T P F -> In x (members F) -> owned F x false A -> rd_s32 m (x + 20) = Ok fa -> wr32 m (x + 20) 0 = Ok m1 ->
  exists F1, life k s m1 T P F1 /\ Permutation (members F) (members F1) /\ owned F1 x false [] /\ (forall q b Lq, (q, b) <> (x, false) -> owned F q b Lq -> owned F1 q b Lq) /\ only_links (members F) m m1 /\
    (A = [] /\ fa = 0 \/ exists A', A = fa :: A' /\ In (None, A) F1).
Proof.
  intros LI IX OW FA W. pose proof (life_whole _ _ _ _ _ _ LI) as (B & a & I & EL & _). pose proof EL as (h & a1 & PL & RP & S). assert (HF : h x 20 = fa) by (pose proof (rep_link _ _ _ RP x 20 IX ltac:(unfold link; auto)); congruence).
  destruct OW as [O|[-> U]].
  - apply in_split in O as (F1 & F2 & EF). assert (PM : Permutation F ((Some (x, false), A) :: F1 ++ F2)) by (rewrite EF; symmetry; apply Permutation_middle). set (R := F1 ++ F2) in *.
    destruct (inv_detach k s m F x A R m1 EL PM W) as [_ OL]. exists ((None, A) :: R). split; [exact (life_detach k s m T P F x A R m1 LI PM W)|]. split; [rewrite (members_perm _ _ PM); reflexivity|].
    split; [right; split; [reflexivity|]; intros L' [J|J]; [discriminate|exact (no_owner _ _ _ _ _ _ _ EL PM L' J)]|]. split; [intros q b Lq N O; apply owned_more; [discriminate|]; apply (owned_rest F (Some (x, false)) A); [exact PM|congruence|exact O]|].
    split; [exact OL|]. right. assert (IO : In (Some (x, false), A) F) by (rewrite EF; apply in_or_app; right; left; reflexivity). destruct (sh_head _ _ S x false A IO) as [_ HD]. cbn [field_of] in HD.
    destruct A as [|a0 A']; [pose proof (sh_ring _ _ S _ _ IO) as [NE _]; congruence|]. cbn [hd] in HD. exists A'. split; [congruence|left; reflexivity].
  - destruct (inv_bare k s m F x m1 EL IX U W) as [_ OL]. exists F. split; [exact (life_bare k s m T P F x m1 LI IX U W)|]. split; [reflexivity|]. split; [right; auto|]. split; [auto|]. split; [exact OL|]. left. split; [reflexivity|]. pose proof (sh_none _ _ S x false IX U). cbn [field_of] in *. congruence.
Qed.
(** A child is removed. *)
Lemma take k s m T P F p l1 x l2 : life k s m T P F -> owned F p true (l1 ++ x :: l2) -> k x = true ->
  exists tr F1, remove m p x = Ok (true, tr) /\ life k s (final m tr) T P F1 /\ Permutation (members F) (members F1) /\ owned F1 p true (l1 ++ l2) /\ (forall q b Lq, (q, b) <> (p, true) -> owned F q b Lq -> owned F1 q b Lq) /\
    only_links (members F) m (final m tr) /\ forall A, In (None, A) F -> In (None, A) F1.
Proof.
  intros LI OW KX. pose proof (life_whole _ _ _ _ _ _ LI) as (B & a & I & EL & _). destruct OW as [O|[E _]]; [|destruct l1; discriminate].
  apply in_split in O as (F1 & F2 & EF). assert (PM : Permutation F ((Some (p, true), l1 ++ x :: l2) :: F1 ++ F2)) by (rewrite EF; symmetry; apply Permutation_middle). set (R := F1 ++ F2) in *. pose proof (no_owner _ _ _ _ _ _ _ EL PM) as NO.
  assert (FR : forall A, In (None, A) F -> In (None, A) R) by (intros A J; apply (Permutation_in _ PM) in J; destruct J as [J|J]; [discriminate|exact J]).
  assert (OT : forall q b Lq, (q, b) <> (p, true) -> owned F q b Lq -> owned R q b Lq) by (intros q b Lq N O; apply (owned_rest F (Some (p, true)) (l1 ++ x :: l2)); [exact PM|congruence|exact O]).
  destruct (l1 ++ l2) as [|y ys] eqn:EY.
  - apply app_eq_nil in EY as [-> ->]. cbn [app] in *. rewrite <- KX in PM. pose proof (removes_last k p x F R PM) as RM. destruct (inv_remove _ _ _ _ _ _ _ EL RM) as (tr & E & _ & OL). exists tr, ((None, [x]) :: R). split; [exact E|]. split; [eapply life_remove; eauto|]. split; [eapply removes_members; eauto|].
    split; [right; split; [reflexivity|]; intros L' [J|J]; [discriminate|exact (NO L' J)]|]. split; [intros q b Lq N O; apply owned_more; [discriminate|auto]|]. split; [exact OL|]. intros A J. right. auto.
  - rewrite <- EY in *. rewrite <- KX in PM. pose proof (removes_one k p x F l1 l2 R ltac:(rewrite EY; discriminate) PM) as RM. rewrite KX in RM. destruct (inv_remove _ _ _ _ _ _ _ EL RM) as (tr & E & _ & OL). eexists tr, _. split; [exact E|]. split; [eapply life_remove; eauto|]. split; [eapply removes_members; eauto|].
    split; [left; right; left; reflexivity|]. split; [intros q b Lq N O; apply owned_more; [discriminate|]; apply owned_more; [congruence|auto]|]. split; [exact OL|]. intros A J. right. right. auto.
Qed.
(** The attributes are taken over. *)
Lemma hang k s m T P F n A fa m1 : life k s m T P F -> In n (members F) -> owned F n false [] -> A = [] /\ fa = 0 \/ (exists A', A = fa :: A' /\ In (None, A) F) -> wr32 m (n + 20) fa = Ok m1 ->
  exists F1, life k s m1 T P F1 /\ owned F1 n false A /\ (forall q b Lq, (q, b) <> (n, false) -> owned F q b Lq -> owned F1 q b Lq) /\ only_links (members F) m m1.
Proof.
  intros LI IN OW CS W. pose proof (life_whole _ _ _ _ _ _ LI) as (B & a & I & EL & _). assert (U : forall L, ~ In (Some (n, false), L) F). { destruct OW as [O|[_ U]]; [|exact U]. exfalso. destruct EL as (h & a1 & _ & _ & S). destruct (sh_ring _ _ S _ _ O) as [NE _]. congruence. }
  destruct CS as [[-> ->]|(A' & -> & J)].
  - destruct (inv_bare k s m F n m1 EL IN U W) as [_ OL]. exists F. split; [exact (life_bare k s m T P F n m1 LI IN U W)|]. auto.
  - apply in_split in J as (F1 & F2 & EF). assert (PM : Permutation F ((None, fa :: A') :: F1 ++ F2)) by (rewrite EF; symmetry; apply Permutation_middle). set (R := F1 ++ F2) in *.
    assert (UR : forall L, ~ In (Some (n, false), L) R) by (intros L J; apply (U L), (Permutation_in _ (Permutation_sym PM)); right; exact J).
    destruct (inv_hang k s m F n fa A' R m1 EL PM IN UR W) as [_ OL]. exists ((Some (n, false), fa :: A') :: R). split; [exact (life_hang k s m T P F n fa A' R m1 LI PM IN UR W)|]. split; [left; left; reflexivity|].
    split; [intros q b Lq N O; apply owned_more; [congruence|]; apply (owned_rest F None (fa :: A')); [exact PM|discriminate|exact O]|exact OL].
Qed.

Lemma texts (ty : Z) v : (exists t, In (ty, t) (tag_types (TStr v))) \/ forall t, ~ In (ty, t) (tag_types (TStr v)).
Proof.
  cbn [tag_types In]. destruct (Z.eq_dec ty XBT_STRING) as [->|]; [left; eauto|]. destruct (Z.eq_dec ty XBT_VARIANT) as [->|]; [left; eauto|]. destruct (Z.eq_dec ty XBT_BLOB_STRING) as [->|]; [left; eauto|].
  right. intros t [E|[E|[E|[]]]]; congruence.
Qed.
(** In place *)
Lemma put_text k s m T P F x c v m' : life k s m T P F -> In x (members F) -> x + 24 <= c -> c + zlen v + 1 <= x + s x -> cstring v -> wr m c (v ++ [0]) = Ok m' ->
  (el_type m x = Ok XBT_STRING /\ c = x + 24 \/ el_type m x = Ok XBT_BLOB_STRING /\ c = x + 28) -> text_stored k s m T P F x v m'.
Proof.
  intros LI IX C1 C2 CV W TY. assert (ZV : zlen (v ++ [0]) = zlen v + 1) by (rewrite zlen_app; reflexivity). pose proof (life_whole _ _ _ _ _ _ LI) as (B & a & I & EL & _). destruct (names_pool _ _ _ _ _ _ _ I) as [PO _]. destruct (inv_in _ _ _ _ _ x EL PO IX) as (Q1 & Q2 & Q3). pose proof PO as (_ & _ & _ & _ & BB & _).
  destruct (wr_kept _ _ _ _ W) as (_ & _ & [KL KE] & RV). rewrite ZV in KE. pose proof (zlen_nonneg v). unfold HEADER in *.
  assert (TX : el_type m' x = el_type m x) by (unfold el_type, rd_u8; rewrite KE by lia; reflexivity).
  split; [eapply life_write; eauto; lia|]. split; [|split; [unfold el_id, rd_s16; rewrite KE by lia; reflexivity|split; [exact TX|]]].
  - assert (ST : rd_str m' c = Ok v) by (apply has_str; [exact CV|]; apply has_range_rd; exact RV). unfold bw_getStr. rewrite TX. destruct TY as [[-> ->]|[-> ->]]; cbn [obind].
    + change (XBT_STRING =? XBT_STRING) with true. cbv iota. rewrite ST. reflexivity.
    + change (XBT_BLOB_STRING =? XBT_STRING) with false. change (XBT_BLOB_STRING =? XBT_BLOB_STRING) with true. cbv iota. rewrite ST. reflexivity.
  - intros e J N. destruct (inv_in _ _ _ _ _ e EL PO J) as (? & ? & ?). unfold HEADER in *. assert (AP := inv_apart _ _ _ _ e x EL J IX N). unfold same_data, el_id, el_type, rd_s16, rd_u8. rewrite !KE by lia. auto.
Qed.
Lemma same_same s m m' m'' e : same_data s m m' e -> same_data s m' m'' e -> same_data s m m'' e.
Proof. unfold same_data. intros (-> & -> & ->) (-> & -> & ->). auto. Qed.
(** The text is in the space of [x]. *)
Definition has_text_in (s : Z -> Z) m x v : Prop := exists d, (el_type m x = Ok XBT_STRING /\ d = 24 \/ el_type m x = Ok XBT_BLOB_STRING /\ d = 28) /\ has m (x + d) (v ++ [0]) /\ d + zlen v + 1 <= s x.
Lemma text_keeps s m m' x v : same_data s m m' x -> 0 <= x -> x + s x <= zlen m -> has_text_in s m x v -> has_text_in s m' x v.
Proof.
  intros SD X0 XB (d & TY & HA & DB). exists d. pose proof SD as (_ & TX & _). rewrite TX. split; [exact TY|]. split; [|exact DB]. assert (ZV : zlen (v ++ [0]) = zlen v + 1) by (rewrite zlen_app; reflexivity). pose proof (zlen_nonneg v).
  apply (has_read m); [exact HA|]. rewrite ZV. apply (same_sub s m m' x); auto; lia.
Qed.
Lemma text_read s m x v : has_text_in s m x v -> cstring v -> bw_getStr m x = Ok (Some v).
Proof.
  intros (d & TY & HA & _) CV. pose proof (has_str _ _ _ CV HA) as ST. unfold bw_getStr. destruct TY as [[-> ->]|[-> ->]]; cbn [obind].
  - change (XBT_STRING =? XBT_STRING) with true. cbv iota. rewrite ST. reflexivity.
  - change (XBT_BLOB_STRING =? XBT_STRING) with false. change (XBT_BLOB_STRING =? XBT_BLOB_STRING) with true. cbv iota. rewrite ST. reflexivity.
Qed.
Lemma text_made k s m T P F disk i nm ty v n m' : life k s m T P F -> nth_error T i = Some (nm, ty) -> t_index m TAGS <> Ok 0 -> zlen v < 2 ^ 29 -> bw_tagStr disk m (Z.of_nat i) v = Ok (Some n, m') ->
  exists k' s', life k' s' m' T P ((None, [n]) :: F) /\ (forall e, In e (members F) -> k' e = k e /\ s' e = s e) /\ ~ In n (members F) /\ k' n = true /\ el_id m' n = Ok (Z.of_nat i) /\ has_text_in s' m' n v /\
    (forall e, In e (members F) -> same_data s m m' e) /\ rd m' TAGS 32 = rd m TAGS 32.
Proof.
  intros LI NT IX VL E. change (2 ^ 29) with 536870912 in VL. pose proof (life_whole _ _ _ _ _ _ LI) as (B & a & I & EL & _). destruct (tag_type m T P B a i nm ty I IX NT) as [GT TY]. pose proof (tags_few _ _ _ _ _ _ LI) as T128. assert (IL : (i < List.length T)%nat) by (apply nth_error_Some; congruence).
  unfold bw_tagStr in E. rewrite GT in E. cbn [obind] in E. pose proof (zlen_nonneg v) as V0. assert (ZV : zlen (v ++ [0]) = zlen v + 1) by (rewrite zlen_app; reflexivity).
  assert (CS : exists t d z, (t = XBT_STRING /\ d = 24 \/ t = XBT_BLOB_STRING /\ d = 28) /\ XBT_Size2 t (zlen v) = Ok z /\ d + zlen v + 1 <= 24 + z /\ int_ (zlen v * 2) (fun n => make disk m (Z.of_nat i) t n (zlen v) d (v ++ [0])) = Ok (Some n, m')).
  { destruct (Z.eqb_spec ty XBT_BLOB_STRING) as [->|_].
    - destruct (blob_string_reserve (zlen v)) as (sz & SE & _ & S0 & _); [change (2 ^ 30) with 1073741824; lia|]. exists XBT_BLOB_STRING, 28, (4 + sz). split; [auto|]. split; [change (obind (XBT_GetBLOB_STRING_Size (zlen v)) (fun s => Ok (4 + s)) = Ok (4 + sz)); rewrite SE; reflexivity|]. split; [lia|exact E].
    - unfold or_variant in E. destruct ((ty =? XBT_STRING) || (ty =? XBT_VARIANT)); [|discriminate]. exists XBT_STRING, 24, (zlen v + 1). split; [auto|]. split; [reflexivity|]. split; [lia|exact E]. }
  clear E. destruct CS as (t & d & z & TD & SZ & DZ & E). apply int_inv in E as [_ E]. unfold make in E. apply int_inv in E as [_ E]. apply obind_inv in E as ([ok m1] & SP & E). destruct (space_same _ _ _ _ _ _ _ _ _ _ LI SP) as (L1 & K1 & T1). destruct ok; cbn [negb] in E; [|discriminate].
  apply obind_inv in E as ([x m2] & FR & E). destruct x as [x|]; [|discriminate]. apply obind_inv in E as (m3 & W & E). injection E as <- <-.
  assert (TB : 0 <= t < 256) by (destruct TD as [[-> _]|[-> _]]; split; (discriminate || reflexivity)).
  destruct (made_tag _ _ _ _ _ _ _ _ _ _ _ _ _ _ _ _ L1 FR W TB SZ ltac:(lia) ltac:(lia) ltac:(unfold zlen in *; lia)) as (L2 & NX & K2 & XI & XT & XV & TG & _ & Z0 & X0 & XL).
  exists (set k x true), (set s x (24 + (z + 3) / 4 * 4)). split; [exact L2|]. split; [intros e J; assert (e <> x) by (intros ->; auto); rewrite !set_other by auto; auto|]. split; [exact NX|]. split; [apply set_same|]. split; [exact XI|].
  split; [exists d; rewrite XT, set_same; split; [destruct TD as [[-> ->]|[-> ->]]; auto|]; split; [apply has_range_rd, XV|lia]|]. split; [|congruence].
  intros e J. destruct (names_pool _ _ _ _ _ _ _ I) as [PO _]. destruct (inv_in _ _ _ _ _ e EL PO J) as (? & ? & ?). pose proof PO as (_ & _ & _ & _ & BB & _). unfold HEADER in *. apply rd_same_data; try lia. rewrite (K2 e J). auto.
Qed.

(** ** All of it *)
Lemma setStr_ok k s m T P F p l1 x l2 A old room v disk i nm ty ok m' : life k s m T P F -> In p (members F) -> owned F p true (l1 ++ x :: l2) -> k x = true -> owned F x false A -> text_of s m x old room ->
  cstring v -> zlen v < 2 ^ 29 -> el_id m x = Ok (Z.of_nat i) -> nth_error T i = Some (nm, ty) -> t_index m TAGS <> Ok 0 -> setStr disk m x p v = Ok (ok, m') ->
  v = old /\ ok = false /\ m' = m \/ v <> old /\ ok = true /\ zlen v < room /\ text_stored k s m T P F x v m' \/ v <> old /\ ok = true /\ room <= zlen v /\ (exists t, In (ty, t) (tag_types (TStr v))) /\ exists n, text_moved k s m T P F p l1 x l2 A v n m'.
Proof.
  intros LI IP OW KX OA (GS & TX) CV VL ID NT IX E. pose proof (life_whole _ _ _ _ _ _ LI) as WH. pose proof WH as (B & a & I & EL & _). destruct (names_pool _ _ _ _ _ _ _ I) as [PO _]. assert (JX : In x (members F)) by (eapply owned_in; [exact OW|apply in_or_app; right; left; reflexivity]).
  assert (CS : exists c, rd_str m c = Ok old /\ x + 24 <= c /\ c + room <= x + s x /\ (el_type m x = Ok XBT_STRING /\ c = x + 24 \/ el_type m x = Ok XBT_BLOB_STRING /\ c = x + 28) /\
    (if list_eq_dec Z.eq_dec old v then Ok (false, m) else if zlen v + 1 <=? room then obind (wr m c (v ++ [0])) (fun m => Ok (true, m)) else
     obind (rd_s32 m (x + 20)) (fun first_attribute => obind (wr32 m (x + 20) 0) (fun m => obind (remove m p x) (fun '(_, tr) => let m := final m tr in obind (el_id m x) (fun id => obind (bw_tagStr disk m id v) (fun '(new_value, m) => match new_value with
     | None => Ub | Some n => obind (add m p n) (fun '(_, tr) => let m := final m tr in obind (wr32 m (n + 20) first_attribute) (fun m => Ok (true, m))) end)))))) = Ok (ok, m')).
  { unfold setStr in E. unfold bw_getStr in GS. destruct TX as [(T0 & RM & SX)|(T0 & RM & SX)]; rewrite T0 in *; cbn [obind] in *.
    - change (XBT_STRING =? XBT_STRING) with true in *. cbn [orb negb] in E. cbv iota in *. apply obind_inv in GS as (s0 & RS & GS). injection GS as ->. rewrite RS in E. cbn [obind] in E. rewrite RS in E. cbn [obind] in E. exists (x + 24). split; [exact RS|]. split; [lia|]. split; [lia|]. split; [auto|]. rewrite RM. replace (zlen old + 1) with (1 + zlen old) by lia. exact E.
    - change (XBT_BLOB_STRING =? XBT_STRING) with false in *. change (XBT_BLOB_STRING =? XBT_BLOB_STRING) with true in *. cbn [orb negb] in E. cbv iota in *. apply obind_inv in GS as (s0 & RS & GS). injection GS as ->. rewrite RM in E. cbn [obind] in E. rewrite RS in E. cbn [obind] in E. exists (x + 28). split; [exact RS|]. split; [lia|]. split; [lia|]. split; [auto|exact E]. }
  clear E. destruct CS as (c & RS & C1 & C2 & TC & E). destruct (list_eq_dec Z.eq_dec old v) as [->|ND]; [injection E as <- <-; left; auto|right]. destruct (Z.leb_spec (zlen v + 1) room) as [LE|GT].
  - left. apply obind_inv in E as (m1 & W & E). injection E as <- <-. split; [congruence|]. split; [reflexivity|]. split; [lia|]. apply (put_text k s m T P F x c v m1); auto; lia.
  - right. apply obind_inv in E as (fa & FA & E). apply obind_inv in E as (m1 & W & E). destruct (give _ _ _ _ _ _ _ _ _ _ LI JX OA FA W) as (F1 & L1 & PM1 & OX1 & OT1 & OL1 & AT1). destruct (whole_data _ _ _ _ _ _ _ WH OL1) as [DD1 _]. pose proof (whole_more _ _ _ _ _ _ _ WH OL1) as TG1.
    assert (OW1 : owned F1 p true (l1 ++ x :: l2)) by (apply OT1; [congruence|exact OW]). destruct (take _ _ _ _ _ _ _ _ _ _ L1 OW1 KX) as (tr & F2 & RM & L2 & PM2 & OW2 & OT2 & OL2 & FR2). rewrite RM in E. cbn [obind] in E. cbv zeta in E. set (m2 := final m1 tr) in *.
    pose proof (life_whole _ _ _ _ _ _ L1) as WH1. destruct (whole_data _ _ _ _ _ _ _ WH1 OL2) as [DD2 _]. pose proof (whole_more _ _ _ _ _ _ _ WH1 OL2) as TG2.
    assert (SUB : forall e, In e (members F) -> In e (members F1) /\ In e (members F2)). { intros e J. pose proof (Permutation_in _ PM1 J) as J1. split; [exact J1|]. exact (Permutation_in _ PM2 J1). }
    assert (SD2 : forall e, In e (members F) -> same_data s m m2 e) by (intros e J; destruct (SUB e J) as [J1 _]; eapply same_same; [apply DD1, J|apply DD2, J1]).
    destruct (SD2 x JX) as (ID2 & _). rewrite ID2, ID in E. cbn [obind] in E. apply obind_inv in E as ([r m3] & TS & E). destruct r as [n|]; [|discriminate].
    assert (ZL : 92 <= zlen m) by apply (pool_short _ _ _ _ _ _ LI). assert (IX2 : t_index m2 TAGS <> Ok 0). { unfold t_index, rd_s32 in *. rewrite (rd_within m m2 TAGS 32) by (first [congruence|unfold TAGS, PARAMS; lia]). exact IX. }
    destruct (text_made _ _ _ _ _ _ _ _ _ _ _ _ _ L2 NT IX2 VL TS) as (k' & s' & L3 & AG & NN & KN & IDN & TX3 & SD3 & _). apply obind_inv in E as ([ok4 tr4] & AD & E). cbv zeta in E.
    assert (NP : p <> n) by (intros ->; apply NN; apply SUB, IP). assert (IP3 : In p (members ((None, [n]) :: F2))) by (right; apply SUB, IP). assert (IN3 : In n (members ((None, [n]) :: F2))) by (left; reflexivity).
    destruct (add_step _ _ _ _ _ _ p n true _ _ _ L3 ltac:(left; reflexivity) IP3 NP (owned_free n _ _ _ _ OW2) KN AD) as (F4 & L4 & SD4 & OW4 & OT4 & FR4 & _). set (m4 := final m3 tr4) in *.
    apply obind_inv in E as (m5 & W5 & E). injection E as <- <-. pose proof (life_whole _ _ _ _ _ _ L3) as (B3 & a3 & I3 & EL3 & _). destruct (names_pool _ _ _ _ _ _ _ I3) as [PO3 _].
    pose proof (life_whole _ _ _ _ _ _ L2) as (B2 & a2 & I2 & EL2 & _).
    assert (ON3 : forall b, owned ((None, [n]) :: F2) n b []). { intro b. apply owned_free. right. split; [reflexivity|]. exact (not_owner _ _ _ _ _ b EL2 NN). }
    assert (ON4 : forall b, owned F4 n b []) by (intro b; apply OT4; [congruence|apply ON3]).
    assert (AT4 : A = [] /\ fa = 0 \/ exists A', A = fa :: A' /\ In (None, A) F4). { destruct AT1 as [AT|(A' & -> & J)]; [left; exact AT|right]. exists A'. split; [reflexivity|]. apply FR4; [right; apply FR2, J|]. intro Q. injection Q as -> ->. apply NN. apply (Permutation_in _ PM2). eapply members_in; [exact J|left; reflexivity]. }
    destruct (hang _ _ _ _ _ _ _ _ _ _ L4 ltac:(apply SD4, IN3) (ON4 false) AT4 W5) as (F5 & L5 & OA5 & OT5 & OL5). destruct (whole_data _ _ _ _ _ _ _ (life_whole _ _ _ _ _ _ L4) OL5) as [DD5 _].
    split; [congruence|]. split; [reflexivity|]. split; [lia|]. split.
    { destruct (texts ty v) as [H|H]; [exact H|exfalso]. assert (TF := tag_refuses (TStr v) _ _ _ _ _ _ i nm ty disk L2 NT IX2 (conj CV VL) H ltac:(discriminate) ltac:(intros ? Q; discriminate Q)). cbn [tag_run] in TF. rewrite TF in TS. discriminate TS. }
    exists n, k', s', F5. split; [exact L5|]. split; [intros e J; apply AG, SUB, J|]. split; [intro J; apply NN, SUB, J|]. split; [exact KN|].
    destruct (SD4 n IN3) as [IN4 SN4]. pose proof (DD5 n IN4) as SN5. pose proof (same_same _ _ _ _ _ SN4 SN5) as SN. destruct (inv_in _ _ _ _ _ n EL3 PO3 IN3) as (Q1 & Q2 & Q3). pose proof PO3 as (_ & _ & _ & _ & BB3 & _). unfold HEADER in *.
    split; [apply (text_read s'); [|exact CV]; apply (text_keeps s' m3); auto; lia|]. split; [destruct SN as (-> & _); congruence|]. 
    split; [rewrite app_assoc; apply OT5; [congruence|exact OW4]|]. split; [exact OA5|]. split; [apply OT5; [congruence|apply ON4]|].
    assert (NX : x <> n) by (intros ->; apply NN, SUB, JX). split; [apply OT5; [congruence|]; apply OT4; [congruence|]; apply owned_free; apply OT2; [congruence|exact OX1]|]. split.
    + intros e J. destruct (SUB e J) as [_ J2]. destruct (AG e J2) as [_ SE]. destruct (SD4 e (or_intror J2)) as [J4 S4]. eapply same_same; [apply SD2, J|]. eapply same_same; [apply SD3, J2|]. pose proof (same_same _ _ _ _ _ S4 (DD5 e J4)) as S5. unfold same_data in *. rewrite SE in S5. exact S5.
    + intros q b Lq J N1 N2 O. destruct (SUB q J) as [_ J2]. assert (q <> n) by (intros ->; auto). apply OT5; [congruence|]. apply OT4; [exact N1|]. apply owned_free. apply OT2; [exact N1|]. apply OT1; [exact N2|exact O].
Qed.
