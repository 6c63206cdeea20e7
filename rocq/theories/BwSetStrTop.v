(** Setting the text of a child: when it works, when it does not. *)
From Verif Require Import Base BaseFacts Types ListFacts SizeProofs Sort Xb XbSpec XbFacts XbWrite WriteProofs Bw BwFacts BwRing BwSpec BwHist BwAlloc BwProofs BwRead BwTop BwSym BwReg BwFileSpec BwFileProofs BwNamesSpec BwNamesFacts BwNamesInv BwNamesReg BwNamesOps BwNamesIndex BwNamesProofs BwLifeSpec BwDetach BwLife BwOnly JsonSource BwSet BwNamesTop BwAttr BwAttrSpec BwAttrProofs BwAttrTop BwTag BwTagSpec BwTagProofs BwTagTop BwCopy BwCopySpec BwCopyProofs BwCopyRoom BwSetStr BwSetStrSpec BwSetStrProofs.

Lemma u8_bytes m p b : bytes m -> rd_u8 m p = Ok b -> 0 <= b < 256.
Proof.
  intros BM E. unfold rd_u8 in E. apply obind_inv in E as (bs & R & E). injection E as <-. apply rd_inv in R as (_ & _ & (l & r & -> & _) & RL); [|lia]. assert (BS : bytes bs) by (unfold bytes in *; apply Forall_app in BM as [_ BM]; apply Forall_app in BM as [BM _]; exact BM).
  destruct bs as [|c [|d bs]]; unfold zlen in RL; cbn [List.length] in RL; try lia. inversion BS as [|? ? BC _]; subst. unfold is_byte in BC. cbn [unle]. lia.
Qed.
Lemma remove_bytes m p x ok tr : remove m p x = Ok (ok, tr) -> bytes m -> bytes (final m tr).
Proof.
  intros E BM. unfold remove in E. apply obind_inv in E as (f & _ & E). cbv zeta in E. apply obind_inv in E as (first & _ & E). destruct (first =? 0); [injection E as _ <-; exact BM|]. apply obind_inv in E as (o & _ & E). apply obind_inv in E as (t0 & E0 & E).
  assert (B0 : bytes (final m t0)). { destruct (first =? o); [|injection E0 as <-; exact BM]. do 2 apply obind_inv in E0 as (? & _ & E0). apply obind_inv in E0 as (m1 & W & E0). injection E0 as <-. cbn. eauto using wr32_is_bytes. }
  do 3 apply obind_inv in E as (? & _ & E). apply obind_inv in E as (m2 & W2 & E). do 3 apply obind_inv in E as (? & _ & E). apply obind_inv in E as (m3 & W3 & E). apply obind_inv in E as (? & _ & E). apply obind_inv in E as (m4 & W4 & E). apply obind_inv in E as (m5 & W5 & E).
  apply obind_inv in E as (f5 & F5 & E). apply obind_inv in E as (m6 & W6 & E). injection E as _ <-. assert (B5 : bytes m5) by eauto using wr32_is_bytes. pose proof (u8_bytes _ _ _ B5 F5) as R5.
  change [m2; m3; m4; m5; m6] with ([m2; m3; m4; m5] ++ [m6]). rewrite app_assoc, final_snoc. eapply wr_is_bytes; [exact W6|exact B5|]. constructor; [|constructor]. unfold is_byte. assert (L : Z.lor f5 BIN_DELETED = Z.lor f5 BIN_DELETED mod 256).
  { change 256 with (2 ^ 8). rewrite <- Z.land_ones by lia. apply Z.bits_inj'. intros n N. rewrite Z.land_spec, Z.lor_spec. destruct (Z.lt_ge_cases n 8) as [H|H]; [rewrite Z.ones_spec_low by lia; rewrite andb_true_r; reflexivity|]. rewrite Z.ones_spec_high by lia. rewrite andb_false_r.
    assert (F0 : Z.testbit f5 n = false). { destruct (Z.eq_dec f5 0) as [->|]; [apply Z.bits_0|]. apply Z.bits_above_log2; [lia|]. assert (Z.log2 f5 < 8) by (apply Z.log2_lt_pow2; lia). lia. }
    rewrite F0. cbn [orb]. apply Z.bits_above_log2; [vm_compute; discriminate|]. change (Z.log2 BIN_DELETED) with (Z.log2 BIN_DELETED). assert (Z.log2 BIN_DELETED < 8) by (vm_compute; reflexivity). lia. }
  rewrite L. apply Z.mod_pos_bound. lia.
Qed.

(** With enough room it works. *)
Lemma setStr_works k s m T P F p l1 x l2 A old room v i nm ty t a M : life k s m T P F -> In p (members F) -> owned F p true (l1 ++ x :: l2) -> k x = true -> owned F x false A -> text_of s m x old room ->
  cstring v -> zlen v < 2 ^ 29 -> el_id m x = Ok (Z.of_nat i) -> nth_error T i = Some (nm, ty) -> t_index m TAGS <> Ok 0 -> In (ty, t) (tag_types (TStr v)) ->
  bytes m -> p_allocator m = Ok a -> p_mmap_size m = Ok M -> a + 4095 + tag_space (TStr v) <= M -> exists m', setStr true m x p v = Ok (if list_eq_dec Z.eq_dec old v then false else true, m').
Proof.
  intros LI IP OW KX OA (GS & TX) CV VL ID NT IX TT BM PA MM RO. pose proof (life_whole _ _ _ _ _ _ LI) as WH. pose proof WH as (B & a0 & I & EL & _). destruct (names_pool _ _ _ _ _ _ _ I) as [PO _]. assert (JX : In x (members F)) by (eapply owned_in; [exact OW|apply in_or_app; right; left; reflexivity]).
  destruct (inv_in _ _ _ _ _ x EL PO JX) as (Q1 & Q2 & Q3). pose proof PO as (_ & _ & _ & _ & BB & _). unfold HEADER in *. pose proof (zlen_nonneg v) as V0.
  assert (CS : exists c, rd_str m c = Ok old /\ x + 24 <= c /\ c + room <= x + s x /\ setStr true m x p v =
    (if list_eq_dec Z.eq_dec old v then Ok (false, m) else if zlen v + 1 <=? room then obind (wr m c (v ++ [0])) (fun m => Ok (true, m)) else
     obind (rd_s32 m (x + 20)) (fun first_attribute => obind (wr32 m (x + 20) 0) (fun m => obind (remove m p x) (fun '(_, tr) => let m := final m tr in obind (el_id m x) (fun id => obind (bw_tagStr true m id v) (fun '(new_value, m) => match new_value with
     | None => Ub | Some n => obind (add m p n) (fun '(_, tr) => let m := final m tr in obind (wr32 m (n + 20) first_attribute) (fun m => Ok (true, m))) end))))))).
  { unfold setStr. unfold bw_getStr in GS. destruct TX as [(T0 & RM & SX)|(T0 & RM & SX)]; rewrite T0 in *; cbn [obind] in *.
    - change (XBT_STRING =? XBT_STRING) with true in *. cbn [orb negb]. cbv iota in *. apply obind_inv in GS as (s0 & RS & GS). injection GS as ->. rewrite RS. cbn [obind]. exists (x + 24). split; [exact RS|]. split; [lia|]. split; [lia|]. rewrite RS. cbn [obind]. rewrite RM. replace (zlen old + 1) with (1 + zlen old) by lia. reflexivity.
    - change (XBT_BLOB_STRING =? XBT_STRING) with false in *. change (XBT_BLOB_STRING =? XBT_BLOB_STRING) with true in *. cbn [orb negb]. cbv iota in *. apply obind_inv in GS as (s0 & RS & GS). injection GS as ->. rewrite RM. cbn [obind]. exists (x + 28). split; [exact RS|]. split; [lia|]. split; [lia|]. rewrite RS. reflexivity. }
  destruct CS as (c & RS & C1 & C2 & ->). destruct (list_eq_dec Z.eq_dec old v) as [->|ND]; [eauto|]. destruct (Z.leb_spec (zlen v + 1) room) as [LE|GT].
  { assert (ZV : zlen (v ++ [0]) = zlen v + 1) by (rewrite zlen_app; reflexivity). destruct (wr_some m c (v ++ [0])) as [m1 ->]; [lia..|]. cbn [obind]. eauto. }
  pose proof EL as (h & ah & PL & RP & S). assert (FA := rep_link _ _ _ RP x 20 JX ltac:(unfold link; auto)). rewrite FA. cbn [obind]. destruct (wr32_some m (x + 20) 0) as [m1 W]; [lia..|]. rewrite W. cbn [obind].
  destruct (give _ _ _ _ _ _ _ _ _ _ LI JX OA FA W) as (F1 & L1 & PM1 & OX1 & OT1 & OL1 & AT1). destruct (whole_data _ _ _ _ _ _ _ WH OL1) as [DD1 _]. pose proof (whole_more _ _ _ _ _ _ _ WH OL1) as TG1.
  assert (OW1 : owned F1 p true (l1 ++ x :: l2)) by (apply OT1; [congruence|exact OW]). destruct (take _ _ _ _ _ _ _ _ _ _ L1 OW1 KX) as (tr & F2 & RM & L2 & PM2 & OW2 & OT2 & OL2 & FR2). rewrite RM. cbn [obind]. cbv zeta. pose proof (remove_bytes _ _ _ _ _ RM (wr32_is_bytes _ _ _ _ W BM)) as B2. set (m2 := final m1 tr) in *.
  pose proof (life_whole _ _ _ _ _ _ L1) as WH1. destruct (whole_data _ _ _ _ _ _ _ WH1 OL2) as [DD2 _]. pose proof (whole_more _ _ _ _ _ _ _ WH1 OL2) as TG2.
  assert (SUB : forall e, In e (members F) -> In e (members F1) /\ In e (members F2)). { intros e J. pose proof (Permutation_in _ PM1 J) as J1. split; [exact J1|]. exact (Permutation_in _ PM2 J1). }
  destruct (same_same s m m1 m2 x (DD1 x JX) (DD2 x (proj1 (SUB x JX)))) as (ID2 & _). rewrite ID2, ID. cbn [obind].
  assert (HD : forall q n, 0 <= n -> q + n <= 92 -> rd m2 q n = rd m q n). { intros q n N Q. pose proof (life_whole _ _ _ _ _ _ L1) as (B1 & a1 & I1 & EL1 & _). destruct (names_pool _ _ _ _ _ _ _ I1) as [PO1 _]. destruct OL2 as [_ OL2], OL1 as [_ OL1]. rewrite OL2, OL1; [reflexivity|exact N| |exact N|].
    - intros e J. destruct (inv_in _ _ _ _ _ e EL PO J) as (? & ? & ?). unfold HEADER in *. lia.
    - intros e J. destruct (inv_in _ _ _ _ _ e EL1 PO1 J) as (? & ? & ?). unfold HEADER in *. lia. }
  assert (ZL : 92 <= zlen m) by apply (pool_short _ _ _ _ _ _ LI). assert (IX2 : t_index m2 TAGS <> Ok 0). { unfold t_index, rd_s32 in *. rewrite HD by (unfold TAGS; lia). exact IX. }
  assert (AR : tag_args (TStr v)) by (split; assumption).
  destruct (tag_succeeds (TStr v) k s m2 T P F2 i nm ty t a M L2 NT IX2 AR TT B2) as (n & m3 & TS); [unfold p_allocator, rd_s32 in *; rewrite HD by lia; exact PA|unfold p_mmap_size, rd_s32 in *; rewrite HD by lia; exact MM|exact RO|].
  cbn [tag_run] in TS. rewrite TS. cbn [obind]. destruct (text_made _ _ _ _ _ _ _ _ _ _ _ _ _ L2 NT IX2 VL TS) as (k' & s' & L3 & AG & NN & KN & _).
  destruct (added_free k' F2 p true (l1 ++ l2) n OW2 KN) as (F4 & AD & _). pose proof (life_whole _ _ _ _ _ _ L3) as (B3 & a3 & I3 & EL3 & _). assert (IP3 : In p (members ((None, [n]) :: F2))) by (right; apply SUB, IP). assert (IN3 : In n (members ((None, [n]) :: F2))) by (left; reflexivity).
  destruct (inv_add _ _ _ _ _ _ _ EL3 IP3 AD) as (pre & m4 & EA & _ & _ & [ZL4 _]). rewrite EA. cbn [obind]. rewrite final_snoc. destruct (names_pool _ _ _ _ _ _ _ I3) as [PO3 _]. destruct (inv_in _ _ _ _ _ n EL3 PO3 IN3) as (? & ? & ?). pose proof PO3 as (_ & _ & _ & _ & BB3 & _). unfold HEADER in *.
  destruct (wr32_some m4 (n + 20) (h x 20)) as [m5 ->]; [lia..|]. cbn [obind]. eauto.
Qed.
(** A longer text under a name whose type does not allow texts any more is the end of the program. *)
Lemma setStr_crash k s m T P F p l1 x l2 A old room v disk i nm ty : life k s m T P F -> In p (members F) -> owned F p true (l1 ++ x :: l2) -> k x = true -> owned F x false A -> text_of s m x old room ->
  cstring v -> zlen v < 2 ^ 29 -> el_id m x = Ok (Z.of_nat i) -> nth_error T i = Some (nm, ty) -> t_index m TAGS <> Ok 0 -> (forall t, ~ In (ty, t) (tag_types (TStr v))) -> v <> old -> room <= zlen v -> forall r, setStr disk m x p v <> Ok r.
Proof.
  intros LI IP OW KX OA TX CV VL ID NT IX TT ND RO [ok m'] E. destruct (setStr_ok _ _ _ _ _ _ _ _ _ _ _ _ _ _ _ _ _ _ _ _ LI IP OW KX OA TX CV VL ID NT IX E) as [(Q & _)|[(_ & _ & Q & _)|(_ & _ & _ & (t & Q) & _)]]; [congruence|lia|exact (TT t Q)].
Qed.
