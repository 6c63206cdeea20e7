(** A text document converted into a pool: single elements. *)
From Verif Require Import Base BaseFacts Types ListFacts SizeProofs Scan ScanProofs Sort Symtab SymtabSpec Xb XbSpec XbFacts XbWrite WriteProofs XbBin BinSpec Bw BwFacts BwSpec BwHist BwAlloc BwProofs BwSym BwFile BwFileSpec BwFileProofs BwNamesSpec BwNamesInv BwNamesOps BwLifeSpec BwLife BwSet BwTag BwTagSpec BwTagProofs BwSourceSpec BwCopySpec BwCopyProofs BwMake BwMakeSpec.

(** ** The size in the header *)
Definition canon m : Prop := rd m 32 4 = Ok (le 4 (zlen m)).
Lemma canon_same m m' : zlen m' = zlen m -> rd m' 32 4 = rd m 32 4 -> canon m -> canon m'.
Proof. unfold canon. intros -> ->. auto. Qed.
Lemma canon_wr m p bs m' : wr m p bs = Ok m' -> 36 <= p -> canon m -> canon m'.
Proof. intros W P. apply wr_kept in W as (_ & _ & [L K] & _). apply canon_same; [exact L|apply K; lia]. Qed.
Lemma canon_allocate m n r m' : HEADER <= zlen m -> pool m (zlen m) \/ (exists a, pool m a) -> allocate m n = Ok (r, m') -> canon m -> canon m'.
Proof.
  intros HL PO E C. assert (exists a, pool m a) as (a & P) by (destruct PO; eauto). pose proof P as (A & L & _ & _ & B & _). unfold HEADER in *. unfold allocate in E. destruct (n <=? 0); [injection E as _ <-; exact C|].
  apply int_inv in E as [_ E]. rewrite A, L in E. cbn [obind] in E. apply int_inv in E as [_ E]. destruct (_ <? _) in E; [injection E as _ <-; exact C|]. apply obind_inv in E as (m1 & W1 & E). apply obind_inv in E as (m2 & W2 & E). injection E as _ <-.
  eapply canon_wr; [exact W2|lia|]. eapply canon_wr; [exact W1|lia|exact C].
Qed.
Lemma canon_allocate8 m a n r m' : pool m a -> allocate8 m n = Ok (r, m') -> canon m -> canon m'.
Proof.
  intros P E C. pose proof P as (A & L & _ & _ & B & _). unfold HEADER in *. unfold allocate8 in E. destruct (n <=? 0); [injection E as _ <-; exact C|].
  rewrite A in E. cbn [obind] in E. apply int_inv in E as [_ E]. apply obind_inv in E as (m1 & W1 & E). assert (C1 : canon m1) by (eapply canon_wr; [exact W1|lia|exact C]).
  apply int_inv in E as [_ E]. apply obind_inv in E as (li & _ & E). apply int_inv in E as [_ E]. destruct (_ <? _) in E; [injection E as _ <-; exact C1|]. apply obind_inv in E as (m2 & W2 & E). apply obind_inv in E as (m3 & W3 & E). injection E as _ <-.
  pose proof (align8_ge a). eapply canon_wr; [exact W3|lia|]. eapply canon_wr; [exact W2|lia|exact C1].
Qed.
Lemma canon_space disk m a n r m' : pool m a -> makeSpace disk m n = Ok (r, m') -> canon m -> canon m'.
Proof.
  intros PO. pose proof PO as (A & L & FS & (M & MM & MB) & B & A4 & PG). unfold HEADER in *. unfold makeSpace. rewrite A. cbn [obind]. intros E C.
  apply int_inv in E as [_ E]. apply int_inv in E as [I2 E]. rewrite MM in E. cbn [obind] in E. set (ns := (a + 4095 + n) / 4096 * 4096) in *.
  destruct (M <? ns) eqn:C1; [injection E as _ <-; exact C|]. rewrite FS in E. cbn [obind] in E. destruct (ns <=? zlen m) eqn:C2; [injection E as _ <-; exact C|].
  destruct disk; cbn [negb] in E; [|injection E as _ <-; exact C]. apply obind_inv in E as (m1 & W1 & E). apply obind_inv in E as (m2 & W2 & E). injection E as _ <-.
  destruct (resize_grow m ns ltac:(lia)) as [RL RK]. eapply canon_wr; [exact W2|lia|]. unfold wr32 in W1. apply wr_kept in W1 as (_ & _ & [L1 _] & G). rewrite zlen_le4 in G. unfold canon. rewrite L1, RL. exact G.
Qed.
Lemma canon_block ty m a n r m' : pool m a -> get_block ty m n = Ok (r, m') -> canon m -> canon m'.
Proof. intros P E. unfold get_block in E. destruct (_ =? _) in E; [eapply canon_allocate8; eauto|]. pose proof P as (_ & _ & _ & _ & B & _). eapply canon_allocate; [lia|right; eauto|exact E]. Qed.

(** ** A new element before its fields are set *)
Lemma new_element_head disk m a ty n x m' : pool m a -> new_element disk m ty n = Ok (Some x, m') ->
  rd m' x 24 = Ok (le 4 x ++ [0; 0; 0; ty] ++ le 4 x ++ le 4 x ++ le 4 0 ++ le 4 0) /\ (canon m -> canon m').
Proof.
  intros PO E. unfold new_element in E. apply obind_inv in E as (s2 & S2 & E). destruct (s2 <? 0) eqn:NEG; [discriminate|].
  apply int_inv in E as [_ E]. fold (get_block ty m (24 + s2)) in E. apply obind_inv in E as ([x1 m1] & G1 & E). apply obind_inv in E as ([x2 m2] & G2 & E).
  assert (T : match x2 with
              | None => True
              | Some x => exists a', a <= x /\ x + 24 + s2 <= a' /\ pool m2 a' /\ rd m2 x (24 + s2) = Ok (zrepeat 0 (24 + s2)) /\ (canon m -> canon m2)
              end).
  { pose proof (canon_block _ _ _ _ _ _ PO G1) as C1. apply (get_block_ok _ _ a) in G1; [|exact PO]. destruct x1 as [x1|].
    - injection G2 as <- <-. destruct G1 as (a' & N & AX & X4 & X8 & XA & P & X & ZR). exists a'. split; [lia|]. split; [lia|]. exact (conj P (conj ZR C1)).
    - destruct G1 as (a1 & P1 & A1 & X1). apply obind_inv in G2 as ([ok m3] & SP & G2). pose proof (canon_space _ _ _ _ _ _ P1 SP) as C3. apply (makeSpace_ok _ _ a1) in SP; [|exact P1].
      destruct SP as (P3 & X3 & _). destruct ok; [|injection G2 as <- <-; exact I].
      fold (get_block ty m3 (24 + s2)) in G2. pose proof (canon_block _ _ _ _ _ _ P3 G2) as C2. apply (get_block_ok _ _ a1) in G2; [|exact P3]. destruct x2 as [x2|]; [|exact I].
      destruct G2 as (a' & N & AX & X4 & X8 & XA & P & X & ZR). exists a'. split; [lia|]. split; [lia|]. split; [exact P|]. split; [exact ZR|]. auto. }
  destruct x2 as [x0|]; [|discriminate]. destruct T as (a' & AX & XA & P & ZR & CC).
  pose proof PO as (_ & _ & _ & _ & BB & _ & _). unfold HEADER in BB.
  apply obind_inv in E as (w1 & W1 & E). apply obind_inv in E as (w2 & W2 & E). apply obind_inv in E as (w3 & W3 & E). apply obind_inv in E as (w4 & W4 & E).
  apply obind_inv in E as (w5 & W5 & E). injection E as -> ->. unfold wr32 in *. split.
  - assert (W5' : kept w4 m' (x + 24) 4).
    { destruct (XBT_IS_VARSIZE ty); [apply wr_kept in W5 as (_ & _ & K & _); exact K|injection W5 as ->; split; auto]. }
    apply wr_kept in W1 as (_ & _ & [_ K1] & V1), W2 as (_ & _ & [_ K2] & V2), W3 as (_ & _ & [_ K3] & V3), W4 as (_ & _ & [_ K4] & V4). destruct W5' as [_ K5]. change (zlen [ty]) with 1 in *. rewrite zlen_le4 in *.
    assert (ZZ : forall q j, 0 <= q -> 0 <= j -> q + j <= 24 + s2 -> rd m2 (x + q) j = Ok (zrepeat 0 j)).
    { intros q j Q J QJ. apply rd_inv in ZR as (_ & _ & H & _); [|lia]. replace (zrepeat 0 (24 + s2)) with (zrepeat 0 q ++ zrepeat 0 j ++ zrepeat 0 (24 + s2 - q - j)) in H.
      - apply has_app in H as [_ H]. rewrite zlen_repeat in H by lia. apply has_app in H as [H _]. apply has_rd in H. rewrite zlen_repeat in H by lia. exact H.
      - unfold zrepeat. rewrite <- !repeat_app. f_equal. lia. }
    assert (P0 : rd m' x 4 = Ok (le 4 x)) by (rewrite K5, K4, K3 by lia; exact V2).
    assert (P4 : rd m' (x + 4) 3 = Ok [0; 0; 0]) by (rewrite K5, K4, K3, K2, K1 by lia; exact (ZZ 4 3 ltac:(lia) ltac:(lia) ltac:(lia))).
    assert (P7 : rd m' (x + 7) 1 = Ok [ty]) by (rewrite K5, K4, K3, K2 by lia; exact V1).
    assert (P8 : rd m' (x + 8) 4 = Ok (le 4 x)) by (rewrite K5, K4 by lia; exact V3).
    assert (P12 : rd m' (x + 12) 4 = Ok (le 4 x)) by (rewrite K5 by lia; exact V4).
    assert (P16 : rd m' (x + 16) 8 = Ok [0; 0; 0; 0; 0; 0; 0; 0]) by (rewrite K5, K4, K3, K2, K1 by lia; exact (ZZ 16 8 ltac:(lia) ltac:(lia) ltac:(lia))).
    change 24 with (4 + (3 + (1 + (4 + (4 + 8))))). rewrite !rd_split by lia. replace (x + 4 + 3) with (x + 7) by lia. replace (x + 7 + 1) with (x + 8) by lia. replace (x + 8 + 4) with (x + 12) by lia. replace (x + 12 + 4) with (x + 16) by lia.
    rewrite P0, P4, P7, P8, P12, P16. reflexivity.
  - intro C. specialize (CC C). assert (C4 : canon w4) by (eapply canon_wr; [exact W4|lia|]; eapply canon_wr; [exact W3|lia|]; eapply canon_wr; [exact W2|lia|]; eapply canon_wr; [exact W1|lia|exact CC]).
    destruct (XBT_IS_VARSIZE ty); [eapply canon_wr; [exact W5|lia|exact C4]|injection W5 as ->; exact C4].
Qed.
Lemma bput_mid l o bs r : zlen bs = zlen o -> bput (l ++ o ++ r) (zlen l) bs = l ++ bs ++ r.
Proof.
  intro E. unfold bput. rewrite ztake_app_len by reflexivity. f_equal. f_equal. rewrite app_assoc. replace (zlen l + zlen bs) with (zlen (l ++ o)) by (rewrite zlen_app; lia). apply zskip_app_len. reflexivity.
Qed.
(** Setting the fields one by one comes to the same as init. *)
Lemma named_fresh disk m a id ty n flags x m1 m2 m3 : pool m a -> canon m -> new_element disk m ty n = Ok (Some x, m1) -> wr m1 (x + 4) (le 2 id) = Ok m2 -> wr m2 (x + 6) [flags] = Ok m3 ->
  fresh disk m id ty n flags = Ok (Some x, m3) /\ canon m3.
Proof.
  intros PO C NE W1 W2. destruct (new_element_head _ _ _ _ _ _ _ PO NE) as [HD CC]. specialize (CC C). pose proof PO as (_ & _ & _ & _ & BB & _). unfold HEADER in *.
  assert (C3 : canon m3). { pose proof NE as NE'. apply (new_element_ok _ _ a) in NE'; [|exact PO]. destruct NE' as (s2 & a' & _ & _ & AX & _). eapply canon_wr; [exact W2|lia|]. eapply canon_wr; [exact W1|lia|exact CC]. }
  split; [|exact C3]. unfold fresh. rewrite NE. cbn [obind]. apply (new_element_ok _ _ a) in NE; [|exact PO]. destruct NE as (s2 & a' & _ & S0 & AX & _ & _ & XA & P1 & _). pose proof P1 as (_ & _ & _ & _ & BB1 & _). destruct (pool_len _ _ P1) as [IZ _]. unfold HEADER, int32 in *.
  unfold init. unfold canon in CC. rewrite CC. cbn [obind]. assert (UL : unle (le 4 (zlen m1)) = zlen m1) by (rewrite unle_le; change (256 ^ Z.of_nat 4) with 4294967296; apply Z.mod_small; lia). rewrite UL. replace ((0 <? x) && (x + 24 <=? zlen m1)) with true by lia.
  apply rd_inv in HD as (_ & _ & (l & r & M1 & LX) & _); [|lia].
  unfold wr in *. destruct ((0 <=? x + 4) && _) eqn:B1 in W1; [|discriminate]. injection W1 as <-. destruct ((0 <=? x + 6) && _) eqn:B2 in W2; [|discriminate]. injection W2 as <-.
  change (zlen (le 4 x ++ le 2 id ++ [flags; ty] ++ le 4 x ++ le 4 x ++ le 4 0 ++ le 4 0)) with 24. replace ((0 <=? x) && (x + 24 <=? zlen m1)) with true by lia. cbn [obind]. f_equal. f_equal. subst m1 x.
  set (A := le 4 (zlen l)) in *. set (B := le 4 (zlen l) ++ le 4 (zlen l) ++ le 4 0 ++ le 4 0).
  assert (S0A : zlen A = 4) by reflexivity. assert (SB : zlen B = 16) by reflexivity.
  change (l ++ (A ++ [0; 0; 0; ty] ++ A ++ A ++ le 4 0 ++ le 4 0) ++ r) with (l ++ (A ++ [0; 0; 0; ty] ++ B) ++ r).
  change (A ++ le 2 id ++ [flags; ty] ++ A ++ A ++ le 4 0 ++ le 4 0) with (A ++ le 2 id ++ [flags; ty] ++ B).
  change [id mod 256; (id / 256) mod 256] with (le 2 id). set (I2 := le 2 id) in *. assert (SI : zlen I2 = 2) by reflexivity. clearbody B I2 A. rewrite bput_mid by (rewrite !zlen_app, S0A, SI; change (zlen [flags; ty]) with 2; change (zlen [0; 0; 0; ty]) with 4; lia).
  replace (l ++ (A ++ [0; 0; 0; ty] ++ B) ++ r) with ((l ++ A) ++ [0; 0] ++ ([0; ty] ++ B ++ r)) by (rewrite <- !app_assoc; reflexivity).
  replace (zlen l + 4) with (zlen (l ++ A)) by (rewrite zlen_app; lia). rewrite bput_mid by (rewrite ?SI; reflexivity).
  replace ((l ++ A) ++ I2 ++ [0; ty] ++ B ++ r) with (((l ++ A) ++ I2) ++ [0] ++ ([ty] ++ B ++ r)) by (rewrite <- !app_assoc; reflexivity).
  replace (zlen l + 6) with (zlen ((l ++ A) ++ I2)) by (rewrite !zlen_app, S0A, SI; lia). rewrite bput_mid by (rewrite ?SI; reflexivity). rewrite <- !app_assoc. reflexivity.
Qed.
(** ** The text *)
Lemma convert_at fl v ty x size size2 st : x mod 4 = 0 -> (XBT_Align ty = 8 -> x mod 8 = 0) -> XBT_SizeFromString v ty = Ok size -> XBT_Size2 ty size = Ok size2 -> 0 <= size2 ->
  XBT_FromString fl v ty (x + 24) (x + 24 + size2) = Ok st -> st_pos st = x + 24 /\ converted fl v ty (st_bytes st) /\ zlen (st_bytes st) <= (size2 + 3) / 4 * 4.
Proof.
  intros X4 X8 SF S2 S0 E. assert (P4 : align_up 4 (x + 24) = x + 24) by (unfold align_up; lia).
  assert (R : exists p' bs, XBT_FromString fl v ty 0 size2 = Ok (mkstored 0 bs p') /\ st_pos st = x + 24 /\ st_bytes st = bs /\ zlen bs <= (size2 + 3) / 4 * 4).
  2:{ destruct R as (p' & bs & F & SP & SB & ZL). rewrite SB. split; [exact SP|]. split; [|exact ZL]. exists size, size2, (mkstored 0 bs p'). auto. }
  unfold XBT_FromString in *. rewrite P4 in E. change (align_up 4 0) with 0. change (align_up 8 0) with 0. cbv zeta in *.
  assert (PUT : forall (bs : list Z), Ok (mkstored (x + 24) bs (x + 24 + zlen bs)) = Ok st -> zlen bs <= (size2 + 3) / 4 * 4 ->
    exists p' bs0, Ok (mkstored 0 bs (0 + zlen bs)) = Ok (mkstored 0 bs0 p') /\ st_pos st = x + 24 /\ st_bytes st = bs0 /\ zlen bs0 <= (size2 + 3) / 4 * 4).
  { intros bs Q ZL. injection Q as <-. exists (0 + zlen bs), bs. auto. }
  assert (FOUR : forall w, zlen (le 4 w) <= (size2 + 3) / 4 * 4 \/ size2 <> 4) by (intro w; rewrite zlen_le4; lia).
  repeat match type of E with (if ty =? ?t then _ else _) = _ => let H := fresh "H" in destruct (ty =? t) eqn:H; [apply Z.eqb_eq in H; subst ty|] end; try discriminate.
  Ltac four SF S2 := vm_compute in SF; injection SF as <-; vm_compute in S2; injection S2 as <-; rewrite zlen_le4; vm_compute; congruence.
  all: try (apply PUT in E; [exact E|solve [four SF S2]]).
  all: try (apply obind_inv in E as (w & -> & E); cbn [obind]; apply PUT in E; [exact E|solve [four SF S2]]).
  all: try (apply obind_inv in E as ([w rest] & -> & E); cbn [obind]; apply PUT in E; [exact E|solve [four SF S2]]).
  - destruct v; [|discriminate]. injection E as <-. exists 0, []. change (zlen []) with 0. cbn [st_pos st_bytes]. split; [reflexivity|]. split; [reflexivity|]. split; [reflexivity|lia].
  - rewrite (align_up_id 8 (x + 24)) in E by (specialize (X8 eq_refl); lia). apply obind_inv in E as ([w rest] & -> & E). cbn [obind]. apply PUT in E; [exact E|]. vm_compute in SF. injection SF as <-. vm_compute in S2. injection S2 as <-. change (zlen (le 8 w)) with 8. vm_compute. congruence.
  - rewrite (align_up_id 8 (x + 24)) in E by (specialize (X8 eq_refl); lia). apply obind_inv in E as ([w rest] & -> & E). cbn [obind]. apply PUT in E; [exact E|]. vm_compute in SF. injection SF as <-. vm_compute in S2. injection S2 as <-. change (zlen (le 8 w)) with 8. vm_compute. congruence.
  - change (XBT_SizeFromString v XBT_STRING) with (Ok (zlen v)) in SF. injection SF as <-. change (XBT_Size2 XBT_STRING (zlen v)) with (Ok (zlen v + 1)) in S2. injection S2 as <-. apply PUT in E; [exact E|]. rewrite zlen_app. change (zlen [0]) with 1. lia.
  - pose proof (ScanHex_bound v 16 ltac:(lia)) as HB. destruct (ScanHex v 16) as [[n bs] rest]. destruct HB as (HN & HL & _). destruct (n =? 16); [|discriminate]. vm_compute in SF. injection SF as <-. vm_compute in S2. injection S2 as <-. apply PUT in E; [exact E|]. change ((16 + 3) / 4 * 4) with 16. lia.
  - pose proof (ScanHex_bound v 20 ltac:(lia)) as HB. destruct (ScanHex v 20) as [[n bs] rest]. destruct HB as (HN & HL & _). destruct (n =? 20); [|discriminate]. vm_compute in SF. injection SF as <-. vm_compute in S2. injection S2 as <-. apply PUT in E; [exact E|]. change ((24 + 3) / 4 * 4) with 24. lia.
  - destruct (x + 24 + size2 <? x + 24 + 4) eqn:C; [discriminate|]. replace (size2 <? 0 + 4) with false by lia. replace (x + 24 + size2 - (x + 24 + 4)) with (size2 - (0 + 4)) in E by lia. pose proof (ScanHex_bound v (size2 - (0 + 4)) ltac:(lia)) as HB. destruct (ScanHex v (size2 - (0 + 4))) as [[n bs] rest]. destruct HB as (HN & HL & _). apply PUT in E; [exact E|]. rewrite zlen_app, zlen_le4. lia.
  - apply obind_inv in E as ([w rest] & -> & E). cbn [obind]. apply PUT in E; [exact E|]. vm_compute in SF. injection SF as <-. vm_compute in S2. injection S2 as <-. change (zlen (le 8 w)) with 8. vm_compute. congruence.
Qed.
Definition text_of (value : option (list Z)) : list Z := match value with Some v => v | None => [] end.
(** ** One element *)
Lemma item_ok fl disk k s m T P F id ty flags value x m' : life k s m T P F -> canon m -> 0 <= ty < 256 -> 0 <= flags < 256 -> -32768 <= id < 32768 -> make_item fl disk m id ty flags value = Ok (x, m') ->
  canon m' /\ quiet s m m' F /\ exists k' s' w, life k' s' m' T P ((None, [x]) :: F) /\ (forall e, In e (members F) -> k' e = k e /\ s' e = s e) /\ ~ In x (members F) /\ k' x = is_element flags /\ el_id m' x = Ok id /\ el_type m' x = Ok ty /\
    rd m' (x + 24) (s' x - 24) = Ok w /\ holds_text fl ty w (text_of value) /\ ty <> XBT_UNKNOWN.
Proof.
  intros LI CA TY FL ID E. unfold make_item in E. apply obind_inv in E as (v & EV & E). assert (TV : text_of value = v) by (destruct value; [injection EV as ->; reflexivity|destruct (_ =? _) in EV; [injection EV as <-; reflexivity|discriminate]]).
  apply obind_inv in E as (size & SF & E). apply obind_inv in E as (size2 & S2 & E). apply int_inv in E as [_ E]. apply obind_inv in E as ([ok m1] & MS & E). destruct ok; cbn [negb] in E; [|discriminate].
  pose proof (space_heads _ _ _ _ _ _ _ _ _ _ LI MS) as H1. destruct (space_same _ _ _ _ _ _ _ _ _ _ LI MS) as (L1 & SS & _). assert (Q1 : quiet s m m1 F) by (split; auto).
  assert (CA1 : canon m1). { pose proof (life_whole _ _ _ _ _ _ LI) as (B0 & a0 & I0 & _). destruct (names_pool _ _ _ _ _ _ _ I0) as [PO0 _]. eapply canon_space; eauto. }
  pose proof (life_whole _ _ _ _ _ _ L1) as WH. pose proof WH as (B & a & I & EL & _). destruct (names_pool _ _ _ _ _ _ _ I) as [PO _]. pose proof PO as (_ & _ & _ & _ & BB & _). unfold HEADER in BB.
  apply obind_inv in E as ([r m2] & NE & E). destruct r as [x0|]; [|discriminate]. apply obind_inv in E as (m3 & W1 & E). apply obind_inv in E as (m4 & W2 & E). apply obind_inv in E as (st & FS & E). apply obind_inv in E as (m5 & W3 & E). injection E as -> ->.
  destruct (named_fresh _ _ _ _ _ _ _ _ _ _ _ PO CA1 NE W1 W2) as [FR CA4]. pose proof (life_new k s m1 T P F disk id ty size size2 flags x m4 L1 FL TY FR S2) as L4. destruct (whole_new k s m1 T P F disk id ty size size2 flags x m4 WH FL TY FR S2) as (_ & NI & KK).
  pose proof FR as FR2. apply (fresh_ok _ _ a) in FR2; [|exact PO]. destruct FR2 as (s2 & a' & S2' & S0 & AX & X4 & X8 & XA & PO' & [EZ EX] & _ & HD). rewrite S2 in S2'. injection S2' as <-. pose proof PO' as (_ & _ & _ & _ & BB' & A4' & _).
  destruct (convert_at fl v ty x size size2 st X4 X8 SF S2 S0 FS) as (SP & CV & ZB). rewrite SP in W3. set (bs := st_bytes st) in *. pose proof (zlen_nonneg bs) as B0.
  assert (IX : int32 x). { destruct (pool_len _ _ PO') as [_ IA]. unfold HEADER, int32 in *. lia. } destruct (header_fields _ _ _ _ _ HD IX FL) as (_ & _ & HT & HI & _). specialize (HT TY). specialize (HI ID).
  set (k' := set k x (is_element flags)) in *. set (s' := set s x (24 + (size2 + 3) / 4 * 4)) in *. assert (SX : s' x = 24 + (size2 + 3) / 4 * 4) by apply set_same. destruct (wr_kept _ _ _ _ W3) as (_ & _ & KW & GW). pose proof KW as [_ KE].
  assert (L5 : life k' s' m' T P ((None, [x]) :: F)) by (apply (life_write _ _ m4 _ _ _ x (x + 24) bs); auto; [left; reflexivity|lia|lia]).
  split; [eapply canon_wr; [exact W3|lia|exact CA4]|]. split; [apply (quiet_trans s m m1 m' F Q1); split|].
  - intros e J. rewrite <- (KK e J). destruct (inv_in _ _ _ _ _ e EL PO J) as (? & ? & ?). unfold HEADER in *. apply KE; lia.
  - split; (rewrite KE by (unfold TAGS; lia)); apply EX; unfold TAGS; lia.
  - destruct (rd_some m' (x + 24) (s' x - 24)) as [w RV]; [lia|rewrite (kept_len _ _ _ _ KW); unfold HEADER in *; lia|]. exists k', s', w. split; [exact L5|]. split; [intros e J; assert (e <> x) by (intros ->; auto); unfold k', s'; rewrite !set_other by auto; auto|]. split; [exact NI|]. split; [apply set_same|].
    split; [unfold el_id, rd_s16 in *; rewrite KE by lia; exact HI|]. split; [unfold el_type, rd_u8 in *; rewrite KE by lia; exact HT|]. split; [exact RV|]. split.
    + exists bs, (zskip (zlen bs) w). rewrite TV. split; [exact CV|]. rewrite <- (ztake_zskip (zlen bs) w) at 1. f_equal. apply rd_inv in RV as (_ & _ & HV & ZV); [|lia]. rewrite <- (ztake_zskip (zlen bs) w) in HV. apply has_app in HV as [HV _]. apply has_rd in HV. rewrite zlen_take in HV by lia. replace (Z.min (zlen bs) (zlen w)) with (zlen bs) in HV by lia. congruence.
    + intros ->. discriminate FS.
Qed.
