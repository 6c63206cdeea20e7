(** Proofs about making an element of any type from a text. *)
From Verif Require Import Base BaseFacts Types ListFacts Scan Dates Sort Xb XbSpec XbFacts XbWrite WriteProofs Bw BwFacts BwSpec BwHist BwAlloc BwProofs BwSym BwNamesSpec BwNamesInv BwNamesOps BwLifeSpec BwLife BwSet BwTag BwTagSpec BwTagProofs BwTagExamples BwSetExamples BwFileExamples BwMake BwMakeSpec BwMakeProofs BwAny.

(** Only hexadecimal data looks at the end of the space; the position is only used for the alignment. *)
Lemma from_at fl v ty p l q : ty <> XBT_HEX -> p mod 4 = 0 -> (XBT_Align ty = 8 -> p mod 8 = 0) ->
  XBT_FromString fl v ty p l = match XBT_FromString fl v ty 0 q with Ok st => Ok (mkstored p (st_bytes st) (p + zlen (st_bytes st))) | Fail => Fail | Ub => Ub end.
Proof.
  intros NH P4 P8. assert (A4 : align_up 4 p = p) by (unfold align_up; lia).
  unfold XBT_FromString. rewrite A4. change (align_up 4 0) with 0. change (align_up 8 0) with 0. cbv zeta.
  repeat match goal with |- (if ty =? ?t then _ else _) = _ => let H := fresh "H" in destruct (ty =? t) eqn:H; [apply Z.eqb_eq in H; subst ty|] end; try reflexivity; try contradiction.
  - destruct v; cbn [st_bytes]; [|reflexivity]. rewrite Z.add_0_r. reflexivity.
  - destruct (str2dec v 1); reflexivity.
  - destruct (str2dec v 2); reflexivity.
  - destruct (str2dec v 3); reflexivity.
  - destruct (str2dec v 6); reflexivity.
  - destruct (str2dec v 9); reflexivity.
  - destruct (ScanIPv4 v) as [[]| |]; reflexivity.
  - rewrite (align_up_id 8 p) by (specialize (P8 eq_refl); lia). destruct (ScanInt64 v) as [[]| |]; reflexivity.
  - rewrite (align_up_id 8 p) by (specialize (P8 eq_refl); lia). destruct (ScanUInt64 v) as [[]| |]; reflexivity.
  - destruct (ScanHex v 16) as [[n bs] rest]. destruct (n =? 16); reflexivity.
  - destruct (ScanHex v 20) as [[n bs] rest]. destruct (n =? 20); reflexivity.
  - destruct (ScanUnixTime v) as [[]| |]; reflexivity.
  - destruct (ScanUnixTime64msec v) as [[]| |]; reflexivity.
  - destruct (ScanUnixDate v) as [[]| |]; reflexivity.
Qed.
Lemma any_makes fl disk k s m T P F id ty v size r m' : life k s m T P F -> 0 <= ty < 256 -> -32768 <= id < 32768 -> XBT_SizeFromString v ty = Ok size -> ty <> XBT_HEX -> tagAny fl disk m id ty v size = Ok (r, m') ->
  (r = None /\ (forall e, In e (members F) -> rd m' e (s e) = rd m e (s e)) /\ exists k' s' F', (F' = F \/ exists x, F' = (None, [x]) :: F) /\ life k' s' m' T P F' /\ forall e, In e (members F) -> k' e = k e /\ s' e = s e) \/
  exists x bs, r = Some x /\ tag_done k s m T P F id ty x m' /\ converted fl v ty bs /\ rd m' (x + 24) (zlen bs) = Ok bs.
Proof.
  intros LI TY ID SF NH E. unfold tagAny in E. apply obind_inv in E as ([x m1] & FR & E). pose proof (life_whole _ _ _ _ _ _ LI) as WH. pose proof WH as (B & a & I & EL & _). destruct (names_pool _ _ _ _ _ _ _ I) as [PO _]. pose proof PO as (_ & _ & _ & _ & BB & _).
  pose proof FR as FR2. apply (fresh_ok _ _ a) in FR2; [|exact PO]. destruct x as [x|].
  2:{ injection E as <- <-. left. split; [reflexivity|]. destruct FR2 as (a' & _ & _ & [_ EX]). split.
      - intros e J. destruct (inv_in _ _ _ _ _ e EL PO J) as (? & ? & ?). unfold HEADER in *. apply EX; lia.
      - exists k, s, F. split; [auto|]. split; [eapply life_not_new; eauto|auto]. }
  destruct FR2 as (s2 & a' & S2 & S0 & AX & X4 & X8 & _). assert (FE : 0 <= ELEMENT < 256) by (unfold ELEMENT; lia).
  assert (A8 : XBT_Align ty = 8 -> (x + 24) mod 8 = 0) by (intro A; specialize (X8 A); lia). rewrite (from_at fl v ty (x + 24) (x + 24 + size) s2 NH) in E by (auto; lia).
  pose proof (life_new k s m T P F disk id ty size s2 ELEMENT x m1 LI FE TY FR S2) as L1. destruct (whole_new k s m T P F disk id ty size s2 ELEMENT x m1 WH FE TY FR S2) as (_ & NI & KK).
  destruct (XBT_FromString fl v ty 0 s2) as [st| |] eqn:FS; [|injection E as <- <-|discriminate].
  - cbn [st_pos st_bytes] in E. apply obind_inv in E as (m2 & W & E). injection E as <- <-. right. exists x, (st_bytes st). split; [reflexivity|].
    assert (ZB : zlen (st_bytes st) <= (s2 + 3) / 4 * 4). { assert (F2 : XBT_FromString fl v ty (x + 24) (x + 24 + s2) = Ok (mkstored (x + 24) (st_bytes st) (x + 24 + zlen (st_bytes st)))) by (rewrite (from_at fl v ty (x + 24) (x + 24 + s2) s2 NH) by (auto; lia); rewrite FS; reflexivity). destruct (convert_at fl v ty x size s2 _ X4 X8 SF S2 S0 F2) as (_ & _ & ZB). exact ZB. }
    destruct (made_tag _ _ _ _ _ _ _ _ _ _ s2 _ _ _ _ _ LI FR W TY S2 ltac:(lia) ltac:(lia) ID) as (L2 & NX & K2 & XI & XT & XV & _). split; [|split; [|exact XV]].
    + exists (set k x true), (set s x (24 + (s2 + 3) / 4 * 4)). split; [exact L2|]. split; [intros e J; assert (e <> x) by (intros ->; auto); rewrite !set_other by auto; auto|]. split; [exact NX|]. split; [apply set_same|]. auto.
    + pose proof (from_at fl v ty 0 s2 s2 NH ltac:(lia) ltac:(lia)) as F0. rewrite FS in F0. injection F0 as F0. exists size, s2, st. split; [exact SF|]. split; [exact S2|]. split; [exact FS|]. split; [rewrite F0|]; reflexivity.
  - left. split; [reflexivity|]. split; [exact KK|]. exists (set k x (is_element ELEMENT)), (set s x (24 + (s2 + 3) / 4 * 4)), ((None, [x]) :: F). split; [right; eauto|]. split; [exact L1|]. intros e J. assert (e <> x) by (intros ->; auto). rewrite !set_other by auto. auto.
Qed.
(** It succeeds if the text can be converted and there is room in the file. *)
Lemma any_succeeds fl disk k s m T P F id ty v size bs a n : life k s m T P F -> bytes m -> p_allocator m = Ok a -> XBT_SizeFromString v ty = Ok size -> ty <> XBT_HEX -> converted fl v ty bs -> XBT_Size2 ty size = Ok n -> 0 <= n -> a + n + 46 <= zlen m ->
  exists x m', tagAny fl disk m id ty v size = Ok (Some x, m').
Proof.
  intros LI BM AL SF NH CV S2 N0 RO. pose proof (life_whole _ _ _ _ _ _ LI) as WH. pose proof WH as (B & a0 & I & EL & _). destruct (names_pool _ _ _ _ _ _ _ I) as [PO _]. assert (a0 = a) as -> by (destruct PO as (A & _); unfold p_allocator in *; congruence).
  destruct CV as (size' & n' & st & SF' & S2' & FS & _). rewrite SF in SF'. injection SF' as <-. rewrite S2 in S2'. injection S2' as <-.
  assert (VZ : XBT_IS_VARSIZE ty = false). { destruct (XBT_IS_VARSIZE ty) eqn:V; [|reflexivity]. unfold XBT_IS_VARSIZE, isin in V. cbn [existsb] in V. repeat (apply orb_prop in V as [V|V]); try discriminate; apply Z.eqb_eq in V; subst ty; try discriminate FS. contradiction. }
  destruct (fresh_some disk m a id ty size n ELEMENT PO S2 N0 ltac:(congruence) RO BM) as (x & m1 & FR & X0 & XL). unfold tagAny. rewrite FR. cbn [obind]. pose proof FR as FR2. apply (fresh_ok _ _ a) in FR2; [|exact PO]. destruct FR2 as (s2 & a' & S2' & S0 & AX & X4 & X8 & _). rewrite S2 in S2'. injection S2' as <-.
  rewrite (from_at fl v ty (x + 24) (x + 24 + size) n NH) by (auto; try (intro A; specialize (X8 A)); lia). rewrite FS. cbn [st_pos st_bytes].
  assert (ZB : zlen (st_bytes st) <= (n + 3) / 4 * 4). { assert (F2 : XBT_FromString fl v ty (x + 24) (x + 24 + n) = Ok (mkstored (x + 24) (st_bytes st) (x + 24 + zlen (st_bytes st)))) by (rewrite (from_at fl v ty (x + 24) (x + 24 + n) n NH) by (auto; try (intro A; specialize (X8 A)); lia); rewrite FS; reflexivity). destruct (convert_at fl v ty x size n _ X4 X8 SF S2 S0 F2) as (_ & _ & ZB). exact ZB. }
  destruct (wr_some m1 (x + 24) (st_bytes st)) as (m2 & W); [lia|lia|]. rewrite W. cbn [obind]. eauto.
Qed.
