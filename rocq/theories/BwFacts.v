(** Stores and loads in the memory of a pool, and the links of elements as a function. *)
From Verif Require Import Base BaseFacts Types ListFacts Sort Xb XbSpec XbFacts XbWrite WriteProofs Bw.

(** ** Stores *)
Lemma slice_bput_other m p bs q k : 0 <= p -> p + zlen bs <= zlen m -> 0 <= q -> 0 <= k -> q + k <= zlen m ->
  q + k <= p \/ p + zlen bs <= q -> slice (bput m p bs) q k = slice m q k.
Proof.
  intros P PB Q K QB D. assert (H := slice_has m q k Q K QB).
  assert (L : zlen (slice m q k) = k) by (apply zlen_slice; auto).
  assert (H2 := bput_keeps m p bs q _ P PB H ltac:(rewrite L; lia)). apply has_slice in H2. rewrite L in H2. exact H2.
Qed.
Definition kept m m' p n : Prop := zlen m' = zlen m /\ forall q k, 0 <= k -> q + k <= p \/ p + n <= q -> rd m' q k = rd m q k.
Lemma wr_some m p bs : 0 <= p -> p + zlen bs <= zlen m -> exists m', wr m p bs = Ok m'.
Proof. intros P B. unfold wr. replace ((0 <=? p) && (p + zlen bs <=? zlen m)) with true by lia. eauto. Qed.
Lemma wr_kept m p bs m' : wr m p bs = Ok m' -> 0 <= p /\ p + zlen bs <= zlen m /\ kept m m' p (zlen bs) /\ rd m' p (zlen bs) = Ok bs.
Proof.
  unfold wr. destruct ((0 <=? p) && (p + zlen bs <=? zlen m)) eqn:B; [|discriminate]. intro E. injection E as <-.
  assert (0 <= p /\ p + zlen bs <= zlen m) as [P PB] by lia. split; [lia|]. split; [lia|]. split.
  - split; [apply bput_len; auto|]. intros q k K D. unfold rd. rewrite bput_len by auto.
    destruct ((0 <=? q) && (q + k <=? zlen m)) eqn:C; [|reflexivity]. f_equal. apply slice_bput_other; lia.
  - apply has_rd, bput_has; auto.
Qed.
Lemma kept_s32 m m' p n q : kept m m' p n -> q + 4 <= p \/ p + n <= q -> rd_s32 m' q = rd_s32 m q.
Proof. intros [_ K] D. unfold rd_s32. rewrite K by lia. reflexivity. Qed.
Lemma kept_s16 m m' p n q : kept m m' p n -> q + 2 <= p \/ p + n <= q -> rd_s16 m' q = rd_s16 m q.
Proof. intros [_ K] D. unfold rd_s16. rewrite K by lia. reflexivity. Qed.
Lemma kept_u8 m m' p n q : kept m m' p n -> q + 1 <= p \/ p + n <= q -> rd_u8 m' q = rd_u8 m q.
Proof. intros [_ K] D. unfold rd_u8. rewrite K by lia. reflexivity. Qed.
Lemma kept_len m m' p n : kept m m' p n -> zlen m' = zlen m.
Proof. intros [L _]. exact L. Qed.
Lemma zlen_le4 v : zlen (le 4 v) = 4.
Proof. reflexivity. Qed.
Lemma wr32_kept m p v m' : wr32 m p v = Ok m' -> int32 v -> 0 <= p /\ p + 4 <= zlen m /\ kept m m' p 4 /\ rd_s32 m' p = Ok v.
Proof.
  unfold wr32. intros W I. apply wr_kept in W. rewrite zlen_le4 in W. destruct W as (P & B & K & R). repeat split; auto; try apply K.
  unfold rd_s32. rewrite R. cbn [obind]. rewrite s32_le by exact I. reflexivity.
Qed.
Lemma wr32_some m p v : 0 <= p -> p + 4 <= zlen m -> exists m', wr32 m p v = Ok m'.
Proof. intros. apply wr_some; rewrite ?zlen_le4; lia. Qed.

(** ** The links *)
Definition heap := Z -> Z -> Z.
Definition upd (h : heap) e f v : heap := fun e' f' => if (e' =? e) && (f' =? f) then v else h e' f'.
Definition link (f : Z) : Prop := f = 8 \/ f = 12 \/ f = 16 \/ f = 20.
Record rep (E : list Z) (m : list Z) (h : heap) : Prop := mkrep {
  rep_in : forall e, In e E -> 0 < e /\ e + 24 <= zlen m;
  rep_apart : forall e e', In e E -> In e' E -> e <> e' -> e + 24 <= e' \/ e' + 24 <= e;
  rep_off : forall e, In e E -> el_offset m e = Ok e;
  rep_link : forall e f, In e E -> link f -> rd_s32 m (e + f) = Ok (h e f) }.
(** Nothing but links changed. *)
Definition framed (E : list Z) m m' : Prop :=
  zlen m' = zlen m /\ forall q k, 0 <= k -> (forall e, In e E -> q + k <= e + 8 \/ e + 24 <= q) -> rd m' q k = rd m q k.

Lemma framed_refl E m : framed E m m.
Proof. split; auto. Qed.
Lemma framed_trans E m1 m2 m3 : framed E m1 m2 -> framed E m2 m3 -> framed E m1 m3.
Proof. intros [L1 H1] [L2 H2]. split; [lia|]. intros q k K D. rewrite H2, H1 by auto. reflexivity. Qed.
Lemma kept_framed E m m' e f : kept m m' (e + f) 4 -> In e E -> link f -> framed E m m'.
Proof. intros [L H] I F. split; [exact L|]. intros q k K D. apply H; [exact K|]. specialize (D e I). unfold link in F. lia. Qed.
Lemma framed_flags E m m' h e : framed E m m' -> rep E m h -> In e E -> el_flags m' e = el_flags m e.
Proof.
  intros [_ H] R I. unfold el_flags, rd_u8. rewrite H; [reflexivity|lia|]. intros e' I'.
  destruct (Z.eq_dec e e') as [->|N]; [lia|]. destruct (rep_apart _ _ _ R e e' I I' N); lia.
Qed.
Lemma framed_type E m m' h e : framed E m m' -> rep E m h -> In e E -> el_type m' e = el_type m e.
Proof.
  intros [_ H] R I. unfold el_type, rd_u8. rewrite H; [reflexivity|lia|]. intros e' I'.
  destruct (Z.eq_dec e e') as [->|N]; [lia|]. destruct (rep_apart _ _ _ R e e' I I' N); lia.
Qed.
Lemma framed_id E m m' h e : framed E m m' -> rep E m h -> In e E -> el_id m' e = el_id m e.
Proof.
  intros [_ H] R I. unfold el_id, rd_s16. rewrite H; [reflexivity|lia|]. intros e' I'.
  destruct (Z.eq_dec e e') as [->|N]; [lia|]. destruct (rep_apart _ _ _ R e e' I I' N); lia.
Qed.

Lemma rep_int E m h e : rep E m h -> In e E -> int32 e.
Proof. intros R I. eapply rd_s32_range. exact (rep_off _ _ _ R e I). Qed.
Lemma rep_lint E m h e f : rep E m h -> In e E -> link f -> int32 (h e f).
Proof. intros R I F. eapply rd_s32_range. exact (rep_link _ _ _ R e f I F). Qed.
Lemma rep_next E m h e : rep E m h -> In e E -> el_next m e = Ok (h e 8).
Proof. intros R I. apply R; unfold link; auto. Qed.
Lemma rep_prev E m h e : rep E m h -> In e E -> el_prev m e = Ok (h e 12).
Proof. intros R I. apply R; unfold link; auto. Qed.
Lemma rep_child E m h e : rep E m h -> In e E -> el_child m e = Ok (h e 16).
Proof. intros R I. apply R; unfold link; auto. Qed.
Lemma rep_attr E m h e : rep E m h -> In e E -> el_attr m e = Ok (h e 20).
Proof. intros R I. apply R; unfold link; auto. Qed.
Lemma rep_bwe E m h e o : rep E m h -> In e E -> bwe m e o = Ok o.
Proof. intros R I. unfold bwe. rewrite (rep_off _ _ _ R e I). cbn [obind]. f_equal. lia. Qed.

Lemma rep_store E m h e f v : rep E m h -> In e E -> link f -> int32 v ->
  exists m', wr32 m (e + f) v = Ok m' /\ rep E m' (upd h e f v) /\ framed E m m'.
Proof.
  intros R I F V. destruct (rep_in _ _ _ R e I) as [P B]. unfold link in F.
  destruct (wr32_some m (e + f) v) as [m' W]; [lia..|]. exists m'. split; [exact W|].
  destruct (wr32_kept _ _ _ _ W V) as (_ & _ & K & G). split; [|eapply kept_framed; eauto].
  assert (O : forall e' f', In e' E -> link f' \/ f' = 0 -> (e' = e /\ f' = f) \/ e' + f' + 4 <= e + f \/ e + f + 4 <= e' + f').
  { intros e' f' I' F'. unfold link in F'. destruct (Z.eq_dec e' e) as [->|N]; [lia|]. destruct (rep_apart _ _ _ R e' e I' I N); lia. }
  constructor.
  - intros e' I'. rewrite (kept_len _ _ _ _ K). apply R; auto.
  - apply R.
  - intros e' I'. unfold el_offset. rewrite (kept_s32 _ _ _ _ e' K); [apply R; auto|]. destruct (O e' 0 I'); lia.
  - intros e' f' I' F'. unfold upd. destruct (O e' f' I' (or_introl F')) as [[-> ->]|D].
    + rewrite !Z.eqb_refl. exact G.
    + replace ((e' =? e) && (f' =? f)) with false by lia. rewrite (kept_s32 _ _ _ _ _ K) by lia. apply R; auto.
Qed.
(** A store elsewhere leaves the links. *)
Lemma rep_keep E m m' h p n : rep E m h -> kept m m' p n -> (forall e, In e E -> p + n <= e \/ e + 24 <= p \/ (e + 4 <= p /\ p + n <= e + 8)) -> rep E m' h.
Proof.
  intros R K D. constructor.
  - intros e I. rewrite (kept_len _ _ _ _ K). apply R; auto.
  - apply R.
  - intros e I. unfold el_offset. rewrite (kept_s32 _ _ _ _ e K); [apply R; auto|]. specialize (D e I). lia.
  - intros e f I F. rewrite (kept_s32 _ _ _ _ _ K); [apply R; auto|]. specialize (D e I). unfold link in F. lia.
Qed.
Lemma rep_ext E m h h' : rep E m h -> (forall e f, In e E -> link f -> h' e f = h e f) -> rep E m h'.
Proof. intros R X. destruct R. constructor; auto. intros e f I F. rewrite X; auto. Qed.

(** ** What the operations do to the links *)
Lemma upd_same h e f v : upd h e f v e f = v.
Proof. unfold upd. rewrite !Z.eqb_refl. reflexivity. Qed.
Lemma upd_other h e f v e' f' : e' <> e \/ f' <> f -> upd h e f v e' f' = h e' f'.
Proof. intro N. unfold upd. replace ((e' =? e) && (f' =? f)) with false by lia. reflexivity. Qed.

Ltac lnk := unfold link; auto.

Lemma join_rep E m h x b : rep E m h -> In x E -> In b E -> In (h x 12) E -> In (h b 12) E ->
  let h1 := upd h x 12 (h b 12) in let h2 := upd h1 b 12 (h x 12) in
  let h3 := upd h2 (h b 12) 8 x in let h4 := upd h3 (h x 12) 8 b in
  exists m1 m2 m3 m4, join m x b = Ok (true, [m1; m2; m3; m4]) /\
    rep E m1 h1 /\ rep E m2 h2 /\ rep E m3 h3 /\ rep E m4 h4 /\ framed E m m1 /\ framed E m m2 /\ framed E m m3 /\ framed E m m4.
Proof.
  intros R Ix Ib Ip Iq h1 h2 h3 h4.
  destruct (rep_store E m h x 12 (h b 12)) as (m1 & W1 & R1 & F1); [auto|auto|lnk|eapply rep_int; eauto|]. fold h1 in R1.
  destruct (rep_store E m1 h1 b 12 (h x 12)) as (m2 & W2 & R2 & F2); [auto|auto|lnk|eapply rep_int; eauto|]. fold h2 in R2.
  destruct (rep_store E m2 h2 (h b 12) 8 x) as (m3 & W3 & R3 & F3); [auto|auto|lnk|eapply rep_int; eauto|]. fold h3 in R3.
  destruct (rep_store E m3 h3 (h x 12) 8 b) as (m4 & W4 & R4 & F4); [auto|auto|lnk|eapply rep_int; eauto|]. fold h4 in R4.
  exists m1, m2, m3, m4. split; [|eauto 20 using framed_trans].
  unfold join. rewrite (rep_prev _ _ _ x R Ix), (rep_prev _ _ _ b R Ib), (rep_off _ _ _ R x Ix), (rep_off _ _ _ R b Ib). cbn [obind].
  destruct (rep_in _ _ _ R _ Ix), (rep_in _ _ _ R _ Ib), (rep_in _ _ _ R _ Ip), (rep_in _ _ _ R _ Iq).
  replace ((h x 12 =? 0) || (h b 12 =? 0) || (x =? 0) || (b =? 0)) with false by lia.
  rewrite W1. cbn [obind]. rewrite W2. cbn [obind]. rewrite (rep_bwe _ _ _ x _ R2 Ix), (rep_off _ _ _ R2 x Ix). cbn [obind].
  rewrite W3. cbn [obind]. rewrite (rep_bwe _ _ _ x _ R3 Ix), (rep_off _ _ _ R3 b Ib). cbn [obind]. rewrite W4. reflexivity.
Qed.

Definition field_of (k : bool) : Z := if k then 16 else 20.
Lemma list_field_of x f : list_field x f = x + field_of (is_element f).
Proof. unfold list_field, field_of. destruct (is_element f); reflexivity. Qed.
Lemma link_field k : link (field_of k).
Proof. unfold link, field_of. destruct k; auto. Qed.
Lemma field_not k : field_of k <> 8 /\ field_of k <> 12.
Proof. destruct k; cbn; lia. Qed.

Lemma add_first_rep E m h x t f : rep E m h -> In x E -> In t E -> el_flags m t = Ok f -> h x (field_of (is_element f)) = 0 ->
  exists m1, add m x t = Ok (true, [m1]) /\ rep E m1 (upd h x (field_of (is_element f)) t) /\ framed E m m1.
Proof.
  intros R Ix It Ef Z0. destruct (rep_store E m h x (field_of (is_element f)) t) as (m1 & W & R1 & F1); [auto|auto|apply link_field|eapply rep_int; eauto|].
  exists m1. split; [|auto]. unfold add. rewrite Ef. cbn [obind]. rewrite list_field_of, (rep_link _ _ _ R x _ Ix (link_field _)). cbn [obind].
  rewrite Z0. change (0 =? 0) with true. cbv iota. rewrite (rep_off _ _ _ R t It). cbn [obind]. rewrite W. reflexivity.
Qed.
Lemma add_join m x t f E h : rep E m h -> In x E -> el_flags m t = Ok f -> h x (field_of (is_element f)) <> 0 ->
  forall ok tr, join m (h x (field_of (is_element f))) t = Ok (ok, tr) -> add m x t = Ok (true, tr).
Proof.
  intros R Ix Ef NZ ok tr J. unfold add. rewrite Ef. cbn [obind]. rewrite list_field_of, (rep_link _ _ _ R x _ Ix (link_field _)). cbn [obind].
  replace (h x (field_of (is_element f)) =? 0) with false by lia. rewrite (rep_bwe _ _ _ x _ R Ix). cbn [obind]. rewrite J. reflexivity.
Qed.

Lemma remove_rep E m h x t f : rep E m h -> In x E -> In t E -> el_flags m t = Ok f -> In (h t 8) E -> In (h t 12) E ->
  let k := field_of (is_element f) in h x k <> 0 -> int32 (h x k) ->
  let h0 := if h x k =? t then upd h x k (if (h t 8 =? t) && (h t 12 =? t) then 0 else h t 8) else h in
  let h1 := upd h0 (h t 12) 8 (h t 8) in let h2 := upd h1 (h t 8) 12 (h t 12) in
  let h3 := upd h2 t 12 t in let h4 := upd h3 t 8 t in
  exists tr m5 m6, remove m x t = Ok (true, tr) /\ final m tr = m6 /\ rep E m6 h4 /\ framed E m m5 /\ wr m5 (t + 6) [Z.lor f BIN_DELETED] = Ok m6.
Proof.
  intros R Ix It Ef In8 In12 k NZ IK h0 h1 h2 h3 h4. assert (LK : link k) by apply link_field. destruct (field_not (is_element f)) as [K8 K12]. fold k in K8, K12.
  assert (S0 : exists tr, (if h x k =? t then n <- el_next m t ;; p <- el_prev m t ;;
                     m1 <- wr32 m (x + k) (if (n =? t) && (p =? t) then 0 else n) ;; Ok [m1] else Ok []) = Ok tr /\ rep E (final m tr) h0 /\ framed E m (final m tr)).
  { unfold h0. destruct (h x k =? t).
    - rewrite (rep_next _ _ _ t R It), (rep_prev _ _ _ t R It). cbn [obind].
      destruct (rep_store E m h x k (if (h t 8 =? t) && (h t 12 =? t) then 0 else h t 8)) as (m1 & W & R1 & F1); [auto|auto|auto| |].
      { destruct ((h t 8 =? t) && (h t 12 =? t)); [unfold int32; lia|eapply rep_int; eauto]. }
      rewrite W. cbn [obind]. exists [m1]. auto.
    - exists []. split; [reflexivity|]. split; [exact R|apply framed_refl]. }
  destruct S0 as (tr & T & R0 & F0). set (m0 := final m tr) in *.
  assert (E8 : h0 t 8 = h t 8) by (unfold h0; destruct (h x k =? t); [apply upd_other; auto|auto]).
  assert (E12 : h0 t 12 = h t 12) by (unfold h0; destruct (h x k =? t); [apply upd_other; auto|auto]).
  destruct (rep_store E m0 h0 (h t 12) 8 (h t 8)) as (m1 & W1 & R1 & F1); [auto|auto|lnk|eapply rep_int; eauto|]. fold h1 in R1.
  assert (E81 : h1 t 8 = h t 8). { unfold h1. destruct (Z.eq_dec t (h t 12)) as [E'|N]; [rewrite <- E'; apply upd_same|rewrite upd_other by auto; exact E8]. }
  assert (E121 : h1 t 12 = h t 12) by (unfold h1; rewrite upd_other by lia; exact E12).
  destruct (rep_store E m1 h1 (h t 8) 12 (h t 12)) as (m2 & W2 & R2 & F2); [auto|auto|lnk|eapply rep_int; eauto|]. fold h2 in R2.
  destruct (rep_store E m2 h2 t 12 t) as (m3 & W3 & R3 & F3); [auto|auto|lnk|eapply rep_int; eauto|]. fold h3 in R3.
  destruct (rep_store E m3 h3 t 8 t) as (m4 & W4 & R4 & F4); [auto|auto|lnk|eapply rep_int; eauto|]. fold h4 in R4.
  assert (FF : framed E m m4) by eauto using framed_trans.
  destruct (rep_in _ _ _ R4 t It) as [P4 B4].
  destruct (wr_some m4 (t + 6) [Z.lor f BIN_DELETED]) as [m5 W5]; [lia|change (zlen [Z.lor f BIN_DELETED]) with 1; lia|].
  destruct (wr_kept _ _ _ _ W5) as (_ & _ & K5 & _). change (zlen [Z.lor f BIN_DELETED]) with 1 in K5.
  exists (tr ++ [m1; m2; m3; m4; m5]), m4, m5. split; [|split; [|split; [|split; [exact FF|exact W5]]]].
  - unfold remove. rewrite Ef. cbn [obind]. rewrite list_field_of. fold k. rewrite (rep_link _ _ _ R x k Ix LK). cbn [obind].
    replace (h x k =? 0) with false by lia. rewrite (rep_off _ _ _ R t It). cbn [obind]. rewrite T. cbn [obind]. fold m0.
    rewrite (rep_prev _ _ _ t R0 It), (rep_next _ _ _ t R0 It), E8, E12. cbn [obind]. rewrite (rep_bwe _ _ _ x _ R0 Ix). cbn [obind]. rewrite W1. cbn [obind].
    rewrite (rep_prev _ _ _ t R1 It), (rep_next _ _ _ t R1 It), E81, E121. cbn [obind]. rewrite (rep_bwe _ _ _ x _ R1 Ix). cbn [obind]. rewrite W2. cbn [obind].
    rewrite (rep_off _ _ _ R2 t It). cbn [obind]. rewrite W3. cbn [obind]. rewrite W4. cbn [obind].
    rewrite (framed_flags E m m4 h t FF R It), Ef. cbn [obind]. rewrite W5. reflexivity.
  - unfold final. change [m1; m2; m3; m4; m5] with ([m1; m2; m3; m4] ++ [m5]). rewrite app_assoc. apply last_last.
  - apply (rep_keep E m4 m5 h4 (t + 6) 1); auto. intros e I. destruct (Z.eq_dec e t) as [->|N]; [lia|]. destruct (rep_apart _ _ _ R e t I It N); lia.
Qed.

Lemma replace_rep E m h x old new f : rep E m h -> In x E -> In old E -> In new E -> old <> new -> h new 8 = new -> h new 12 = new ->
  In (h old 8) E -> In (h old 12) E -> h old 8 <> new -> h old 12 <> new -> el_flags m old = Ok f ->
  let h1 := upd h new 8 (h old 8) in let h2 := upd h1 new 12 (h old 12) in
  let h3 := upd h2 (h old 8) 12 new in let h4 := upd h3 (h old 12) 8 new in
  let h6 := upd h4 old 12 old in let h7 := upd h6 old 8 old in
  let h8 := if h x 16 =? old then upd h7 x 16 new else h7 in
  let h9 := if h x 20 =? old then upd h8 x 20 new else h8 in
  exists tr m4 m5, replace m x old new = Ok (true, tr) /\ rep E (final m tr) h9 /\
    framed E m m4 /\ wr m4 (old + 6) [Z.lor f BIN_DELETED] = Ok m5 /\ framed E m5 (final m tr).
Proof.
  intros R Ix Io In' ON N8 N12 I8 I12 O8 O12 Ef h1 h2 h3 h4 h6 h7 h8 h9.
  assert (II : int32 new) by (eapply rep_int; eauto). assert (IO : int32 old) by (eapply rep_int; eauto).
  destruct (rep_store E m h new 8 (h old 8)) as (m1 & W1 & R1 & F1); [auto|auto|lnk|eapply rep_int; eauto|]. fold h1 in R1.
  assert (A1 : h1 old 12 = h old 12) by (unfold h1; apply upd_other; auto).
  destruct (rep_store E m1 h1 new 12 (h old 12)) as (m2 & W2 & R2 & F2); [auto|auto|lnk|eapply rep_int; eauto|]. fold h2 in R2.
  assert (A2 : h2 new 8 = h old 8) by (unfold h2; rewrite upd_other by lia; apply upd_same).
  destruct (rep_store E m2 h2 (h old 8) 12 new) as (m3 & W3 & R3 & F3); [auto|auto|lnk|auto|]. fold h3 in R3.
  assert (A3 : h3 new 12 = h old 12) by (unfold h3; rewrite upd_other by lia; apply upd_same).
  destruct (rep_store E m3 h3 (h old 12) 8 new) as (m4 & W4 & R4 & F4); [auto|auto|lnk|auto|]. fold h4 in R4.
  assert (FF : framed E m m4) by eauto using framed_trans.
  destruct (rep_in _ _ _ R4 old Io) as [P4 B4].
  destruct (wr_some m4 (old + 6) [Z.lor f BIN_DELETED]) as [m5 W5]; [lia|change (zlen [Z.lor f BIN_DELETED]) with 1; lia|].
  destruct (wr_kept _ _ _ _ W5) as (_ & _ & K5 & _). change (zlen [Z.lor f BIN_DELETED]) with 1 in K5.
  assert (R5 : rep E m5 h4). { apply (rep_keep E m4 m5 h4 (old + 6) 1); auto. intros e I. destruct (Z.eq_dec e old) as [->|N]; [lia|]. destruct (rep_apart _ _ _ R e old I Io N); lia. }
  destruct (rep_store E m5 h4 old 12 old) as (m6 & W6 & R6 & F6); [auto|auto|lnk|auto|]. fold h6 in R6.
  destruct (rep_store E m6 h6 old 8 old) as (m7 & W7 & R7 & F7); [auto|auto|lnk|auto|]. fold h7 in R7.
  assert (G : forall f', f' = 16 \/ f' = 20 -> h7 x f' = h x f').
  { intros f' D. unfold h7, h6, h4, h3, h2, h1. rewrite !upd_other by lia. reflexivity. }
  assert (S8 : exists tr, (if h x 16 =? old then no <- el_offset m7 new ;; m8 <- wr32 m7 (x + 16) no ;; Ok [m8] else Ok []) = Ok tr /\ rep E (final m7 tr) h8 /\ framed E m7 (final m7 tr)).
  { unfold h8. destruct (h x 16 =? old).
    - rewrite (rep_off _ _ _ R7 new In'). cbn [obind].
      destruct (rep_store E m7 h7 x 16 new) as (m8 & W & R8 & F8); [auto|auto|lnk|auto|]. rewrite W. cbn [obind]. exists [m8]. auto.
    - exists []. split; [reflexivity|]. split; [exact R7|apply framed_refl]. }
  destruct S8 as (tr & T & R8 & F8). set (m8 := final m7 tr) in *.
  assert (G8 : h8 x 20 = h x 20). { unfold h8. destruct (h x 16 =? old); [rewrite upd_other by lia|]; apply G; auto. }
  assert (S9 : exists tr, (if h x 20 =? old then no <- el_offset m8 new ;; m9 <- wr32 m8 (x + 20) no ;; Ok [m9] else Ok []) = Ok tr /\ rep E (final m8 tr) h9 /\ framed E m8 (final m8 tr)).
  { unfold h9. destruct (h x 20 =? old).
    - rewrite (rep_off _ _ _ R8 new In'). cbn [obind].
      destruct (rep_store E m8 h8 x 20 new) as (m9 & W & R9 & F9); [auto|auto|lnk|auto|]. rewrite W. cbn [obind]. exists [m9]. auto.
    - exists []. split; [reflexivity|]. split; [exact R8|apply framed_refl]. }
  destruct S9 as (tr' & T' & R9 & F9).
  assert (FIN : final m ([m1; m2; m3; m4; m5; m6; m7] ++ tr ++ tr') = final m8 tr').
  { unfold m8, final. destruct tr' as [|y tr'].
    - rewrite app_nil_r. destruct tr as [|z tr]; [reflexivity|]. generalize [m1; m2; m3; m4; m5; m6; m7]. intro pre. clear. revert m m7 z pre. 
      induction tr as [|w tr IH] using rev_ind; intros; [cbn; rewrite last_last; reflexivity|].
      change (z :: tr ++ [w]) with ((z :: tr) ++ [w]). rewrite app_assoc, !last_last. reflexivity.
    - generalize [m1; m2; m3; m4; m5; m6; m7]. intro pre. clear. revert pre tr m m7 y. induction tr' as [|w tr' IH] using rev_ind; intros.
      + rewrite app_assoc, !last_last. reflexivity.
      + change (y :: tr' ++ [w]) with ((y :: tr') ++ [w]). rewrite !app_assoc, !last_last. reflexivity. }
  exists ([m1; m2; m3; m4; m5; m6; m7] ++ tr ++ tr'), m4, m5. rewrite FIN. split; [|split; [exact R9|split; [exact FF|split; [exact W5|]]]].
  - unfold replace. rewrite (rep_next _ _ _ new R In'), (rep_prev _ _ _ new R In'), (rep_off _ _ _ R new In'), (rep_off _ _ _ R old Io). cbn [obind].
    rewrite N8, N12. rewrite !Z.eqb_refl. replace (new - new =? old - old) with true by lia. cbn [negb orb].
    rewrite (rep_next _ _ _ old R Io). cbn [obind]. rewrite W1. cbn [obind]. rewrite (rep_prev _ _ _ old R1 Io), A1. cbn [obind]. rewrite W2. cbn [obind].
    rewrite (rep_next _ _ _ new R2 In'), A2. cbn [obind]. rewrite (rep_bwe _ _ _ x _ R2 Ix), (rep_off _ _ _ R2 new In'). cbn [obind]. rewrite W3. cbn [obind].
    rewrite (rep_prev _ _ _ new R3 In'), A3. cbn [obind]. rewrite (rep_bwe _ _ _ x _ R3 Ix), (rep_off _ _ _ R3 new In'). cbn [obind]. rewrite W4. cbn [obind].
    rewrite (framed_flags E m m4 h old FF R Io), Ef. cbn [obind]. rewrite W5. cbn [obind]. rewrite (rep_off _ _ _ R5 old Io). cbn [obind].
    rewrite W6. cbn [obind]. rewrite W7. cbn [obind]. rewrite (rep_child _ _ _ x R7 Ix), (rep_off _ _ _ R7 old Io), (G 16) by auto. cbn [obind].
    rewrite T. cbn [obind]. fold m8. rewrite (rep_attr _ _ _ x R8 Ix), (rep_off _ _ _ R8 old Io), G8. cbn [obind]. rewrite T'. reflexivity.
  - eauto using framed_trans.
Qed.
