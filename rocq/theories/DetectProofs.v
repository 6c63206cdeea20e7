(** Type detection of canonical texts. *)
From Verif Require Import Base BaseFacts NumSpec CalSpec Scan ScanProofs Base64 Dates DatesProofs
  Types ScalarSpec ListFacts ChunkProofs ScalarProofs RingProofs.

Lemma Detect_plain value : value <> [] -> ~ In 120 value ->
  XBT_Detect value = decide 0 (zlen value) value (fold_left count_char value counters0).
Proof.
  intros Hne Hx. unfold XBT_Detect. destruct value as [|c r]; [contradiction|]. set (v := c :: r) in *.
  assert (E : (nth 0 v 0 =? 48) && (nth 1 v 0 =? 120) = false).
  { apply andb_false_intro2. apply Z.eqb_neq. intros E. apply Hx. rewrite <- E.
    destruct (Nat.lt_ge_cases 1 (List.length v)) as [H|H]; [apply nth_In, H|].
    rewrite nth_overflow in E by assumption. discriminate E. }
  rewrite E. reflexivity.
Qed.

Lemma fold_digits ds : forall dg dc hx ng dt dsh co ot ex sp wh ep ov X EX,
  Forall digit ds -> 0 <= X -> dval X ds < 18446744073709551616 ->
  exists EX', fold_left count_char ds (mkcnt dg dc hx ng dt dsh co ot ex sp wh ep ov X EX) =
    mkcnt (dg + zlen ds) (if 0 <? dt then dc + zlen ds else dc) hx ng dt dsh co ot ex sp wh ep ov (dval X ds) EX'.
Proof.
  induction ds as [|c ds IH]; intros dg dc hx ng dt dsh co ot ex sp wh ep ov X EX Hd HX Hb.
  - exists EX. cbn [fold_left]. change (zlen (@nil Z)) with 0. unfold dval. cbn [fold_left].
    f_equal; [lia|]. destruct (0 <? dt); lia.
  - inversion Hd as [|? ? Hc Hds]; subst. unfold digit in Hc. cbn [fold_left].
    assert (Hstep : dval X (c :: ds) = dval (X * 10 + (c - 48)) ds) by reflexivity.
    rewrite Hstep in *.
    assert (Hge : X * 10 + (c - 48) <= dval (X * 10 + (c - 48)) ds).
    { rewrite dval_acc. pose proof (dec_value_bound ds Hds). pose proof (pow10_pos (zlen ds) (zlen_nonneg ds)). nia. }
    assert (E : count_char (mkcnt dg dc hx ng dt dsh co ot ex sp wh ep ov X EX) c =
      mkcnt (dg + 1) (if 0 <? dt then dc + 1 else dc) hx ng dt dsh co ot ex sp wh ep ov (X * 10 + (c - 48)) (u64 (EX * 10 + (c - 48)))).
    { unfold count_char. destruct (Z.eqb_spec c 45); [lia|].
      assert ((48 <=? c) && (c <=? 57) = true) as -> by lia.
      replace (u64 (X * 10 + (c - 48))) with (X * 10 + (c - 48)) by (unfold u64; lia).
      destruct (Z.ltb_spec (X * 10 + (c - 48)) X); [lia|]. reflexivity. }
    rewrite E. destruct (IH (dg + 1) (if 0 <? dt then dc + 1 else dc) hx ng dt dsh co ot ex sp wh ep ov (X * 10 + (c - 48)) (u64 (EX * 10 + (c - 48))) Hds ltac:(lia) Hb) as [EX' ->].
    exists EX'. rewrite zlen_cons. f_equal; [lia|]. destruct (0 <? dt); lia.
Qed.

Lemma dval_bound X ds n : 0 <= X -> Forall digit ds -> (X + 1) * 10 ^ zlen ds <= n -> dval X ds < n.
Proof.
  intros HX Hd H. rewrite dval_acc. pose proof (dec_value_bound ds Hd). pose proof (pow10_pos (zlen ds) (zlen_nonneg ds)). nia.
Qed.

Lemma digits_no_x ds : Forall digit ds -> ~ In 120 ds.
Proof. intros H Hin. rewrite Forall_forall in H. apply H in Hin. unfold digit in Hin. lia. Qed.

Ltac dec_false := match goal with |- (if ?c then _ else _) = _ =>
  let H := fresh in assert (H : c = false) by lia; rewrite H; clear H end.
Ltac dec_true := match goal with |- (if ?c then _ else _) = _ =>
  let H := fresh in assert (H : c = true) by lia; rewrite H; clear H end.

Lemma negb_false_ : negb false = true. Proof. reflexivity. Qed.

(** ** Integers *)

(** Detection of a decimal integer text. *)
Definition int_class (neg : bool) (x : Z) : Z :=
  if neg then (if x <=? 2147483648 then XBT_INT32 else XBT_INT64)
  else if x <=? 2147483647 then XBT_INT32
  else if x <=? 4294967295 then XBT_UINT32
  else if x <=? 9223372036854775807 then XBT_INT64 else XBT_UINT64.

Lemma detect_integer (neg : bool) ds : ds <> [] -> Forall digit ds -> zlen ds <= 19 ->
  XBT_Detect ((if neg then [45] else []) ++ ds) = int_class neg (dec_value ds).
Proof.
  intros Hne Hd Hl.
  assert (Hlen : 1 <= zlen ds) by (destruct ds; [contradiction|rewrite zlen_cons; pose proof (zlen_nonneg ds); lia]).
  pose proof (dec_value_bound ds Hd) as Hv.
  assert (Hp : 10 ^ zlen ds <= 10000000000000000000).
  { change 10000000000000000000 with (10 ^ 19). apply Z.pow_le_mono_r; lia. }
  rewrite Detect_plain.
  2: { destruct neg; [discriminate|exact Hne]. }
  2: { intros Hin. apply in_app_or in Hin. destruct Hin as [Hin|Hin]; [|apply (digits_no_x ds Hd Hin)].
       destruct neg; cbn [In] in Hin; [destruct Hin as [Hin|[]]; lia|exact Hin]. }
  set (v := _ ++ ds). unfold v at 3. rewrite fold_left_app.
  assert (E : exists EX', fold_left count_char ds (fold_left count_char (if neg then [45] else []) counters0) =
     mkcnt (0 + zlen ds) 0 0 (if neg then 1 else 0) 0 (if neg then 1 else 0) 0 0 0 0 0 (-1) false (dec_value ds) EX').
  { change (dec_value ds) with (dval 0 ds).
    destruct neg.
    - change (fold_left count_char [45] counters0) with (mkcnt 0 0 0 1 0 1 0 0 0 0 0 (-1) false 0 0).
      apply (fold_digits ds 0 0 0 1 0 1 0 0 0 0 0 (-1) false 0 0 Hd ltac:(lia)). rewrite dval_acc. lia.
    - apply (fold_digits ds 0 0 0 0 0 0 0 0 0 0 0 (-1) false 0 0 Hd ltac:(lia)). rewrite dval_acc. lia. }
  destruct E as [EX' ->].
  assert (Hzv : zlen v = (if neg then 1 else 0) + zlen ds).
  { unfold v. rewrite zlen_app. destruct neg; reflexivity. }
  unfold decide. cbv zeta. rewrite shr_div by lia. change (2 ^ 32) with 4294967296. unfold int_class.
  generalize (nth 4 v 0). intros a4. generalize (nth 7 v 0). intros a7.
  destruct neg; (dec_false; dec_false; dec_true).
  - destruct (Z.leb_spec (dec_value ds) 2147483648).
    + dec_false. dec_true. reflexivity.
    + dec_false. dec_false. dec_false. dec_false. reflexivity.
  - destruct (Z.leb_spec (dec_value ds) 2147483647).
    + dec_true. reflexivity.
    + dec_false. dec_false. destruct (Z.leb_spec (dec_value ds) 4294967295).
      * dec_true. reflexivity.
      * dec_false. destruct (Z.leb_spec (dec_value ds) 9223372036854775807).
        -- dec_false. reflexivity.
        -- dec_true. reflexivity.
Qed.

Lemma detect_sdec n : -10 ^ 19 < n < 10 ^ 19 -> XBT_Detect (sdec n) = int_class (n <? 0) (Z.abs n).
Proof.
  intros Hn. unfold sdec. destruct (Z.ltb_spec n 0).
  - pose proof (detect_integer true (udec (- n)) (udec_nonempty (- n) ltac:(lia)) (udec_digits (- n) ltac:(lia)) (udec_len (- n) 19 ltac:(lia) ltac:(lia))) as H1.
    rewrite udec_value in H1 by lia. replace (Z.abs n) with (- n) by lia. exact H1.
  - pose proof (detect_integer false (udec n) (udec_nonempty n ltac:(lia)) (udec_digits n ltac:(lia)) (udec_len n 19 ltac:(lia) ltac:(lia))) as H1.
    rewrite udec_value in H1 by lia. replace (Z.abs n) with n by lia. exact H1.
Qed.

(** ** Decimal fractions *)

Lemma detect_fixed ty k (neg : bool) ip fp :
  In (ty, k) fixed_types -> ip <> [] -> Forall digit ip -> Forall digit fp -> zlen fp = k -> zlen ip <= 10 ->
  dec_value (ip ++ fp) <= 2147483647 ->
  XBT_Detect ((if neg then [45] else []) ++ ip ++ [46] ++ fp) = ty.
Proof.
  intros Hin Hne Hip Hfp Hk Hl Hv.
  assert (Hlen : 1 <= zlen ip) by (destruct ip; [contradiction|rewrite zlen_cons; pose proof (zlen_nonneg ip); lia]).
  pose proof (fixed_k _ _ Hin) as Hk9.
  rewrite Detect_plain.
  2: { destruct neg; [discriminate|]. destruct ip; [contradiction|discriminate]. }
  2: { intros H. apply in_app_or in H. destruct H as [H|H].
       { destruct neg; cbn [In] in H; [destruct H as [H|[]]; lia|exact H]. }
       apply in_app_or in H. destruct H as [H|H]; [apply (digits_no_x ip Hip H)|].
       cbn [app] in H. destruct H as [H|H]; [lia|apply (digits_no_x fp Hfp H)]. }
  set (v := _ ++ ip ++ [46] ++ fp). unfold v at 3. rewrite !fold_left_app.
  assert (Hval : dval (dec_value ip) fp = dec_value (ip ++ fp)) by (rewrite dval_acc, dec_value_app; reflexivity).
  pose proof (dec_value_bound ip Hip) as Hbi. pose proof (dec_value_bound fp Hfp) as Hbf.
  assert (Hle : dec_value ip <= dec_value (ip ++ fp)).
  { rewrite dec_value_app. pose proof (pow10_pos (zlen fp) (zlen_nonneg fp)). nia. }
  assert (E : exists EX', fold_left count_char fp (fold_left count_char [46] (fold_left count_char ip (fold_left count_char (if neg then [45] else []) counters0))) =
     mkcnt (0 + zlen ip + zlen fp) (0 + zlen fp) 0 (if neg then 1 else 0) 1 (if neg then 1 else 0) 0 0 0 0 0 (-1) false (dec_value (ip ++ fp)) EX').
  { assert (E1 : exists EX', fold_left count_char ip (fold_left count_char (if neg then [45] else []) counters0) =
      mkcnt (0 + zlen ip) 0 0 (if neg then 1 else 0) 0 (if neg then 1 else 0) 0 0 0 0 0 (-1) false (dec_value ip) EX').
    { change (dec_value ip) with (dval 0 ip). destruct neg.
      - apply (fold_digits ip 0 0 0 1 0 1 0 0 0 0 0 (-1) false 0 0 Hip ltac:(lia)). rewrite dval_acc. lia.
      - apply (fold_digits ip 0 0 0 0 0 0 0 0 0 0 0 (-1) false 0 0 Hip ltac:(lia)). rewrite dval_acc. lia. }
    destruct E1 as [EX1 ->]. cbn [fold_left].
    change (count_char (mkcnt (0 + zlen ip) 0 0 (if neg then 1 else 0) 0 (if neg then 1 else 0) 0 0 0 0 0 (-1) false (dec_value ip) EX1) 46)
      with (mkcnt (0 + zlen ip) 0 0 (if neg then 1 else 0) 1 (if neg then 1 else 0) 0 0 0 0 0 (-1) false (dec_value ip) EX1).
    destruct (fold_digits fp (0 + zlen ip) 0 0 (if neg then 1 else 0) 1 (if neg then 1 else 0) 0 0 0 0 0 (-1) false (dec_value ip) EX1 Hfp ltac:(lia) ltac:(lia)) as [EX2 E2].
    exists EX2. rewrite E2, Hval. reflexivity. }
  destruct E as [EX' ->].
  assert (Hzv : zlen v = (if neg then 1 else 0) + zlen ip + 1 + zlen fp).
  { unfold v. rewrite !zlen_app. change (zlen [46]) with 1. destruct neg; [change (zlen [45]) with 1|change (zlen (@nil Z)) with 0]; lia. }
  assert (Hnn : 0 <= dec_value (ip ++ fp)) by lia.
  unfold decide. cbv zeta. 
  assert (Hfin : (if (0 + zlen fp =? 1) then Some XBT_INT32_DECI
         else if 0 + zlen fp =? 2 then Some XBT_INT32_CENTI
         else if 0 + zlen fp =? 3 then Some XBT_INT32_MILI
         else if 0 + zlen fp <=? 6 then Some XBT_INT32_MICRO
         else if 0 + zlen fp <=? 9 then Some XBT_INT32_NANO
         else None) = Some ty).
  { rewrite Hk. unfold fixed_types in Hin. cbn [In] in Hin.
    destruct Hin as [E|[E|[E|[E|[E|[]]]]]]; inversion E; subst ty k; reflexivity. }
  assert (Hne10 : (zlen v =? 10) && (0 + zlen ip + zlen fp =? 8) && (nth 4 v 0 =? 45) && (nth 7 v 0 =? 45) = false).
  { destruct ((zlen v =? 10) && (0 + zlen ip + zlen fp =? 8)) eqn:E10; [|reflexivity].
    destruct neg; [|lia].
    destruct (nth 4 v 0 =? 45) eqn:E4; [|reflexivity]. exfalso.
    assert (Hlt : (4 < List.length v)%nat) by (unfold zlen in E10; lia).
    assert (Hin4 : nth 3 (ip ++ [46] ++ fp) 0 = 45) by (unfold v in E4; cbn [app nth] in E4; apply Z.eqb_eq, E4).
    assert (Hin5 : In 45 (ip ++ [46] ++ fp)).
    { rewrite <- Hin4. apply nth_In. unfold v in Hlt. cbn [app List.length] in Hlt. cbn [app]. lia. }
    apply in_app_or in Hin5. rewrite Forall_forall in Hip, Hfp. unfold digit in *.
    destruct Hin5 as [H5|H5]; [apply Hip in H5; lia|]. cbn [app In] in H5. destruct H5 as [H5|H5]; [lia|apply Hfp in H5; lia]. }
  rewrite Hne10.
  dec_false. dec_false.
  match goal with |- context [if ?c then (if 0 + zlen fp =? 1 then _ else _) else None] => assert (Hc : c = true) by (destruct neg; lia); rewrite Hc end.
  rewrite Hfin. reflexivity.
Qed.

(** ** Texts made of digit groups *)

Lemma fold_digits' ds m : forall dg dc hx ng dt dsh co ot ex sp wh ep X EX,
  Forall digit ds -> 0 <= m -> 0 <= X < 10 ^ m -> m + zlen ds <= 19 ->
  exists X' EX', fold_left count_char ds (mkcnt dg dc hx ng dt dsh co ot ex sp wh ep false X EX) =
    mkcnt (dg + zlen ds) (if 0 <? dt then dc + zlen ds else dc) hx ng dt dsh co ot ex sp wh ep false X' EX' /\
    0 <= X' < 10 ^ (m + zlen ds).
Proof.
  intros dg dc hx ng dt dsh co ot ex sp wh ep X EX Hd Hm HX Hl.
  pose proof (zlen_nonneg ds). pose proof (dec_value_bound ds Hd) as Hb. pose proof (pow10_pos (zlen ds) ltac:(lia)) as Hp.
  assert (HB : 0 <= dval X ds < 10 ^ (m + zlen ds)).
  { rewrite dval_acc, Z.pow_add_r by lia. nia. }
  assert (H64 : 10 ^ (m + zlen ds) <= 10000000000000000000).
  { change 10000000000000000000 with (10 ^ 19). apply Z.pow_le_mono_r; lia. }
  destruct (fold_digits ds dg dc hx ng dt dsh co ot ex sp wh ep false X EX Hd ltac:(lia) ltac:(lia)) as [EX' ->].
  exists (dval X ds), EX'. split; [reflexivity|exact HB].
Qed.

(** Runs of digits joined by separators. *)
Definition group (n : Z) (t : list Z) : Prop := Forall digit t /\ zlen t = n.

Lemma group_no_x n t : group n t -> ~ In 120 t.
Proof. intros [H _]. apply digits_no_x, H. Qed.

Lemma fmt0_group w v : 0 <= v < 10 ^ w -> 1 <= w -> group w (fmt0 w v).
Proof. intros H1 H2. destruct (udec_fmt0_value w v H1 H2) as (_ & A & B). split; assumption. Qed.

Lemma detect_ipv4 a b c d : 0 <= a < 256 -> 0 <= b < 256 -> 0 <= c < 256 -> 0 <= d < 256 -> XBT_Detect (quad a b c d) = XBT_IPv4.
Proof.
  intros Ha Hb Hc Hd.
  assert (Hu : forall x, 0 <= x < 256 -> Forall digit (udec x) /\ 1 <= zlen (udec x) <= 3).
  { intros x Hx. split; [apply udec_digits; lia|]. pose proof (udec_len x 3). change (10 ^ 3) with 1000 in *.
    pose proof (udec_nonempty x ltac:(lia)). destruct (udec x); [contradiction|]. rewrite zlen_cons in *. pose proof (zlen_nonneg l). lia. }
  destruct (Hu a Ha) as [Da La]. destruct (Hu b Hb) as [Db Lb]. destruct (Hu c Hc) as [Dc Lc]. destruct (Hu d Hd) as [Dd Ld].
  rewrite Detect_plain.
  2: { unfold quad. destruct (udec a); discriminate. }
  2: { unfold quad. intros H. repeat (apply in_app_or in H; destruct H as [H|H]);
       try (eapply digits_no_x; [|exact H]; assumption); cbn [In] in H; destruct H as [H|[]]; lia. }
  assert (Hz : zlen (quad a b c d) = zlen (udec a) + zlen (udec b) + zlen (udec c) + zlen (udec d) + 3).
  { unfold quad. rewrite !zlen_app. change (zlen [46]) with 1. lia. }
  generalize (quad a b c d) at 2. intros v.
  unfold quad at 2. rewrite !fold_left_app. cbn [fold_left].
  destruct (fold_digits' (udec a) 0 0 0 0 0 0 0 0 0 0 0 0 (-1) 0 0 Da ltac:(lia) ltac:(change (10 ^ 0) with 1; lia) ltac:(lia)) as (X1 & E1 & F1 & B1).
  unfold counters0. rewrite F1. change (if 0 <? 0 then 0 + zlen (udec a) else 0) with 0.
  change (count_char (mkcnt (0 + zlen (udec a)) 0 0 0 0 0 0 0 0 0 0 (-1) false X1 E1) 46) with (mkcnt (0 + zlen (udec a)) 0 0 0 1 0 0 0 0 0 0 (-1) false X1 E1).
  match goal with |- context [fold_left count_char (udec b) (mkcnt ?dg ?dc ?hx ?ng ?dt ?dsh ?co ?ot ?ex ?sp ?wh ?ep false ?X ?EX)] =>
    destruct (fold_digits' (udec b) (0 + zlen (udec a)) dg dc hx ng dt dsh co ot ex sp wh ep X EX Db ltac:(lia) ltac:(lia) ltac:(lia)) as (X2 & E2 & F2 & B2); rewrite F2 end.
  match goal with |- context [count_char (mkcnt ?dg ?dc ?hx ?ng 1 ?dsh ?co ?ot ?ex ?sp ?wh ?ep false ?X ?EX) 46] =>
    change (count_char (mkcnt dg dc hx ng 1 dsh co ot ex sp wh ep false X EX) 46) with (mkcnt dg dc hx ng 2 dsh co ot ex sp wh ep false X EX) end.
  match goal with |- context [fold_left count_char (udec c) (mkcnt ?dg ?dc ?hx ?ng ?dt ?dsh ?co ?ot ?ex ?sp ?wh ?ep false ?X ?EX)] =>
    destruct (fold_digits' (udec c) (0 + zlen (udec a) + zlen (udec b)) dg dc hx ng dt dsh co ot ex sp wh ep X EX Dc ltac:(lia) ltac:(lia) ltac:(lia)) as (X3 & E3 & F3 & B3); rewrite F3 end.
  match goal with |- context [count_char (mkcnt ?dg ?dc ?hx ?ng 2 ?dsh ?co ?ot ?ex ?sp ?wh ?ep false ?X ?EX) 46] =>
    change (count_char (mkcnt dg dc hx ng 2 dsh co ot ex sp wh ep false X EX) 46) with (mkcnt dg dc hx ng 3 dsh co ot ex sp wh ep false X EX) end.
  match goal with |- context [fold_left count_char (udec d) (mkcnt ?dg ?dc ?hx ?ng ?dt ?dsh ?co ?ot ?ex ?sp ?wh ?ep false ?X ?EX)] =>
    destruct (fold_digits' (udec d) (0 + zlen (udec a) + zlen (udec b) + zlen (udec c)) dg dc hx ng dt dsh co ot ex sp wh ep X EX Dd ltac:(lia) ltac:(lia) ltac:(lia)) as (X4 & E4 & F4 & B4); rewrite F4 end.
  unfold decide. cbv zeta. dec_true. reflexivity.
Qed.

(** Counters of "YYYY-MM-DD". *)
Lemma fold_date y m d : group 4 y -> group 2 m -> group 2 d ->
  exists X EX, fold_left count_char (y ++ [45] ++ m ++ [45] ++ d) counters0 = mkcnt 8 0 0 2 0 2 0 0 0 0 0 (-1) false X EX /\ 0 <= X < 10 ^ 8.
Proof.
  intros [Dy Ly] [Dm Lm] [Dd Ld]. rewrite !fold_left_app. cbn [fold_left].
  destruct (fold_digits' y 0 0 0 0 0 0 0 0 0 0 0 0 (-1) 0 0 Dy ltac:(lia) ltac:(change (10 ^ 0) with 1; lia) ltac:(lia)) as (X1 & E1 & F1 & B1).
  unfold counters0. rewrite F1, Ly. rewrite Ly in B1.
  change (count_char (mkcnt (0 + 4) (if 0 <? 0 then 0 + 4 else 0) 0 0 0 0 0 0 0 0 0 (-1) false X1 E1) 45) with (mkcnt 4 0 0 1 0 1 0 0 0 0 0 (-1) false X1 E1).
  destruct (fold_digits' m 4 4 0 0 1 0 1 0 0 0 0 0 (-1) X1 E1 Dm ltac:(lia) B1 ltac:(lia)) as (X2 & E2 & F2 & B2).
  rewrite F2, Lm. rewrite Lm in B2.
  change (count_char (mkcnt (4 + 2) (if 0 <? 0 then 0 + 2 else 0) 0 1 0 1 0 0 0 0 0 (-1) false X2 E2) 45) with (mkcnt 6 0 0 2 0 2 0 0 0 0 0 (-1) false X2 E2).
  destruct (fold_digits' d 6 6 0 0 2 0 2 0 0 0 0 0 (-1) X2 E2 Dd ltac:(lia) B2 ltac:(lia)) as (X3 & E3 & F3 & B3).
  rewrite F3, Ld. rewrite Ld in B3. exists X3, E3. split; [reflexivity|exact B3].
Qed.

(** Counters of "hh:mm:ss" behind [s0]. *)
Lemma fold_clock h m s X0 EX0 sp wh ot dg0 : group 2 h -> group 2 m -> group 2 s -> 0 <= X0 < 10 ^ 8 ->
  exists X EX, fold_left count_char (h ++ [58] ++ m ++ [58] ++ s) (mkcnt dg0 0 0 2 0 2 0 ot 0 sp wh (-1) false X0 EX0)
     = mkcnt (dg0 + 2 + 2 + 2) 0 0 2 0 2 2 ot 0 sp wh (-1) false X EX /\ 0 <= X < 10 ^ 14.
Proof.
  intros [Dy Ly] [Dm Lm] [Dd Ld] HX. rewrite !fold_left_app. cbn [fold_left].
  destruct (fold_digits' h 8 dg0 0 0 2 0 2 0 ot 0 sp wh (-1) X0 EX0 Dy ltac:(lia) HX ltac:(lia)) as (X1 & E1 & F1 & B1).
  rewrite F1, Ly. rewrite Ly in B1.
  change (count_char (mkcnt (dg0 + 2) (if 0 <? 0 then 0 + 2 else 0) 0 2 0 2 0 ot 0 sp wh (-1) false X1 E1) 58) with (mkcnt (dg0 + 2) 0 0 2 0 2 1 ot 0 sp wh (-1) false X1 E1).
  destruct (fold_digits' m 10 (dg0 + 2) 0 0 2 0 2 1 ot 0 sp wh (-1) X1 E1 Dm ltac:(lia) B1 ltac:(lia)) as (X2 & E2 & F2 & B2).
  rewrite F2, Lm. rewrite Lm in B2.
  change (count_char (mkcnt (dg0 + 2 + 2) (if 0 <? 0 then 0 + 2 else 0) 0 2 0 2 1 ot 0 sp wh (-1) false X2 E2) 58) with (mkcnt (dg0 + 2 + 2) 0 0 2 0 2 2 ot 0 sp wh (-1) false X2 E2).
  destruct (fold_digits' s 12 (dg0 + 2 + 2) 0 0 2 0 2 2 ot 0 sp wh (-1) X2 E2 Dd ltac:(lia) B2 ltac:(lia)) as (X3 & E3 & F3 & B3).
  rewrite F3, Ld. rewrite Ld in B3. exists X3, E3. split; [reflexivity|exact B3].
Qed.

Lemma len_list (l : list Z) n : zlen l = Z.of_nat n -> List.length l = n.
Proof. unfold zlen. lia. Qed.

Ltac explode l H := apply len_list in H; repeat (destruct l as [|? l]; cbn [List.length] in H; try discriminate H; try (injection H; clear H; intros H)); clear H.

Lemma date_shape y m d r : group 4 y -> group 2 m -> group 2 d ->
  let v := (y ++ [45] ++ m ++ [45] ++ d) ++ r in
  nth 4 v 0 = 45 /\ nth 7 v 0 = 45 /\ zlen v = 10 + zlen r /\ (forall i, nth (10 + i) v 0 = nth i r 0).
Proof.
  intros [_ Ly] [_ Lm] [_ Ld]. cbv zeta. split; [|split; [|split]].
  - destruct y as [|y0 [|y1 [|y2 [|y3 [|y4 y]]]]]; try (unfold zlen in Ly; cbn [List.length] in Ly; lia). reflexivity.
  - destruct y as [|y0 [|y1 [|y2 [|y3 [|y4 y]]]]]; try (unfold zlen in Ly; cbn [List.length] in Ly; lia).
    destruct m as [|m0 [|m1 [|m2 m]]]; try (unfold zlen in Lm; cbn [List.length] in Lm; lia). reflexivity.
  - rewrite !zlen_app. change (zlen [45]) with 1. lia.
  - intros i. rewrite app_nth2.
    + f_equal. rewrite !app_length. unfold zlen in *. cbn [List.length]. lia.
    + rewrite !app_length. unfold zlen in *. cbn [List.length]. lia.
Qed.

Lemma clock_shape h m s r : group 2 h -> group 2 m -> group 2 s ->
  let v := (h ++ [58] ++ m ++ [58] ++ s) ++ r in
  nth 2 v 0 = 58 /\ nth 5 v 0 = 58 /\ zlen v = 8 + zlen r /\ (forall i, nth (8 + i) v 0 = nth i r 0).
Proof.
  intros [_ Ly] [_ Lm] [_ Ld]. cbv zeta. split; [|split; [|split]].
  - destruct h as [|y0 [|y1 [|y2 h]]]; try (unfold zlen in Ly; cbn [List.length] in Ly; lia). reflexivity.
  - destruct h as [|y0 [|y1 [|y2 h]]]; try (unfold zlen in Ly; cbn [List.length] in Ly; lia).
    destruct m as [|m0 [|m1 [|m2 m]]]; try (unfold zlen in Lm; cbn [List.length] in Lm; lia). reflexivity.
  - rewrite !zlen_app. change (zlen [58]) with 1. lia.
  - intros i. rewrite app_nth2.
    + f_equal. rewrite !app_length. unfold zlen in *. cbn [List.length]. lia.
    + rewrite !app_length. unfold zlen in *. cbn [List.length]. lia.
Qed.

Lemma date_groups d : valid_date d -> 0 <= yr d < 10000 -> group 4 (fmt0 4 (yr d)) /\ group 2 (fmt0 2 (mo d)) /\ group 2 (fmt0 2 (dy d)).
Proof.
  intros [Hm Hd] Hy. pose proof (month_days_pos (yr d) (mo d)).
  split; [|split]; apply fmt0_group; change (10 ^ 4) with 10000; change (10 ^ 2) with 100; lia.
Qed.

Ltac no_x := let H := fresh in intros H; repeat (apply in_app_or in H; destruct H as [H|H]);
  try (eapply group_no_x; [|exact H]; eassumption); cbn [In] in H; destruct H as [H|[]]; lia.

Lemma date_text_no_x d : valid_date d -> 0 <= yr d < 10000 -> ~ In 120 (date_text d).
Proof. intros H1 H2. destruct (date_groups d H1 H2) as (Gy & Gm & Gd). unfold date_text. no_x. Qed.

Lemma detect_date d : valid_date d -> 0 <= yr d < 10000 -> XBT_Detect (date_text d) = XBT_UNIX_DATE.
Proof.
  intros Hd Hy. destruct (date_groups d Hd Hy) as (Gy & Gm & Gd).
  rewrite Detect_plain; [|unfold date_text; destruct (fmt0 4 (yr d)); discriminate|apply date_text_no_x; assumption].
  unfold date_text at 3. destruct (fold_date _ _ _ Gy Gm Gd) as (X & EX & -> & _).
  destruct (date_shape _ _ _ [] Gy Gm Gd) as (S4 & S7 & SL & _). cbv zeta in *. rewrite app_nil_r in *.
  fold (date_text d) in S4, S7, SL. change (zlen (@nil Z)) with 0 in SL.
  unfold decide. cbv zeta. dec_false. dec_true. reflexivity.
Qed.

Lemma clock_groups h m s : 0 <= h < 24 -> 0 <= m < 60 -> 0 <= s < 60 -> group 2 (fmt0 2 h) /\ group 2 (fmt0 2 m) /\ group 2 (fmt0 2 s).
Proof. intros. split; [|split]; apply fmt0_group; change (10 ^ 2) with 100; lia. Qed.

Lemma detect_time d h m s : valid_date d -> 0 <= yr d < 10000 -> 0 <= h < 24 -> 0 <= m < 60 -> 0 <= s < 60 ->
  XBT_Detect (time_text 32 d h m s) = XBT_UNIX_TIME.
Proof.
  intros Hd Hy Hh Hm Hs. destruct (date_groups d Hd Hy) as (Gy & Gm & Gd). destruct (clock_groups h m s Hh Hm Hs) as (Gh & Gmi & Gs).
  rewrite Detect_plain.
  2: { unfold time_text, date_text. destruct (fmt0 4 (yr d)); discriminate. }
  2: { unfold time_text, date_text, clock_text. no_x. }
  assert (Hfold : exists X EX, fold_left count_char (time_text 32 d h m s) counters0 = mkcnt 14 0 0 2 0 2 2 0 0 1 1 (-1) false X EX).
  { unfold time_text. rewrite !fold_left_app. unfold date_text. destruct (fold_date _ _ _ Gy Gm Gd) as (X & EX & F & B). rewrite F.
    cbn [fold_left]. change (count_char (mkcnt 8 0 0 2 0 2 0 0 0 0 0 (-1) false X EX) 32) with (mkcnt 8 0 0 2 0 2 0 0 0 1 1 (-1) false X EX).
    destruct (fold_clock _ _ _ X EX 1 1 0 8 Gh Gmi Gs B) as (X2 & EX2 & F2 & _). unfold clock_text. rewrite F2. exists X2, EX2. reflexivity. }
  destruct Hfold as (X & EX & ->).
  destruct (date_shape _ _ _ ([32] ++ clock_text h m s) Gy Gm Gd) as (S4 & S7 & SL & SN). cbv zeta in *.
  fold (date_text d) in S4, S7, SL, SN. fold (time_text 32 d h m s) in S4, S7, SL, SN.
  destruct (clock_shape _ _ _ [] Gh Gmi Gs) as (C2 & C5 & CL & _). cbv zeta in *. rewrite app_nil_r in *.
  fold (clock_text h m s) in C2, C5, CL.
  pose proof (SN 3%nat) as S13. pose proof (SN 6%nat) as S16. cbn [Nat.add app nth] in S13, S16. rewrite C2 in S13. rewrite C5 in S16.
  rewrite zlen_app, CL in SL. change (zlen [32]) with 1 in SL. change (zlen (@nil Z)) with 0 in SL.
  unfold decide. cbv zeta. dec_false. dec_false. dec_false.
  match goal with |- context [if ?c then (if 0 =? 1 then _ else _) else None] => assert (Hc : c = false) by lia; rewrite Hc; clear Hc end.
  dec_false. dec_false. dec_false. dec_true. reflexivity.
Qed.

(** Counters behind ".mmm". *)
Lemma fold_msec ms X0 EX0 sp wh ot : group 3 ms -> 0 <= X0 < 10 ^ 14 ->
  exists X EX, fold_left count_char ([46] ++ ms) (mkcnt 14 0 0 2 0 2 2 ot 0 sp wh (-1) false X0 EX0) =
     mkcnt 17 3 0 2 1 2 2 ot 0 sp wh (-1) false X EX.
Proof.
  intros [Dm Lm] HX. cbn [app fold_left].
  change (count_char (mkcnt 14 0 0 2 0 2 2 ot 0 sp wh (-1) false X0 EX0) 46) with (mkcnt 14 0 0 2 1 2 2 ot 0 sp wh (-1) false X0 EX0).
  destruct (fold_digits' ms 14 14 0 0 2 1 2 2 ot 0 sp wh (-1) X0 EX0 Dm ltac:(lia) HX ltac:(lia)) as (X2 & E2 & F2 & B2).
  rewrite F2, Lm. exists X2, E2. reflexivity.
Qed.

Lemma detect_time64 d h m s ms : valid_date d -> 0 <= yr d < 10000 -> 0 <= h < 24 -> 0 <= m < 60 -> 0 <= s < 60 -> 0 <= ms < 1000 ->
  XBT_Detect (time_text 32 d h m s ++ [46] ++ fmt0 3 ms) = XBT_UNIX_TIME64_MSEC.
Proof.
  intros Hd Hy Hh Hm Hs Hms. destruct (date_groups d Hd Hy) as (Gy & Gm & Gd). destruct (clock_groups h m s Hh Hm Hs) as (Gh & Gmi & Gs).
  assert (Gms : group 3 (fmt0 3 ms)) by (apply fmt0_group; [change (10 ^ 3) with 1000; lia|lia]).
  rewrite Detect_plain.
  2: { unfold time_text, date_text. destruct (fmt0 4 (yr d)); discriminate. }
  2: { unfold time_text, date_text, clock_text. no_x. }
  assert (Hfold : exists X EX, fold_left count_char (time_text 32 d h m s ++ [46] ++ fmt0 3 ms) counters0 = mkcnt 17 3 0 2 1 2 2 0 0 1 1 (-1) false X EX).
  { rewrite fold_left_app. unfold time_text. rewrite (fold_left_app count_char (date_text d)), (fold_left_app count_char [32]). unfold date_text. destruct (fold_date _ _ _ Gy Gm Gd) as (X & EX & F & B). rewrite F.
    change (fold_left count_char [32] (mkcnt 8 0 0 2 0 2 0 0 0 0 0 (-1) false X EX)) with (mkcnt 8 0 0 2 0 2 0 0 0 1 1 (-1) false X EX).
    destruct (fold_clock _ _ _ X EX 1 1 0 8 Gh Gmi Gs B) as (X2 & EX2 & F2 & B2). unfold clock_text. rewrite F2.
    apply fold_msec; assumption. }
  destruct Hfold as (X & EX & ->).
  set (v := time_text 32 d h m s ++ [46] ++ fmt0 3 ms).
  assert (Hv : v = date_text d ++ ([32] ++ clock_text h m s ++ [46] ++ fmt0 3 ms)) by (unfold v, time_text; rewrite <- !app_assoc; reflexivity).
  destruct (date_shape _ _ _ ([32] ++ clock_text h m s ++ [46] ++ fmt0 3 ms) Gy Gm Gd) as (S4 & S7 & SL & SN). cbv zeta in *.
  fold (date_text d) in S4, S7, SL, SN. rewrite <- Hv in S4, S7, SL, SN.
  destruct (clock_shape _ _ _ ([46] ++ fmt0 3 ms) Gh Gmi Gs) as (C2 & C5 & CL & CN). cbv zeta in *.
  fold (clock_text h m s) in C2, C5, CL, CN.
  pose proof (SN 3%nat) as S13. pose proof (SN 6%nat) as S16. pose proof (SN 9%nat) as S19. pose proof (CN 0%nat) as C8.
  cbn [Nat.add] in S13, S16, S19, C8. change (nth 0 ([46] ++ fmt0 3 ms) 0) with 46 in C8.
  change ([32] ++ clock_text h m s ++ [46] ++ fmt0 3 ms) with (32 :: clock_text h m s ++ [46] ++ fmt0 3 ms) in S13, S16, S19.
  cbn [nth] in S13, S16, S19. rewrite C2 in S13. rewrite C5 in S16. rewrite C8 in S19.
  rewrite zlen_app, CL, zlen_app in SL. destruct Gms as [_ Lms]. rewrite Lms in SL. change (zlen [32]) with 1 in SL. change (zlen [46]) with 1 in SL.
  unfold decide. cbv zeta. dec_false. dec_false. dec_false.
  match goal with |- context [if ?c then (if 3 =? 1 then _ else _) else None] => assert (Hc : c = false) by lia; rewrite Hc; clear Hc end.
  dec_false. dec_false. dec_false. dec_false. dec_true. reflexivity.
Qed.

(** ** Hexadecimal texts *)

Definition lower_hex (c : Z) : Prop := 48 <= c <= 57 \/ 97 <= c <= 102.

Lemma fold_hex t : forall dg dc hx ng dt dsh co ot ex sp wh ep ov X EX, Forall lower_hex t ->
  exists a b ov' X' EX' dc', fold_left count_char t (mkcnt dg dc hx ng dt dsh co ot ex sp wh ep ov X EX) =
    mkcnt (dg + a) dc' (hx + b) ng dt dsh co ot ex sp wh ep ov' X' EX' /\ a + b = zlen t /\ 0 <= a /\ 0 <= b /\
    (dt = 0 -> dc' = dc) /\ ((exists c, In c t /\ 97 <= c) -> 0 < b).
Proof.
  induction t as [|c t IH]; intros dg dc hx ng dt dsh co ot ex sp wh ep ov X EX Ht.
  - exists 0, 0, ov, X, EX, dc. cbn [fold_left]. rewrite !Z.add_0_r. change (zlen (@nil Z)) with 0.
    repeat split; try lia. intros [c [[] _]].
  - inversion Ht as [|? ? Hc Ht']; subst. cbn [fold_left]. unfold lower_hex in Hc.
    destruct Hc as [Hc|Hc].
    + assert (E : exists dc1 X1 EX1 ov1, count_char (mkcnt dg dc hx ng dt dsh co ot ex sp wh ep ov X EX) c =
        mkcnt (dg + 1) dc1 hx ng dt dsh co ot ex sp wh ep ov1 X1 EX1 /\ (dt = 0 -> dc1 = dc)).
      { unfold count_char. destruct (Z.eqb_spec c 45); [lia|]. assert ((48 <=? c) && (c <=? 57) = true) as -> by lia.
        do 4 eexists. split; [reflexivity|]. intros ->. reflexivity. }
      destruct E as (dc1 & X1 & EX1 & ov1 & -> & Hdc).
      destruct (IH (dg + 1) dc1 hx ng dt dsh co ot ex sp wh ep ov1 X1 EX1 Ht') as (a & b & ov' & X' & EX' & dc' & -> & Hab & Ha & Hb & Hd2 & Hl).
      exists (1 + a), b, ov', X', EX', dc'. rewrite zlen_cons. split; [f_equal; lia|]. repeat split; try lia.
      intros [c' [[->|Hin] Hge]]; [lia|]. apply Hl. exists c'. split; assumption.
    + assert (E : count_char (mkcnt dg dc hx ng dt dsh co ot ex sp wh ep ov X EX) c = mkcnt dg dc (hx + 1) ng dt dsh co ot ex sp wh ep ov X EX).
      { unfold count_char. destruct (Z.eqb_spec c 45); [lia|]. assert ((48 <=? c) && (c <=? 57) = false) as -> by lia.
        assert ((97 <=? c) && (c <=? 102) = true) as -> by lia. reflexivity. }
      rewrite E.
      destruct (IH dg dc (hx + 1) ng dt dsh co ot ex sp wh ep ov X EX Ht') as (a & b & ov' & X' & EX' & dc' & -> & Hab & Ha & Hb & Hd2 & Hl).
      exists a, (1 + b), ov', X', EX', dc'. rewrite zlen_cons. split; [f_equal; lia|]. repeat split; try lia.
Qed.

Lemma Hex2Str_lower l : bytes l -> Forall lower_hex (Hex2Str l).
Proof.
  induction l as [|b r IH]; intros H; [constructor|]. inversion H as [|? ? Hb Hr]; subst. rewrite Hex2Str_cons.
  destruct (byte_nibbles b Hb) as (N1 & N2 & _).
  constructor; [apply hexchar_range, N1|]. constructor; [apply hexchar_range, N2|]. apply IH, Hr.
Qed.

Lemma lower_no_x t : Forall lower_hex t -> ~ In 120 t.
Proof. intros H Hin. rewrite Forall_forall in H. apply H in Hin. unfold lower_hex in Hin. lia. Qed.

Lemma detect_hex t : Forall lower_hex t -> (exists c, In c t /\ 97 <= c) ->
  XBT_Detect t = if zlen t =? 40 then XBT_SHA1 else XBT_HEX.
Proof.
  intros Ht Hl. rewrite Detect_plain; [|destruct Hl as (c & Hc & _); destruct t; [destruct Hc|discriminate]|apply lower_no_x, Ht].
  destruct (fold_hex t 0 0 0 0 0 0 0 0 0 0 0 (-1) false 0 0 Ht) as (a & b & ov' & X' & EX' & dc' & F & Hab & Ha & Hb & Hdc & Hb2).
  unfold counters0. rewrite F. specialize (Hb2 Hl). specialize (Hdc eq_refl). subst dc'.
  unfold decide. cbv zeta.
  assert (N4 : (nth 4 t 0 =? 45) = false).
  { apply Z.eqb_neq. intros E. destruct (nth_in_or_default 4 t 0) as [H|H]; [|rewrite H in E; discriminate].
    rewrite Forall_forall in Ht. apply Ht in H. unfold lower_hex in H. lia. }
  rewrite N4.
  dec_false. dec_false. dec_false.
  match goal with |- context [if ?c then (if 0 =? 1 then _ else _) else None] => assert (Hc : c = false) by lia; rewrite Hc; clear Hc end.
  dec_false. replace (0 + a + (0 + b)) with (zlen t) by lia.
  destruct (Z.eqb_spec (zlen t) 40) as [E|E]; [reflexivity|].
  cbn [andb]. dec_false. dec_false. dec_false. dec_false. dec_true. reflexivity.
Qed.

Lemma detect_guid l : bytes l -> List.length l = 16%nat -> XBT_Detect (GUID2Str l) = XBT_GUID.
Proof.
  intros Hb Hl. pose proof (GUID2Str_shape l Hl) as (L & _).
  pose proof (Hex2Str_lower l Hb) as Hh. pose proof (Hex2Str_length l) as HL. unfold zlen in HL. rewrite Hl in HL.
  assert (Hf : forall n m, Forall lower_hex (firstn n (skipn m (Hex2Str l)))).
  { intros n m. rewrite <- (firstn_skipn m (Hex2Str l)) in Hh. apply Forall_app in Hh. destruct Hh as [_ Hh].
    rewrite <- (firstn_skipn n (skipn m (Hex2Str l))) in Hh. apply Forall_app in Hh. tauto. }
  pose proof (Hf 8%nat 0%nat) as F1. pose proof (Hf 4%nat 8%nat) as F2. pose proof (Hf 4%nat 12%nat) as F3.
  pose proof (Hf 4%nat 16%nat) as F4. pose proof (Hf 12%nat 20%nat) as F5. cbn [skipn] in F1.
  rewrite Detect_plain.
  2: { intros E. rewrite E in L. discriminate L. }
  2: { unfold GUID2Str. cbv zeta. intros H. repeat (apply in_app_or in H; destruct H as [H|H]);
       try (eapply lower_no_x; [|exact H]; assumption); cbn [In] in H; destruct H as [H|[]]; lia. }
  set (v := GUID2Str l) at 1 2. assert (Hzv : zlen v = 36) by (unfold zlen, v; rewrite L; reflexivity).
  unfold GUID2Str. cbv zeta.
  assert (L1 : zlen (firstn 8 (Hex2Str l)) = 8) by (unfold zlen; rewrite firstn_length; lia).
  assert (L2 : zlen (firstn 4 (skipn 8 (Hex2Str l))) = 4) by (unfold zlen; rewrite firstn_length, skipn_length; lia).
  assert (L3 : zlen (firstn 4 (skipn 12 (Hex2Str l))) = 4) by (unfold zlen; rewrite firstn_length, skipn_length; lia).
  assert (L4 : zlen (firstn 4 (skipn 16 (Hex2Str l))) = 4) by (unfold zlen; rewrite firstn_length, skipn_length; lia).
  assert (L5 : zlen (firstn 12 (skipn 20 (Hex2Str l))) = 12) by (unfold zlen; rewrite firstn_length, skipn_length; lia).
  set (t1 := firstn 8 (Hex2Str l)) in *. set (t2 := firstn 4 (skipn 8 (Hex2Str l))) in *. set (t3 := firstn 4 (skipn 12 (Hex2Str l))) in *.
  set (t4 := firstn 4 (skipn 16 (Hex2Str l))) in *. set (t5 := firstn 12 (skipn 20 (Hex2Str l))) in *.
  rewrite !fold_left_app. cbn [fold_left]. unfold counters0.
  Ltac hexseg t F :=
    match goal with |- context [fold_left count_char t (mkcnt ?dg ?dc ?hx ?ng ?dt ?dsh ?co ?ot ?ex ?sp ?wh ?ep ?ov ?X ?EX)] =>
      let a := fresh "a" in let b := fresh "b" in let ov' := fresh "ov" in let X' := fresh "X" in let EX' := fresh "EX" in let dc' := fresh "dc" in
      let E := fresh "E" in let Hdc := fresh "Hdc" in
      destruct (fold_hex t dg dc hx ng dt dsh co ot ex sp wh ep ov X EX F) as (a & b & ov' & X' & EX' & dc' & E & ? & ? & ? & Hdc & _);
      rewrite E; clear E; specialize (Hdc eq_refl); subst dc' end.
  Ltac dash := match goal with |- context [count_char (mkcnt ?dg ?dc ?hx ?ng ?dt ?dsh ?co ?ot ?ex ?sp ?wh ?ep ?ov ?X ?EX) 45] =>
      change (count_char (mkcnt dg dc hx ng dt dsh co ot ex sp wh ep ov X EX) 45) with (mkcnt dg dc hx (ng + 1) dt (dsh + 1) co ot ex sp wh ep ov X EX) end.
  hexseg t1 F1. dash. hexseg t2 F2. dash. hexseg t3 F3. dash. hexseg t4 F4. dash. hexseg t5 F5.
  unfold decide. cbv zeta. dec_false.
  destruct (_ && _ && (nth 4 v 0 =? 45) && (nth 7 v 0 =? 45)) eqn:E10; [lia|].
  dec_false.
  match goal with |- context [if ?c then (if 0 =? 1 then _ else _) else None] => assert (Hc : c = false) by lia; rewrite Hc; clear Hc end.
  dec_false. dec_false. dec_true. reflexivity.
Qed.
