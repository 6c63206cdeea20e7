(** Proofs about dates (Dates.v against CalSpec.v). *)
From Verif Require Import Base BaseFacts NumSpec Scan ScanProofs CalSpec Dates.

(** Closed formula for the day number, with floor division; only a proof device. *)
Definition month_off (y m : Z) : Z := znth (if leap y then LEAP_MONTH_OFFSET else MONTH_OFFSET) (m - 1).
Definition year_start (y : Z) : Z :=
  (y - 1970) * 365 + (y - 1969) / 4 - (y - 1901) / 100 + (y - 1601) / 400.
Definition rata (d : date) : Z := year_start (yr d) + month_off (yr d) (mo d) + (dy d - 1).

Definition year_len (y : Z) : Z := if leap y then 366 else 365.

Lemma leap_spec y : leap y = true <-> (y mod 4 = 0 /\ y mod 100 <> 0) \/ y mod 400 = 0.
Proof. unfold leap. lia. Qed.

Lemma year_start_succ y : year_start (y + 1) = year_start y + year_len y.
Proof.
  unfold year_start, year_len. destruct (leap y) eqn:E.
  - apply leap_spec in E. lia.
  - assert (~ ((y mod 4 = 0 /\ y mod 100 <> 0) \/ y mod 400 = 0)) by (rewrite <- leap_spec, E; discriminate). lia.
Qed.

Lemma month_cases m : 1 <= m <= 12 ->
  m = 1 \/ m = 2 \/ m = 3 \/ m = 4 \/ m = 5 \/ m = 6 \/ m = 7 \/ m = 8 \/ m = 9 \/ m = 10 \/ m = 11 \/ m = 12.
Proof. lia. Qed.

Ltac month_split H := apply month_cases in H; repeat (destruct H as [->|H]); try subst.

Lemma month_off_succ y m : 1 <= m < 12 -> month_off y (m + 1) = month_off y m + month_days y m.
Proof.
  intros H. assert (Hm : 1 <= m <= 12) by lia. unfold month_off, month_days.
  destruct (leap y); apply month_cases in Hm;
    repeat (destruct Hm as [->|Hm]; [reflexivity|]); subst; lia.
Qed.

Lemma month_off_last y : month_off y 12 + month_days y 12 = year_len y.
Proof. unfold month_off, month_days, year_len. destruct (leap y); reflexivity. Qed.

Lemma month_off_1 y : month_off y 1 = 0.
Proof. unfold month_off. destruct (leap y); reflexivity. Qed.

Lemma month_days_pos y m : 28 <= month_days y m <= 31.
Proof. unfold month_days. destruct (m =? 2); [destruct (leap y); lia|]. destruct (_ || _); lia. Qed.

Lemma next_day_valid d : valid_date d -> valid_date (next_day d).
Proof.
  destruct d as [y m dd]. unfold valid_date, next_day. cbn [yr mo dy]. intros [Hm Hd].
  destruct (Z.ltb_spec dd (month_days y m)); cbn [yr mo dy]; [lia|].
  destruct (Z.ltb_spec m 12); cbn [yr mo dy].
  - pose proof (month_days_pos y (m + 1)). lia.
  - pose proof (month_days_pos (y + 1) 1). lia.
Qed.

Lemma rata_next d : valid_date d -> rata (next_day d) = rata d + 1.
Proof.
  destruct d as [y m dd]. unfold valid_date, next_day, rata. cbn [yr mo dy]. intros [Hm Hd].
  destruct (Z.ltb_spec dd (month_days y m)); cbn [yr mo dy]; [lia|].
  destruct (Z.ltb_spec m 12); cbn [yr mo dy].
  - rewrite month_off_succ by lia. lia.
  - assert (m = 12) by lia. subst m. rewrite year_start_succ, month_off_1.
    pose proof (month_off_last y). lia.
Qed.

Lemma epoch_valid : valid_date epoch.
Proof. split; cbv; split; discriminate. Qed.

Lemma rata_epoch : rata epoch = 0.
Proof. reflexivity. Qed.

Lemma iter_next n d : valid_date d -> valid_date (Nat.iter n next_day d) /\ rata (Nat.iter n next_day d) = rata d + Z.of_nat n.
Proof.
  intros Hd. induction n as [|n [IH1 IH2]]; cbn [Nat.iter nat_rect].
  - split; [assumption|lia].
  - split; [apply next_day_valid; assumption|]. rewrite rata_next by assumption.
    change (nat_rect _ d (fun _ => next_day) n) with (Nat.iter n next_day d). rewrite IH2. lia.
Qed.

Lemma day_in_year d : valid_date d -> 0 <= month_off (yr d) (mo d) + (dy d - 1) < year_len (yr d).
Proof.
  destruct d as [y m dd]. unfold valid_date; cbn [yr mo dy]. intros [Hm Hd].
  assert (0 <= month_off y m /\ month_off y m + month_days y m <= year_len y); [|lia].
  clear Hd. unfold month_off, month_days, year_len.
  destruct (leap y); apply month_cases in Hm;
    repeat (destruct Hm as [->|Hm]; [vm_compute; split; discriminate|]); subst; vm_compute; split; discriminate.
Qed.

Lemma year_start_mono y k : 0 <= k -> year_start y + 365 * k <= year_start (y + k).
Proof.
  intros Hk. pattern k. apply natlike_ind; [|intros x Hx IH|assumption].
  - replace (y + 0) with y by lia. lia.
  - replace (y + Z.succ x) with ((y + x) + 1) by lia. rewrite year_start_succ.
    unfold year_len. destruct (leap (y + x)); lia.
Qed.

Lemma rata_inj a b : valid_date a -> valid_date b -> rata a = rata b -> a = b.
Proof.
  intros Ha Hb E. pose proof (day_in_year a Ha) as Da. pose proof (day_in_year b Hb) as Db.
  destruct a as [y1 m1 d1], b as [y2 m2 d2]. unfold rata, valid_date in *; cbn [yr mo dy] in *.
  assert (y1 = y2).
  { destruct (Z.lt_trichotomy y1 y2) as [H|[H|H]]; [|assumption|]; exfalso.
    - pose proof (year_start_mono (y1 + 1) (y2 - (y1 + 1)) ltac:(lia)) as M.
      replace (y1 + 1 + (y2 - (y1 + 1))) with y2 in M by lia. rewrite year_start_succ in M. lia.
    - pose proof (year_start_mono (y2 + 1) (y1 - (y2 + 1)) ltac:(lia)) as M.
      replace (y2 + 1 + (y1 - (y2 + 1))) with y1 in M by lia. rewrite year_start_succ in M. lia. }
  subst y2. clear Da Db.
  assert (Hoff : forall m k, 1 <= m -> 0 < k -> m + k <= 12 -> month_off y1 m + month_days y1 m <= month_off y1 (m + k)).
  { intros m k Hm Hk Hle. rewrite <- month_off_succ by lia.
    assert (forall j, 0 <= j -> m + 1 + j <= 12 -> month_off y1 (m + 1) <= month_off y1 (m + 1 + j)) as G.
    { intros j Hj. pattern j. apply natlike_ind; [|intros x Hx IH|assumption].
      - replace (m + 1 + 0) with (m + 1) by lia. lia.
      - intros. replace (m + 1 + Z.succ x) with ((m + 1 + x) + 1) by lia.
        rewrite (month_off_succ y1 (m + 1 + x)) by lia. specialize (IH ltac:(lia)).
        pose proof (month_days_pos y1 (m + 1 + x)). lia. }
    replace (m + k) with (m + 1 + (k - 1)) by lia. apply G; lia. }
  assert (m1 = m2).
  { destruct (Z.lt_trichotomy m1 m2) as [H|[H|H]]; [|assumption|]; exfalso.
    - pose proof (Hoff m1 (m2 - m1) ltac:(lia) ltac:(lia) ltac:(lia)) as M.
      replace (m1 + (m2 - m1)) with m2 in M by lia. lia.
    - pose proof (Hoff m2 (m1 - m2) ltac:(lia) ltac:(lia) ltac:(lia)) as M.
      replace (m2 + (m1 - m2)) with m1 in M by lia. lia. }
  subst m2. f_equal. lia.
Qed.

(** ** The formula computes the specification's day number *)
Lemma rata_day_number d : valid_date d -> day_number d (rata d).
Proof.
  intros Hd. unfold day_number. destruct (Z.leb_spec 0 (rata d)) as [H|H].
  - destruct (iter_next (Z.to_nat (rata d)) epoch epoch_valid) as [V R].
    apply rata_inj; try assumption. rewrite R, rata_epoch. lia.
  - destruct (iter_next (Z.to_nat (- rata d)) d Hd) as [V R].
    apply rata_inj; [assumption|apply epoch_valid|]. rewrite R, rata_epoch. lia.
Qed.

Lemma day_number_rata d n : valid_date d -> day_number d n -> n = rata d.
Proof.
  intros Hd. unfold day_number. destruct (Z.leb_spec 0 n) as [H|H]; intros E.
  - destruct (iter_next (Z.to_nat n) epoch epoch_valid) as [V R]. rewrite E, rata_epoch in R. lia.
  - destruct (iter_next (Z.to_nat (- n)) d Hd) as [V R]. rewrite E, rata_epoch in R. lia.
Qed.

Lemma day_number_valid d n : 0 <= n -> day_number d n -> valid_date d.
Proof.
  intros Hn. unfold day_number. destruct (Z.leb_spec 0 n); [|lia]. intros <-.
  apply iter_next. apply epoch_valid.
Qed.

(** ** Scanning *)

Lemma fmt0_text w n rest mx : - mx <= n <= mx -> is_digit (cur rest) = false ->
  scan_signed mx (fmt0 w n ++ rest) = Ok (n, rest).
Proof.
  intros Hn Hr. unfold fmt0. destruct (Z.ltb_spec n 0) as [H|H].
  - replace ((45 :: zeros (w - 1 - zlen (udec (- n))) ++ udec (- n)) ++ rest)
      with ([] ++ [45] ++ (zeros (w - 1 - zlen (udec (- n))) ++ udec (- n)) ++ rest) by reflexivity.
    rewrite scan_signed_ok; try assumption.
    + cbn [List.length Nat.eqb]. rewrite dec_value_app, zeros_value, udec_value by lia. do 2 f_equal. lia.
    + repeat split; [constructor|right; reflexivity| |].
      * intros E. apply app_eq_nil in E. apply (udec_nonempty (- n)); [lia|tauto].
      * apply Forall_app. split; [apply zeros_digits|apply udec_digits; lia].
    + rewrite dec_value_app, zeros_value, udec_value by lia. lia.
  - replace ((zeros (w - zlen (udec n)) ++ udec n) ++ rest)
      with ([] ++ [] ++ (zeros (w - zlen (udec n)) ++ udec n) ++ rest) by reflexivity.
    rewrite scan_signed_ok; try assumption.
    + cbn [List.length Nat.eqb]. rewrite dec_value_app, zeros_value, udec_value by lia. do 2 f_equal.
    + repeat split; [constructor|left; reflexivity| |].
      * intros E. apply app_eq_nil in E. apply (udec_nonempty n); [lia|tauto].
      * apply Forall_app. split; [apply zeros_digits|apply udec_digits; lia].
    + rewrite dec_value_app, zeros_value, udec_value by lia. lia.
Qed.

Lemma ScanInt_fmt0 w n rest : -2147483647 <= n <= 2147483647 -> is_digit (cur rest) = false ->
  ScanInt (fmt0 w n ++ rest) = Ok (n, rest).
Proof. intros. apply fmt0_text; [unfold INT_MAX; lia|assumption]. Qed.

Lemma scan_ymd_text d rest : valid_date d -> -2147483647 <= yr d <= 2147483647 -> is_digit (cur rest) = false ->
  scan_ymd (date_text d ++ rest) = Ok (yr d, mo d, dy d, rest).
Proof.
  destruct d as [y m dd]. unfold valid_date, date_text, scan_ymd. cbn [yr mo dy]. intros [Hm Hd] Hy Hr.
  pose proof (month_days_pos y m). rewrite <- !app_assoc.
  rewrite ScanInt_fmt0 by (try reflexivity; lia). cbn [obind app cur hd tl].
  change (negb (45 =? 45)) with false. cbv iota.
  rewrite ScanInt_fmt0 by (try reflexivity; lia). cbn [obind app cur hd tl].
  destruct (Z.ltb_spec m 1); [lia|]. destruct (Z.ltb_spec 12 m); [lia|]. cbn [orb].
  change (negb (45 =? 45)) with false. cbv iota.
  rewrite ScanInt_fmt0 by (try assumption; lia). reflexivity.
Qed.

Lemma c_is_leap_leap y : 0 <= y -> c_is_leap y = leap y.
Proof.
  intros H. unfold c_is_leap, leap. rewrite !Z.rem_mod_nonneg by lia. reflexivity.
Qed.

Lemma c_days_rata d : 1969 <= yr d -> c_days (yr d) (mo d) (dy d) = rata d.
Proof.
  destruct d as [y m dd]. unfold c_days, rata, year_start, month_off. cbn [yr mo dy]. intros Hy.
  rewrite c_is_leap_leap by lia.
  rewrite !Z.quot_div_nonneg by lia.
  replace (y - 1968 - 1) with (y - 1969) by lia. replace (y - 1900 - 1) with (y - 1901) by lia.
  replace (y - 1600 - 1) with (y - 1601) by lia. reflexivity.
Qed.

Lemma ScanUnixDate_ok d n rest :
  valid_date d -> 1969 <= yr d <= 369689 -> day_number d n -> is_digit (cur rest) = false ->
  ScanUnixDate (date_text d ++ rest) = Ok (n, rest).
Proof.
  intros Hd Hy Hn Hr. apply day_number_rata in Hn; [|assumption]. subst n.
  unfold ScanUnixDate. rewrite scan_ymd_text by (try assumption; lia). cbn [obind].
  destruct (Z.ltb_spec (yr d) (-365749)); [lia|]. destruct (Z.ltb_spec 369689 (yr d)); [lia|]. cbn [orb].
  rewrite c_days_rata by lia.
  assert (int32b (rata d) = true) as ->; [|reflexivity].
  pose proof (day_in_year d Hd) as D. unfold year_len in D. unfold int32b, rata, year_start.
  destruct (leap (yr d)); lia.
Qed.

(** The truncating divisions give a wrong day number before 1969. *)
Lemma ScanUnixDate_1968 : exists d n m,
  valid_date d /\ yr d = 1968 /\ day_number d n /\ ScanUnixDate (date_text d) = Ok (m, []) /\ m <> n.
Proof.
  exists (mkdate 1968 1 1), (-731), (-730). repeat split; vm_compute; congruence.
Qed.

(** ** Printing *)

Lemma DAY2MONTH_spec v : 0 <= v < 365 ->
  let m := znth DAY2MONTH v in
  1 <= m <= 12 /\ 1 <= 1 + v - znth MONTH_OFFSET (m - 1) <= month_days 2001 m.
Proof.
  intros Hv.
  assert (H : forallb (fun k => let v := Z.of_nat k in let m := znth DAY2MONTH v in
     (1 <=? m) && (m <=? 12) && (1 <=? 1 + v - znth MONTH_OFFSET (m - 1)) && (1 + v - znth MONTH_OFFSET (m - 1) <=? month_days 2001 m)) (seq 0 365) = true)
    by (vm_compute; reflexivity).
  rewrite forallb_forall in H. specialize (H (Z.to_nat v) ltac:(apply in_seq; lia)).
  rewrite Z2Nat.id in H by lia. cbv zeta in H |- *. lia.
Qed.

Lemma DAY2MONTH_LEAP_spec v : 0 <= v < 366 ->
  let m := znth DAY2MONTH_LEAP v in
  1 <= m <= 12 /\ 1 <= 1 + v - znth LEAP_MONTH_OFFSET (m - 1) <= month_days 2000 m.
Proof.
  intros Hv.
  assert (H : forallb (fun k => let v := Z.of_nat k in let m := znth DAY2MONTH_LEAP v in
     (1 <=? m) && (m <=? 12) && (1 <=? 1 + v - znth LEAP_MONTH_OFFSET (m - 1)) && (1 + v - znth LEAP_MONTH_OFFSET (m - 1) <=? month_days 2000 m)) (seq 0 366) = true)
    by (vm_compute; reflexivity).
  rewrite forallb_forall in H. specialize (H (Z.to_nat v) ltac:(apply in_seq; lia)).
  rewrite Z2Nat.id in H by lia. cbv zeta in H |- *. lia.
Qed.

Lemma month_days_leap_eq y y' m : leap y = leap y' -> month_days y m = month_days y' m.
Proof. intros E. unfold month_days. rewrite E. reflexivity. Qed.

Lemma c_year_day_spec v :
  let '(y, lp, r) := c_year_day v in
  (lp = leap y \/ r = 0) /\ 0 <= r < year_len y /\ v = year_start y + r.
Proof.
  unfold c_year_day.
  set (w := v - 10957).
  set (y400 := Z.quot w 146097 - (if w <? 0 then 1 else 0)).
  assert (Hw : 0 <= w - y400 * 146097 <= 146097).
  { subst y400. destruct (Z.ltb_spec w 0).
    - replace (Z.quot w 146097) with (- ((- w) / 146097)); [lia|].
      rewrite <- Z.quot_div_nonneg by lia. rewrite Z.quot_opp_l by lia. lia.
    - rewrite Z.quot_div_nonneg by lia. lia. }
  set (r := w - y400 * 146097) in *.
  assert (Hv : v = 10957 + y400 * 146097 + r) by (subst r w; lia).
  clearbody y400 r. clear w. cbv zeta.
  assert (YS : forall k, year_start (2000 + y400 * 400 + k) = year_start (2000 + k) + y400 * 146097).
  { intros k. unfold year_start. lia. }
  assert (LP : forall k, leap (2000 + y400 * 400 + k) = leap (2000 + k)).
  { intros k. unfold leap.
    replace ((2000 + y400 * 400 + k) mod 4) with ((2000 + k) mod 4) by lia.
    replace ((2000 + y400 * 400 + k) mod 100) with ((2000 + k) mod 100) by lia.
    replace ((2000 + y400 * 400 + k) mod 400) with ((2000 + k) mod 400) by lia. reflexivity. }
  destruct (Z.ltb_spec r 366).
  { replace (2000 + y400 * 400) with (2000 + y400 * 400 + 0) by lia.
    unfold year_len. rewrite !LP, YS. change (leap (2000 + 0)) with true. cbv iota.
    change (year_start (2000 + 0)) with 10957. repeat split; try lia; try (left; reflexivity). }
  rewrite (Z.quot_div_nonneg (r - 1)) by lia.
  set (y100 := (r - 1) / 36524) in *.
  set (r2 := r - 1 - y100 * 36524) in *.
  assert (Hr2 : 0 <= r2 < 36524 /\ 0 <= y100 <= 4 /\ (y100 = 4 -> r2 = 0)) by (subst r2 y100; lia).
  assert (Hrr : r = r2 + y100 * 36524 + 1) by (subst r2; lia).
  clearbody y100 r2.
  assert (Hc : y100 = 0 \/ y100 = 1 \/ y100 = 2 \/ y100 = 3 \/ y100 = 4) by lia.
  destruct (Z.ltb_spec r2 365).
  { rewrite <- !Z.add_assoc. unfold year_len. rewrite !(Z.add_assoc 2000), !LP, YS.
    destruct Hc as [->|[->|[->|[->| ->]]]]; cbn [leap Z.mul Z.add Z.modulo Z.eqb andb orb negb].
    - exfalso. lia.
    - change (leap (2000 + 1 * 100)) with false. change (year_start (2000 + 1 * 100)) with 47482. cbv iota. repeat split; try lia; try (left; reflexivity).
    - change (leap (2000 + 2 * 100)) with false. change (year_start (2000 + 2 * 100)) with 84006. cbv iota. repeat split; try lia; try (left; reflexivity).
    - change (leap (2000 + 3 * 100)) with false. change (year_start (2000 + 3 * 100)) with 120530. cbv iota. repeat split; try lia; try (left; reflexivity).
    - change (leap (2000 + 4 * 100)) with true. change (year_start (2000 + 4 * 100)) with 157054. cbv iota. repeat split; try lia. }
  rewrite (Z.quot_div_nonneg (r2 + 1)) by lia.
  set (y4 := (r2 + 1) / 1461) in *.
  set (r3 := r2 + 1 - y4 * 1461) in *.
  assert (Hr3 : 0 <= r3 < 1461 /\ 0 <= y4 <= 24 /\ (y4 = 0 -> 366 <= r3)) by (subst r3 y4; lia).
  assert (Hrr2 : r2 = r3 + y4 * 1461 - 1) by (subst r3; lia).
  clearbody y4 r3.
  assert (y100 <> 4) by lia.
  destruct (Z.ltb_spec r3 366).
  { assert (y4 <> 0) by lia.
    assert (L : leap (2000 + (y100 * 100 + y4 * 4)) = true) by (apply leap_spec; lia).
    rewrite <- !Z.add_assoc. unfold year_len. rewrite !(Z.add_assoc 2000), !LP, YS, L.
    repeat split; try lia; try (left; reflexivity).
    unfold year_start. lia. }
  rewrite (Z.quot_div_nonneg (r3 - 1)) by lia.
  set (y1 := (r3 - 1) / 365) in *.
  assert (Hy1 : 1 <= y1 <= 3) by (subst y1; lia).
  assert (Hr4 : 0 <= r3 - 1 - y1 * 365 < 365) by (subst y1; lia).
  clearbody y1.
  assert (L : leap (2000 + (y100 * 100 + (y4 * 4 + y1))) = false).
  { destruct (leap _) eqn:E; [|reflexivity]. apply leap_spec in E. lia. }
  rewrite <- !Z.add_assoc. unfold year_len. rewrite !(Z.add_assoc 2000), !LP, YS, L.
  repeat split; try lia; try (left; reflexivity).
  unfold year_start. lia.
Qed.

Lemma UnixDate2Str_ok v d : int32 v -> INT_MIN + 10957 <= v -> valid_date d -> day_number d v ->
  UnixDate2Str v = if last_of_leap_year d then Fail else Ok (date_text d).
Proof.
  intros Hv Hlo Hd Hn. apply day_number_rata in Hn; [|assumption].
  unfold UnixDate2Str. assert (int32b (v - 10957) = true) as -> by (unfold int32, int32b, INT_MAX, INT_MIN in *; lia).
  cbn [negb]. pose proof (c_year_day_spec v) as S. destruct (c_year_day v) as [[y lp] r].
  destruct S as (L & R & V).
  assert (Huniq : forall m dd, 1 <= m <= 12 -> 1 <= dd <= month_days y m -> month_off y m + (dd - 1) = r -> d = mkdate y m dd).
  { intros m dd Hm Hdd E. apply rata_inj; [assumption|split; cbn; assumption|].
    unfold rata at 2. cbn [yr mo dy]. lia. }
  unfold year_len in R. destruct lp.
  - destruct (Z.leb_spec 0 r); [|lia]. cbn [andb].
    assert (Ly : leap y = true \/ r = 0) by (destruct L as [L|L]; [left; symmetry; exact L|right; exact L]).
    destruct (Z.ltb_spec r 365) as [Hr|Hr].
    + destruct (DAY2MONTH_LEAP_spec r ltac:(lia)) as [Hm Hdd]. cbv zeta in *.
      set (m := znth DAY2MONTH_LEAP r) in *. set (dd := 1 + r - znth LEAP_MONTH_OFFSET (m - 1)) in *.
      destruct Ly as [Ly|Ly].
      * assert (Ed : d = mkdate y m dd).
        { apply Huniq; [assumption| |].
          - rewrite (month_days_leap_eq y 2000) by assumption. assumption.
          - unfold month_off. rewrite Ly. subst dd. lia. }
        subst d. unfold last_of_leap_year. cbn [yr mo dy]. rewrite Ly. cbn [andb].
        replace ((m =? 12) && (dd =? 31)) with false; [reflexivity|]. symmetry. apply andb_false_iff.
        destruct (Z.eqb_spec m 12) as [E|E]; [right|left; reflexivity].
        subst dd. rewrite E. change (znth LEAP_MONTH_OFFSET (12 - 1)) with 335. lia.
      * assert (m = 1) by (subst m; rewrite Ly; reflexivity).
        assert (dd = 1) by (subst dd; rewrite H0, Ly; reflexivity).
        assert (Ed : d = mkdate y m dd).
        { rewrite H0, H1. apply Huniq; [lia|pose proof (month_days_pos y 1); lia|]. rewrite month_off_1. lia. }
        rewrite Ed. unfold last_of_leap_year. cbn [yr mo dy]. rewrite H0, H1. cbn [andb Z.eqb].
        rewrite andb_false_r. reflexivity.
    + assert (Ly' : leap y = true) by (destruct Ly; [assumption|lia]).
      assert (Ed : d = mkdate y 12 31).
      { apply Huniq; [lia|change (month_days y 12) with 31; lia|]. unfold month_off. rewrite Ly'.
        change (znth LEAP_MONTH_OFFSET (12 - 1)) with 335. rewrite Ly' in R. lia. }
      subst d. unfold last_of_leap_year. cbn [yr mo dy]. rewrite Ly'. reflexivity.
  - destruct (Z.leb_spec 0 r); [|lia]. cbn [andb].
    assert (Hr : r < 365) by (destruct L as [L|L]; [rewrite <- L in R|]; lia).
    destruct (Z.ltb_spec r 366); [|lia]. destruct (Z.leb_spec 365 r); [lia|].
    destruct (DAY2MONTH_spec r ltac:(lia)) as [Hm Hdd]. cbv zeta in *.
    set (m := znth DAY2MONTH r) in *. set (dd := 1 + r - znth MONTH_OFFSET (m - 1)) in *.
    destruct L as [L|L].
    + assert (Ed : d = mkdate y m dd).
      { apply Huniq; [assumption| |].
        - rewrite (month_days_leap_eq y 2001) by (rewrite <- L; reflexivity). assumption.
        - unfold month_off. rewrite <- L. subst dd. lia. }
      subst d. unfold last_of_leap_year. cbn [yr mo dy]. rewrite <- L. reflexivity.
    + assert (Q1 : m = 1) by (subst m; rewrite L; reflexivity).
      assert (Q2 : dd = 1) by (subst dd; rewrite Q1, L; reflexivity).
      assert (Ed : d = mkdate y m dd).
      { rewrite Q1, Q2. apply Huniq; [lia|pose proof (month_days_pos y 1); lia|]. rewrite month_off_1. lia. }
      rewrite Ed. unfold last_of_leap_year. cbn [yr mo dy]. rewrite Q1, Q2. cbn [andb Z.eqb].
      rewrite andb_false_r. reflexivity.
Qed.

(** ** Times *)

Lemma u32_id x : uint32 x -> u32 x = x.
Proof. unfold uint32, u32. intros. rewrite Z.mod_small; lia. Qed.

Lemma int32b_true x : int32 x -> int32b x = true.
Proof. unfold int32, int32b. lia. Qed.

Lemma year_of_day d n : valid_date d -> day_number d n -> 0 <= n <= 49710 -> 1970 <= yr d <= 2106.
Proof.
  intros Hd Hn H. apply day_number_rata in Hn; [|assumption].
  pose proof (day_in_year d Hd) as D. unfold rata in Hn. unfold year_len in D.
  assert (H365 : 0 <= month_off (yr d) (mo d) + (dy d - 1) < 366) by (destruct (leap (yr d)); lia).
  destruct (Z.le_gt_cases 1970 (yr d)) as [H1|H1].
  - destruct (Z.le_gt_cases (yr d) 2106) as [H2|H2]; [lia|].
    pose proof (year_start_mono 2107 (yr d - 2107) ltac:(lia)) as M.
    replace (2107 + (yr d - 2107)) with (yr d) in M by lia. change (year_start 2107) with 50038 in M. lia.
  - exfalso. pose proof (year_start_mono (yr d + 1) (1970 - (yr d + 1)) ltac:(lia)) as M.
    replace (yr d + 1 + (1970 - (yr d + 1))) with 1970 in M by lia.
    rewrite year_start_succ in M. change (year_start 1970) with 0 in M. unfold year_len in M.
    destruct (leap (yr d)); lia.
Qed.

Lemma ScanUnixTime_ok d n h m s sep rest :
  valid_date d -> day_number d n -> 0 <= n -> 0 <= h < 24 -> 0 <= m < 60 -> 0 <= s < 60 ->
  sep = 32 \/ sep = 84 -> n * 86400 + h * 3600 + m * 60 + s <= UINT32_MAX -> is_digit (cur rest) = false ->
  ScanUnixTime (time_text sep d h m s ++ rest) = Ok (n * 86400 + h * 3600 + m * 60 + s, rest).
Proof.
  intros Hd Hn Hn0 Hh Hm Hs Hsep Hmax Hr.
  unfold UINT32_MAX in Hmax.
  pose proof (year_of_day d n Hd Hn ltac:(lia)) as Hy.
  unfold ScanUnixTime, time_text, clock_text. rewrite <- !app_assoc.
  rewrite scan_ymd_text; [|assumption|lia|destruct Hsep as [-> | ->]; reflexivity].
  cbn [obind].
  destruct (Z.ltb_spec (yr d) 1970); [lia|].
  rewrite int32b_true by (unfold int32; lia). cbn [negb].
  rewrite c_days_rata by lia. rewrite <- (day_number_rata d n) by assumption.
  rewrite (u32_id n) by (unfold uint32; lia).
  destruct (Z.ltb_spec MAX_DAY n); [unfold MAX_DAY in *; lia|].
  rewrite (u32_id (n * 86400)) by (unfold uint32; lia).
  replace (cur ([sep] ++ fmt0 2 h ++ [58] ++ fmt0 2 m ++ [58] ++ fmt0 2 s ++ rest)) with sep by reflexivity.
  destruct (Z.eqb_spec sep 0); [lia|].
  replace (negb (sep =? 32) && negb (sep =? 84)) with false by lia.
  cbn [tl app].
  rewrite (ScanInt_fmt0 2 h) by (try reflexivity; lia). cbn [obind cur hd tl].
  rewrite int32b_true by (unfold int32; lia). cbn [negb].
  change (58 =? 0) with false. change (58 =? 58) with true. cbn [negb]. cbv iota.
  rewrite (ScanInt_fmt0 2 m) by (try reflexivity; lia). cbn [obind cur hd tl].
  rewrite int32b_true by (unfold int32; lia). cbn [negb].
  change (58 =? 58) with true. cbn [negb].
  rewrite (ScanInt_fmt0 2 s) by (try assumption; lia). cbn [obind].
  rewrite (u32_id (n * 86400 + h * 3600)) by (unfold uint32; lia).
  rewrite (u32_id (n * 86400 + h * 3600 + m * 60)) by (unfold uint32; lia).
  rewrite (u32_id (n * 86400 + h * 3600 + m * 60 + s)) by (unfold uint32; lia). reflexivity.
Qed.

Lemma ScanUnixTime_date d n : valid_date d -> day_number d n -> 0 <= n <= 49710 ->
  ScanUnixTime (date_text d) = Ok (n * 86400, []).
Proof.
  intros Hd Hn Hn0. pose proof (year_of_day d n Hd Hn ltac:(lia)) as Hy.
  unfold ScanUnixTime. rewrite <- (app_nil_r (date_text d)).
  rewrite scan_ymd_text; [|assumption|lia|reflexivity]. cbn [obind].
  destruct (Z.ltb_spec (yr d) 1970); [lia|].
  rewrite int32b_true by (unfold int32; lia). cbn [negb].
  rewrite c_days_rata by lia. rewrite <- (day_number_rata d n) by assumption.
  rewrite (u32_id n) by (unfold uint32; lia).
  destruct (Z.ltb_spec MAX_DAY n); [unfold MAX_DAY in *; lia|].
  rewrite (u32_id (n * 86400)) by (unfold uint32; lia). reflexivity.
Qed.

Lemma fmt0_3 v : 0 <= v < 1000 -> fmt0 3 v = [48 + v / 100; 48 + v / 10 mod 10; 48 + v mod 10].
Proof.
  intros Hv.
  assert (H : forallb (fun k => let v := Z.of_nat k in
      if list_eq_dec Z.eq_dec (fmt0 3 v) [48 + v / 100; 48 + v / 10 mod 10; 48 + v mod 10] then true else false) (seq 0 1000) = true)
    by (vm_compute; reflexivity).
  rewrite forallb_forall in H. specialize (H (Z.to_nat v) ltac:(apply in_seq; lia)).
  cbv zeta in H. rewrite Z2Nat.id in H by lia.
  destruct (list_eq_dec Z.eq_dec (fmt0 3 v) _); [assumption|discriminate].
Qed.

Lemma fmt0_len w n : 0 <= n < 10 ^ w -> 1 <= w -> zlen (fmt0 w n) = w.
Proof.
  intros Hn Hw. unfold fmt0. destruct (Z.ltb_spec n 0); [lia|].
  rewrite zlen_app. pose proof (udec_len n w Hn Hw). unfold zeros. rewrite zlen_repeat by lia. lia.
Qed.

Lemma nth_date_text d sep rest : 0 <= yr d < 10000 -> valid_date d ->
  nth 10 (date_text d ++ sep :: rest) 0 = sep.
Proof.
  intros Hy [Hm Hdd]. pose proof (month_days_pos (yr d) (mo d)).
  assert (L : zlen (date_text d) = 10).
  { unfold date_text. rewrite !zlen_app, !fmt0_len by (change (10^4) with 10000; change (10^2) with 100; lia). reflexivity. }
  assert (List.length (date_text d) = 10%nat) as L' by (unfold zlen in L; lia).
  rewrite app_nth2 by lia. rewrite L'. reflexivity.
Qed.

Lemma ScanUnixTime64msec_ok d n h m s ms rest :
  valid_date d -> day_number d n -> 0 <= n -> 0 <= h < 24 -> 0 <= m < 60 -> 0 <= s < 60 -> 0 <= ms < 1000 ->
  n * 86400 + h * 3600 + m * 60 + s <= UINT32_MAX ->
  ScanUnixTime64msec (time_text 32 d h m s ++ [46] ++ fmt0 3 ms ++ rest)
  = Ok ((n * 86400 + h * 3600 + m * 60 + s) * 1000 + ms, rest).
Proof.
  intros Hd Hn Hn0 Hh Hm Hs Hms Hmax.
  unfold UINT32_MAX in Hmax. pose proof (year_of_day d n Hd Hn ltac:(lia)) as Hy.
  unfold ScanUnixTime64msec.
  rewrite (ScanUnixTime_ok d n) by (try assumption; try (left; reflexivity); try reflexivity; unfold UINT32_MAX; lia).
  cbn [obind]. cbn [app cur hd tl]. change (negb (46 =? 46)) with false. cbv iota.
  rewrite fmt0_3 by assumption. cbn [app].
  assert (forall x, 0 <= x < 10 -> is_digit (48 + x) = true) as D by (intros; unfold is_digit; lia).
  rewrite !D by lia. cbn [andb].
  unfold time_text. rewrite <- !app_assoc. cbn [app].
  rewrite nth_date_text by (try assumption; lia). change (32 =? 84) with false. cbv iota.
  do 2 f_equal. lia.
Qed.

(** ISO form with 'T' and 'Z'. *)
Lemma ScanUnixTime64msec_iso d n h m s ms :
  valid_date d -> day_number d n -> 0 <= n -> 0 <= h < 24 -> 0 <= m < 60 -> 0 <= s < 60 -> 0 <= ms < 1000 ->
  n * 86400 + h * 3600 + m * 60 + s <= UINT32_MAX ->
  ScanUnixTime64msec (time_text 84 d h m s ++ [46] ++ fmt0 3 ms ++ [90])
  = Ok ((n * 86400 + h * 3600 + m * 60 + s) * 1000 + ms, [90]).
Proof.
  intros Hd Hn Hn0 Hh Hm Hs Hms Hmax.
  unfold UINT32_MAX in Hmax. pose proof (year_of_day d n Hd Hn ltac:(lia)) as Hy.
  unfold ScanUnixTime64msec.
  rewrite (ScanUnixTime_ok d n) by (try assumption; try (right; reflexivity); try reflexivity; unfold UINT32_MAX; lia).
  cbn [obind]. cbn [app cur hd tl]. change (negb (46 =? 46)) with false. cbv iota.
  rewrite fmt0_3 by assumption. cbn [app].
  assert (forall x, 0 <= x < 10 -> is_digit (48 + x) = true) as D by (intros; unfold is_digit; lia).
  rewrite !D by lia. cbn [andb].
  unfold time_text. rewrite <- !app_assoc. cbn [app].
  rewrite nth_date_text by (try assumption; lia). change (84 =? 84) with true. cbv iota.
  cbn [skip_digits]. change (is_digit 90) with false. cbv iota. cbn [cur hd].
  change ((90 =? 43) || (90 =? 45)) with false. cbv iota.
  do 2 f_equal. lia.
Qed.

(** Numeric zone "+hh:mm" / "-hh:mm". *)
Lemma ScanUnixTime64msec_zone d n h m s ms sign zh zm :
  valid_date d -> day_number d n -> 0 <= n -> 0 <= h < 24 -> 0 <= m < 60 -> 0 <= s < 60 -> 0 <= ms < 1000 ->
  0 <= zh < 24 -> 0 <= zm < 60 -> sign = 43 \/ sign = 45 ->
  n * 86400 + h * 3600 + m * 60 + s <= UINT32_MAX ->
  let utc := n * 86400 + h * 3600 + m * 60 + s + (if sign =? 43 then - (zh * 3600 + zm * 60) else zh * 3600 + zm * 60) in
  0 <= utc <= UINT32_MAX ->
  ScanUnixTime64msec (time_text 84 d h m s ++ [46] ++ fmt0 3 ms ++ [sign] ++ fmt0 2 zh ++ [58] ++ fmt0 2 zm)
  = Ok (utc * 1000 + ms, []).
Proof.
  intros Hd Hn Hn0 Hh Hm Hs Hms Hzh Hzm Hsign Hmax utc Hutc.
  unfold UINT32_MAX in Hmax, Hutc. pose proof (year_of_day d n Hd Hn ltac:(lia)) as Hy.
  unfold ScanUnixTime64msec.
  rewrite (ScanUnixTime_ok d n) by (try assumption; try (right; reflexivity); try reflexivity; unfold UINT32_MAX; lia).
  cbn [obind]. cbn [app cur hd tl]. change (negb (46 =? 46)) with false. cbv iota.
  rewrite fmt0_3 by assumption. cbn [app].
  assert (forall x, 0 <= x < 10 -> is_digit (48 + x) = true) as D by (intros; unfold is_digit; lia).
  rewrite !D by lia. cbn [andb].
  unfold time_text. rewrite <- !app_assoc. cbn [app].
  rewrite nth_date_text by (try assumption; lia). change (84 =? 84) with true. cbv iota.
  cbn [skip_digits]. replace (is_digit sign) with false by (destruct Hsign as [-> | ->]; reflexivity).
  cbn [cur hd tl]. replace ((sign =? 43) || (sign =? 45)) with true by lia. cbv iota.
  rewrite (ScanInt_fmt0 2 zh) by (try reflexivity; lia). cbn [cur hd tl]. change (58 =? 58) with true. cbv iota.
  rewrite <- (app_nil_r (fmt0 2 zm)).
  rewrite (ScanInt_fmt0 2 zm) by (try reflexivity; lia).
  rewrite !int32b_true by (unfold int32; lia). cbn [negb andb]. cbv zeta.
  set (t := n * 86400 + h * 3600 + m * 60 + s) in *.
  subst utc. destruct (sign =? 43).
  - rewrite u32_id by (unfold uint32; lia). do 2 f_equal. lia.
  - rewrite u32_id by (unfold uint32; lia). do 2 f_equal. lia.
Qed.

(** The last representable day: a time after 06:28:15 wraps around silently. *)
Lemma ScanUnixTime_wrap : exists d h,
  valid_date d /\ day_number d 49710 /\ 0 <= h < 24 /\
  ScanUnixTime (time_text 32 d h 0 0) = Ok (49710 * 86400 + h * 3600 - 4294967296, []).
Proof.
  exists (mkdate 2106 2 7), 12.
  assert (V : valid_date (mkdate 2106 2 7)) by (split; cbv; split; discriminate).
  split; [assumption|]. split.
  - change 49710 with (rata (mkdate 2106 2 7)). apply rata_day_number. assumption.
  - split; [lia|]. vm_compute. reflexivity.
Qed.

(** ** UnixTime642Str *)
Lemma UnixTime642Str_ok v d : 0 <= v -> v / 86400000 <= INT_MAX -> valid_date d -> day_number d (v / 86400000) ->
  UnixTime642Str v =
    if last_of_leap_year d then Ub
    else Ok (time_text 32 d (v mod 86400000 / 3600000) (v mod 3600000 / 60000) (v mod 60000 / 1000) ++ [46] ++ fmt0 3 (v mod 1000)).
Proof.
  intros Hv Hmax Hd Hn. unfold UnixTime642Str.
  rewrite Z.quot_div_nonneg by lia. unfold INT_MAX in Hmax.
  replace (s32 (v / 86400000)) with (v / 86400000) by (unfold s32; lia).
  rewrite (UnixDate2Str_ok _ d); [|unfold int32; lia|unfold INT_MIN; lia|assumption|assumption].
  destruct (last_of_leap_year d); [reflexivity|].
  rewrite !Z.rem_mod_nonneg by lia.
  set (r := v mod 86400000). assert (Hr : 0 <= r < 86400000) by (subst r; lia).
  rewrite !Z.quot_div_nonneg by lia.
  unfold time_text, clock_text. rewrite <- !app_assoc.
  replace (r / 3600000 mod 24) with (r / 3600000) by lia.
  replace (r / 60000 mod 60) with (v mod 3600000 / 60000) by (subst r; lia).
  replace (r / 1000 mod 60) with (v mod 60000 / 1000) by (subst r; lia).
  replace (r mod 1000) with (v mod 1000) by (subst r; lia). reflexivity.
Qed.

(** Every day number has exactly one valid date. *)
Lemma day_number_unique d e n : valid_date d -> valid_date e -> day_number d n -> day_number e n -> d = e.
Proof.
  intros Hd He H1 H2. apply day_number_rata in H1; [|assumption]. apply day_number_rata in H2; [|assumption].
  apply rata_inj; try assumption. lia.
Qed.

Lemma day_number_exists n : 0 <= n -> exists d, valid_date d /\ day_number d n.
Proof.
  intros Hn. exists (Nat.iter (Z.to_nat n) next_day epoch). split; [apply iter_next, epoch_valid|].
  unfold day_number. destruct (Z.leb_spec 0 n); [reflexivity|lia].
Qed.

(** Round trip of a day number through its text. *)
Lemma ScanUnixDate_UnixDate2Str v d t : valid_date d -> day_number d v -> 1969 <= yr d <= 369689 ->
  UnixDate2Str v = Ok t -> ScanUnixDate t = Ok (v, []).
Proof.
  intros Hd Hn Hy Ht.
  assert (Hv : int32 v /\ INT_MIN + 10957 <= v).
  { apply day_number_rata in Hn; [|assumption]. subst v. pose proof (day_in_year d Hd) as D.
    unfold year_len in D. unfold int32, INT_MIN, rata, year_start. destruct (leap (yr d)); lia. }
  rewrite (UnixDate2Str_ok v d) in Ht by (try assumption; tauto).
  destruct (last_of_leap_year d); [discriminate|]. injection Ht as <-.
  rewrite <- (app_nil_r (date_text d)). apply ScanUnixDate_ok; try assumption. reflexivity.
Qed.

Lemma leap_december : exists v d, int32 v /\ valid_date d /\ day_number d v /\ UnixDate2Str v = Fail.
Proof.
  exists (rata (mkdate 2024 12 31)), (mkdate 2024 12 31).
  assert (V : valid_date (mkdate 2024 12 31)) by (split; cbv; split; discriminate).
  split; [split; vm_compute; discriminate|]. split; [assumption|].
  split; [apply rata_day_number; assumption|]. vm_compute. reflexivity.
Qed.

Lemma time_roundtrip t d rest :
  uint32 t -> valid_date d -> day_number d (t / 86400) -> is_digit (cur rest) = false ->
  ScanUnixTime (time_text 32 d (t mod 86400 / 3600) (t mod 3600 / 60) (t mod 60) ++ rest) = Ok (t, rest).
Proof.
  unfold uint32. intros Ht Hd Hn Hr.
  assert (E : t = t / 86400 * 86400 + t mod 86400 / 3600 * 3600 + t mod 3600 / 60 * 60 + t mod 60) by lia.
  rewrite (ScanUnixTime_ok d (t / 86400)); try assumption; try lia.
  - do 2 f_equal. lia.
  - unfold UINT32_MAX. lia.
Qed.

Lemma msec_roundtrip t d rest :
  0 <= t / 1000 <= UINT32_MAX -> valid_date d -> day_number d (t / 86400000) ->
  ScanUnixTime64msec (time_text 32 d (t mod 86400000 / 3600000) (t mod 3600000 / 60000) (t mod 60000 / 1000)
     ++ [46] ++ fmt0 3 (t mod 1000) ++ rest) = Ok (t, rest).
Proof.
  unfold UINT32_MAX. intros Ht Hd Hn.
  rewrite (ScanUnixTime64msec_ok d (t / 86400000)); try assumption; try lia.
  - do 2 f_equal. lia.
  - unfold UINT32_MAX. lia.
Qed.
