(** From a text to its detected type, the stored value and back to a text. *)
From Verif Require Import Base BaseFacts NumSpec CalSpec Base64Spec Scan ScanProofs Base64 Base64Proofs Dates DatesProofs
  Types ScalarSpec ListFacts ChunkProofs ScalarProofs RingProofs DetectProofs ShownProofs.

(** ** Showing in a fresh ring *)

Definition fresh : list Z := zrepeat 0 257.
Lemma fresh_len : zlen fresh = 257.
Proof. apply zlen_repeat. lia. Qed.

Definition shows (fl : floats) (ty : Z) (data out t : list Z) : Prop :=
  exists s st', XBT_ToString fl ty data out ring0 = Ok (s, st') /\ shown_text s st' = Some t.

Lemma ring_shows fl ty data out c t : In ty ring_types ->
  XBT_ToStringChunk fl ty data 0 fresh = Ok c -> cstr (ck_dst c) = t -> shows fl ty data out t.
Proof.
  intros Hin H Hc. unfold shows, XBT_ToString. cbv zeta.
  assert (E : (ty =? XBT_NULL) = false /\ (ty =? XBT_STRING) = false /\ (ty =? XBT_GUID) = false /\ isin ty ring_types = true).
  { unfold ring_types in Hin. cbn [In] in Hin. repeat (destruct Hin as [<-|Hin]; [repeat split|]). contradiction. }
  destruct E as (-> & -> & -> & E4).
  change [XBT_INT32; XBT_INT32_DECI; XBT_INT32_CENTI; XBT_INT32_MILI; XBT_INT32_MICRO; XBT_INT32_NANO; XBT_UINT32; XBT_INT64; XBT_UINT64;
      XBT_FLOAT; XBT_UNIX_TIME; XBT_UNIX_DATE; XBT_UNIX_TIME64_MSEC; XBT_SHA1] with ring_types.
  rewrite E4. change (nth (Z.to_nat (rg_idx ring0)) (rg_bufs ring0) []) with fresh. rewrite H. cbn [obind].
  eexists _, _. split; [reflexivity|]. unfold shown_text. cbn [rg_bufs]. rewrite set_nth_same by (split; [vm_compute; discriminate|vm_compute; reflexivity]). rewrite Hc. reflexivity.
Qed.

Lemma delivers_shows fl ty data out t n : In ty ring_types ->
  delivers_cstr (XBT_ToStringChunk fl ty data 0 fresh) t n -> shows fl ty data out t.
Proof. intros Hin (c & H & _ & _ & _ & _ & Hc). apply (ring_shows fl ty data out c t Hin H Hc). Qed.

Lemma cstr_app_zero t r : cstring t -> hd 0 r = 0 -> cstr (t ++ r) = t.
Proof.
  intros Ht Hr. destruct r as [|x r]; [rewrite app_nil_r; apply cstr_id, Ht|]. cbn [hd] in Hr. subst x. apply cstr_app, Ht.
Qed.

Lemma zrepeat_firstn {A} (x : A) n m : (n <= m)%nat -> firstn n (repeat x m) = repeat x n.
Proof. revert m; induction n as [|n IH]; intros m H; [reflexivity|]. destruct m; [lia|]. cbn. rewrite IH by lia. reflexivity. Qed.

Lemma number_fresh ds : cstring ds -> zlen ds <= 40 -> exists c, number_chunk fresh ds = Ok c /\ cstr (ck_dst c) = ds.
Proof.
  intros Hd Hl. pose proof (zlen_nonneg ds). unfold number_chunk. eexists. split; [reflexivity|]. cbn [ck_dst].
  rewrite bput_0. apply cstr_app_zero; [exact Hd|].
  unfold bput at 1. rewrite zskip_app_le.
  2: { rewrite zlen_take by (rewrite fresh_len; lia). rewrite opened_len, fresh_len by (rewrite fresh_len; lia). lia. }
  assert (E : ztake (zlen fresh - 1 - 1 - zlen ds) (opened fresh) = zrepeat 0 (255 - zlen ds)).
  { rewrite fresh_len. unfold opened. rewrite fresh_len. unfold bput. rewrite ztake_app_l.
    2: { rewrite zlen_take, fresh_len by lia. lia. }
    unfold ztake, fresh, zrepeat. rewrite (zrepeat_firstn 0 (Z.to_nat (257 - 1))) by lia. rewrite zrepeat_firstn by lia. f_equal; lia. }
  rewrite E. unfold zskip, zrepeat.
  replace (Z.to_nat (255 - zlen ds)) with (Z.to_nat (zlen ds) + S (Z.to_nat (254 - 2 * zlen ds)))%nat by lia.
  rewrite repeat_app, skipn_app, skipn_all2 by (rewrite repeat_length; lia). rewrite repeat_length, Nat.sub_diag. reflexivity.
Qed.

Lemma udec_cstring n : 0 <= n -> cstring (udec n).
Proof. intros H. apply digits_cchar, udec_digits, H. Qed.

Lemma int64_shows fl v rest out : int64 v -> v <> INT64_MIN -> v <> -576460752303423488 ->
  shows fl XBT_INT64 (le 8 v ++ rest) out (sdec v).
Proof.
  intros Hv Hmin Hsp. pose proof Hv as Hv'. unfold int64 in Hv'. 
  assert (Hin : In XBT_INT64 ring_types) by (unfold ring_types; cbn [In]; tauto).
  assert (E : exists c, XBT_ToStringChunk fl XBT_INT64 (le 8 v ++ rest) 0 fresh = Ok c /\ cstr (ck_dst c) = sdec v).
  { rewrite chunk_int64 by (rewrite fresh_len; lia). cbv zeta. rewrite take8_le, s64_le by assumption.
    destruct (Z.eqb_spec v 0) as [->|Hz]; [eexists; split; [reflexivity|vm_compute; reflexivity]|].
    destruct (Z.eqb_spec v (-576460752303423488)); [contradiction|].
    destruct (Z.eqb_spec v INT64_MIN); [contradiction|].
    rewrite dec_loop_udec by (change (10 ^ Z.of_nat 38) with 100000000000000000000000000000000000000; lia).
    replace (if v <? 0 then 45 :: udec (Z.abs v) else udec (Z.abs v)) with (sdec v).
    2: { unfold sdec. destruct (Z.ltb_spec v 0); [replace (Z.abs v) with (- v) by lia|replace (Z.abs v) with v by lia]; reflexivity. }
    apply number_fresh; [apply sdec_cstring|]. pose proof (sdec_len v 19 ltac:(lia)). change (10 ^ 19) with 10000000000000000000 in *. lia. }
  destruct E as (c & E1 & E2). apply (ring_shows fl _ _ _ c _ Hin E1 E2).
Qed.

Lemma uint64_shows fl v rest out : uint64 v -> shows fl XBT_UINT64 (le 8 v ++ rest) out (udec v).
Proof.
  intros Hv. unfold uint64 in Hv.
  assert (Hin : In XBT_UINT64 ring_types) by (unfold ring_types; cbn [In]; tauto).
  assert (E : exists c, XBT_ToStringChunk fl XBT_UINT64 (le 8 v ++ rest) 0 fresh = Ok c /\ cstr (ck_dst c) = udec v).
  { rewrite chunk_uint64 by (rewrite fresh_len; lia). cbv zeta. rewrite take8_le, unle8, Z.mod_small by lia.
    destruct (Z.eqb_spec v 0) as [->|Hz]; [eexists; split; [reflexivity|vm_compute; reflexivity]|].
    rewrite dec_loop_udec by (change (10 ^ Z.of_nat 38) with 100000000000000000000000000000000000000; lia).
    apply number_fresh; [apply udec_cstring; lia|]. pose proof (udec_len v 20 ltac:(change (10 ^ 20) with 100000000000000000000; lia)). lia. }
  destruct E as (c & E1 & E2). apply (ring_shows fl _ _ _ c _ Hin E1 E2).
Qed.

(** ** Storing *)

Lemma take_digits_ok ds : forall v rest, Forall digit ds -> is_digit (cur rest) = false -> take_digits v (ds ++ rest) = dval v ds.
Proof.
  induction ds as [|c ds IH]; intros v rest Hd Hr; cbn [app].
  - destruct rest as [|c r]; [reflexivity|]. cbn [take_digits cur hd] in *. rewrite Hr. reflexivity.
  - inversion Hd as [|? ? Hc Hds]; subst. cbn [take_digits]. assert (is_digit c = true) as -> by (unfold is_digit, digit in *; lia).
    rewrite IH by assumption. reflexivity.
Qed.

Lemma atoi_sdec n : int32 n -> atoi (sdec n) = n.
Proof.
  intros Hn. unfold int32 in Hn. unfold atoi.
  assert (Hdig : forall m, 0 <= m -> take_digits 0 (udec m) = m).
  { intros m Hm. rewrite <- (app_nil_r (udec m)). rewrite take_digits_ok; [|apply udec_digits, Hm|reflexivity].
    change (dval 0 (udec m)) with (dec_value (udec m)). apply udec_value, Hm. }
  unfold sdec. destruct (Z.ltb_spec n 0).
  - rewrite skip_spaces_id by reflexivity. change (cur (45 :: udec (- n))) with 45. change (45 =? 45) with true. cbn [orb tl].
    rewrite Hdig by lia. unfold s32, INT64_MIN. lia.
  - pose proof (udec_digits n ltac:(lia)) as Hd. pose proof (udec_nonempty n ltac:(lia)) as Hne.
    assert (Hc : digit (cur (udec n))) by (destruct (udec n); [contradiction|inversion Hd; assumption]).
    unfold digit in Hc. rewrite skip_spaces_id by (unfold is_space; lia).
    assert ((cur (udec n) =? 45) = false) as -> by lia. assert ((cur (udec n) =? 43) = false) as -> by lia. cbn [orb].
    rewrite Hdig by lia. unfold s32, INT64_MAX. lia.
Qed.

Definition stores (fl : floats) (t : list Z) (ty wp limit : Z) (bs : list Z) : Prop :=
  exists sv, XBT_FromString fl t ty wp limit = Ok sv /\ st_bytes sv = bs /\ wp <= st_pos sv /\ st_wp sv = st_pos sv + zlen bs /\
    st_pos sv = align_to (if ty =? XBT_UNIX_TIME64_MSEC then 4 else XBT_Align ty) wp.

Ltac stores_by := unfold stores, XBT_FromString; cbv zeta; eexists; split; [reflexivity|]; cbn [st_bytes st_pos st_wp];
  split; [reflexivity|]; split; [apply align_up_ge; lia|]; split; reflexivity.

Lemma stores_int32 fl n wp limit : int32 n -> 0 <= wp -> stores fl (sdec n) XBT_INT32 wp limit (le 4 n).
Proof.
  intros Hn Hw. unfold stores.
  change (XBT_FromString fl (sdec n) XBT_INT32 wp limit) with (Ok (mkstored (align_up 4 wp) (le 4 (atoi (sdec n))) (align_up 4 wp + zlen (le 4 (atoi (sdec n)))))).
  rewrite atoi_sdec by assumption. eexists. split; [reflexivity|]. cbn [st_bytes st_pos st_wp]. split; [reflexivity|].
  split; [apply align_up_ge; lia|]. split; reflexivity.
Qed.

Lemma stores_int64 fl n wp limit : int64 n -> n <> INT64_MIN -> 0 <= wp -> stores fl (sdec n) XBT_INT64 wp limit (le 8 n).
Proof.
  intros Hn Hm Hw. unfold stores.
  change (XBT_FromString fl (sdec n) XBT_INT64 wp limit) with
    (obind (ScanInt64 (sdec n)) (fun '(v, _) => Ok (mkstored (align_up 8 wp) (le 8 v) (align_up 8 wp + zlen (le 8 v))))).
  assert (E : ScanInt64 (sdec n) = Ok (n, [])).
  { rewrite <- (app_nil_r (sdec n)). apply ScanInt64_numeral; try assumption; [apply sdec_signed_numeral|reflexivity]. }
  rewrite E. cbn [obind]. eexists. split; [reflexivity|]. cbn [st_bytes st_pos st_wp]. split; [reflexivity|].
  split; [apply align_up_ge; lia|]. split; reflexivity.
Qed.

Lemma stores_uint64 fl n wp limit : uint64 n -> 0 <= wp -> stores fl (udec n) XBT_UINT64 wp limit (le 8 n).
Proof.
  intros Hn Hw. unfold stores.
  change (XBT_FromString fl (udec n) XBT_UINT64 wp limit) with
    (obind (ScanUInt64 (udec n)) (fun '(v, _) => Ok (mkstored (align_up 8 wp) (le 8 v) (align_up 8 wp + zlen (le 8 v))))).
  assert (E : ScanUInt64 (udec n) = Ok (n, [])).
  { rewrite <- (app_nil_r (udec n)). unfold uint64 in Hn. apply ScanUInt64_numeral; [exact Hn|apply udec_numeral; lia|reflexivity|discriminate]. }
  rewrite E. cbn [obind]. eexists. split; [reflexivity|]. cbn [st_bytes st_pos st_wp]. split; [reflexivity|].
  split; [apply align_up_ge; lia|]. split; reflexivity.
Qed.

Lemma stores_fixed fl ty k t V wp limit : In (ty, k) fixed_types -> fraction_text k V t -> Z.abs V + 48 <= INT_MAX -> 0 <= wp ->
  stores fl t ty wp limit (le 4 V).
Proof.
  intros Hin (sign & ip & fp & -> & Hne & Hip & Hfp & Hl & Hs) Hb Hw.
  pose proof (dec_value_bound (ip ++ fp) (proj2 (Forall_app _ _ _) (conj Hip Hfp))) as HB.
  assert (E : forall n, Z.of_nat n = k -> str2dec (sign ++ ip ++ [46] ++ fp) n = Ok V).
  { intros n Hn. rewrite (str2dec_ok n) by (try assumption; try (unfold zlen in Hl; lia); destruct Hs as [[-> ->]|[-> ->]]; auto; lia).
    destruct Hs as [[-> ->]|[-> ->]]; reflexivity. }
  unfold stores. unfold fixed_types in Hin. cbn [In] in Hin.
  destruct Hin as [H|[H|[H|[H|[H|[]]]]]]; injection H as <- <-; unfold XBT_FromString; cbv zeta.
  - change (stores fl (sign ++ ip ++ [46] ++ fp) XBT_INT32_DECI wp limit (le 4 V)).
    unfold stores. change (XBT_FromString fl (sign ++ ip ++ [46] ++ fp) XBT_INT32_DECI wp limit) with
      (obind (str2dec (sign ++ ip ++ [46] ++ fp) 1) (fun v => Ok (mkstored (align_up 4 wp) (le 4 v) (align_up 4 wp + zlen (le 4 v))))).
    rewrite (E 1%nat eq_refl). cbn [obind]. eexists. split; [reflexivity|]. cbn [st_bytes st_pos st_wp]. split; [reflexivity|].
    split; [apply align_up_ge; lia|]. split; reflexivity.
  - change (stores fl (sign ++ ip ++ [46] ++ fp) XBT_INT32_CENTI wp limit (le 4 V)).
    unfold stores. change (XBT_FromString fl (sign ++ ip ++ [46] ++ fp) XBT_INT32_CENTI wp limit) with
      (obind (str2dec (sign ++ ip ++ [46] ++ fp) 2) (fun v => Ok (mkstored (align_up 4 wp) (le 4 v) (align_up 4 wp + zlen (le 4 v))))).
    rewrite (E 2%nat eq_refl). cbn [obind]. eexists. split; [reflexivity|]. cbn [st_bytes st_pos st_wp]. split; [reflexivity|].
    split; [apply align_up_ge; lia|]. split; reflexivity.
  - change (stores fl (sign ++ ip ++ [46] ++ fp) XBT_INT32_MILI wp limit (le 4 V)).
    unfold stores. change (XBT_FromString fl (sign ++ ip ++ [46] ++ fp) XBT_INT32_MILI wp limit) with
      (obind (str2dec (sign ++ ip ++ [46] ++ fp) 3) (fun v => Ok (mkstored (align_up 4 wp) (le 4 v) (align_up 4 wp + zlen (le 4 v))))).
    rewrite (E 3%nat eq_refl). cbn [obind]. eexists. split; [reflexivity|]. cbn [st_bytes st_pos st_wp]. split; [reflexivity|].
    split; [apply align_up_ge; lia|]. split; reflexivity.
  - change (stores fl (sign ++ ip ++ [46] ++ fp) XBT_INT32_MICRO wp limit (le 4 V)).
    unfold stores. change (XBT_FromString fl (sign ++ ip ++ [46] ++ fp) XBT_INT32_MICRO wp limit) with
      (obind (str2dec (sign ++ ip ++ [46] ++ fp) 6) (fun v => Ok (mkstored (align_up 4 wp) (le 4 v) (align_up 4 wp + zlen (le 4 v))))).
    rewrite (E 6%nat eq_refl). cbn [obind]. eexists. split; [reflexivity|]. cbn [st_bytes st_pos st_wp]. split; [reflexivity|].
    split; [apply align_up_ge; lia|]. split; reflexivity.
  - change (stores fl (sign ++ ip ++ [46] ++ fp) XBT_INT32_NANO wp limit (le 4 V)).
    unfold stores. change (XBT_FromString fl (sign ++ ip ++ [46] ++ fp) XBT_INT32_NANO wp limit) with
      (obind (str2dec (sign ++ ip ++ [46] ++ fp) 9) (fun v => Ok (mkstored (align_up 4 wp) (le 4 v) (align_up 4 wp + zlen (le 4 v))))).
    rewrite (E 9%nat eq_refl). cbn [obind]. eexists. split; [reflexivity|]. cbn [st_bytes st_pos st_wp]. split; [reflexivity|].
    split; [apply align_up_ge; lia|]. split; reflexivity.
Qed.

Lemma stores_ipv4 fl v wp limit : uint32 v -> 0 <= wp ->
  stores fl (quad (v / 16777216) (v / 65536 mod 256) (v / 256 mod 256) (v mod 256)) XBT_IPv4 wp limit (le 4 v).
Proof.
  intros Hv Hw. set (t := quad _ _ _ _). unfold stores.
  change (XBT_FromString fl t XBT_IPv4 wp limit) with
    (obind (ScanIPv4 t) (fun '(v, _) => Ok (mkstored (align_up 4 wp) (le 4 v) (align_up 4 wp + zlen (le 4 v))))).
  assert (E : ScanIPv4 t = Ok (v, [])) by (rewrite <- (app_nil_r t); apply ScanIPv4_all; [assumption|reflexivity]).
  rewrite E. cbn [obind]. eexists. split; [reflexivity|]. cbn [st_bytes st_pos st_wp]. split; [reflexivity|].
  split; [apply align_up_ge; lia|]. split; reflexivity.
Qed.

Lemma stores_date fl d n wp limit : valid_date d -> 1969 <= yr d <= 369689 -> day_number d n -> 0 <= wp ->
  stores fl (date_text d) XBT_UNIX_DATE wp limit (le 4 n).
Proof.
  intros Hd Hy Hn Hw. unfold stores.
  change (XBT_FromString fl (date_text d) XBT_UNIX_DATE wp limit) with
    (obind (ScanUnixDate (date_text d)) (fun '(v, _) => Ok (mkstored (align_up 4 wp) (le 4 v) (align_up 4 wp + zlen (le 4 v))))).
  assert (E : ScanUnixDate (date_text d) = Ok (n, [])) by (rewrite <- (app_nil_r (date_text d)); apply ScanUnixDate_ok; try assumption; reflexivity).
  rewrite E. cbn [obind]. eexists. split; [reflexivity|]. cbn [st_bytes st_pos st_wp]. split; [reflexivity|].
  split; [apply align_up_ge; lia|]. split; reflexivity.
Qed.

Lemma stores_time fl d t wp limit : uint32 t -> valid_date d -> day_number d (t / 86400) -> 0 <= wp ->
  stores fl (time_text 32 d (t mod 86400 / 3600) (t mod 3600 / 60) (t mod 60)) XBT_UNIX_TIME wp limit (le 4 t).
Proof.
  intros Ht Hd Hn Hw. set (x := time_text _ _ _ _ _). unfold stores.
  change (XBT_FromString fl x XBT_UNIX_TIME wp limit) with
    (obind (ScanUnixTime x) (fun '(v, _) => Ok (mkstored (align_up 4 wp) (le 4 v) (align_up 4 wp + zlen (le 4 v))))).
  assert (E : ScanUnixTime x = Ok (t, [])) by (rewrite <- (app_nil_r x); apply time_roundtrip; try assumption; reflexivity).
  rewrite E. cbn [obind]. eexists. split; [reflexivity|]. cbn [st_bytes st_pos st_wp]. split; [reflexivity|].
  split; [apply align_up_ge; lia|]. split; reflexivity.
Qed.

Definition msec_text (d : date) (t : Z) : list Z :=
  time_text 32 d (t mod 86400000 / 3600000) (t mod 3600000 / 60000) (t mod 60000 / 1000) ++ [46] ++ fmt0 3 (t mod 1000).

Lemma stores_time64 fl d t wp limit : 0 <= t / 1000 <= UINT32_MAX -> valid_date d -> day_number d (t / 86400000) -> 0 <= wp ->
  stores fl (msec_text d t) XBT_UNIX_TIME64_MSEC wp limit (le 8 t).
Proof.
  intros Ht Hd Hn Hw. unfold stores.
  change (XBT_FromString fl (msec_text d t) XBT_UNIX_TIME64_MSEC wp limit) with
    (obind (ScanUnixTime64msec (msec_text d t)) (fun '(v, _) => Ok (mkstored (align_up 4 wp) (le 8 v) (align_up 4 wp + zlen (le 8 v))))).
  assert (E : ScanUnixTime64msec (msec_text d t) = Ok (t, [])).
  { rewrite <- (msec_roundtrip t d [] Ht Hd Hn). f_equal. unfold msec_text. rewrite app_nil_r. reflexivity. }
  rewrite E. cbn [obind]. eexists. split; [reflexivity|]. cbn [st_bytes st_pos st_wp]. split; [reflexivity|].
  split; [apply align_up_ge; lia|]. split; reflexivity.
Qed.

Lemma stores_guid fl l wp limit : bytes l -> List.length l = 16%nat -> 0 <= wp -> stores fl (GUID2Str l) XBT_GUID wp limit l.
Proof.
  intros Hb Hl Hw. unfold stores.
  change (XBT_FromString fl (GUID2Str l) XBT_GUID wp limit) with
    (let '(n, bs, _) := ScanHex (GUID2Str l) 16 in if n =? 16 then Ok (mkstored (align_up 4 wp) bs (align_up 4 wp + zlen bs)) else Fail).
  rewrite ScanHex_GUID2Str by assumption. eexists. split; [reflexivity|]. cbn [st_bytes st_pos st_wp]. split; [reflexivity|].
  split; [apply align_up_ge; lia|]. split; reflexivity.
Qed.

Lemma stores_sha1 fl l wp limit : bytes l -> List.length l = 20%nat -> 0 <= wp -> stores fl (Hex2Str l) XBT_SHA1 wp limit l.
Proof.
  intros Hb Hl Hw. assert (HL : zlen l = 20) by (unfold zlen; lia). unfold stores.
  change (XBT_FromString fl (Hex2Str l) XBT_SHA1 wp limit) with
    (let '(n, bs, _) := ScanHex (Hex2Str l) 20 in if n =? 20 then Ok (mkstored (align_up 4 wp) bs (align_up 4 wp + zlen bs)) else Fail).
  rewrite ScanHex_Hex2Str by (try assumption; lia). rewrite HL. eexists. split; [reflexivity|]. cbn [st_bytes st_pos st_wp]. split; [reflexivity|].
  split; [apply align_up_ge; lia|]. split; reflexivity.
Qed.

Lemma stores_hex fl l wp limit : bytes l -> align_up 4 wp + 4 + zlen l <= limit -> 0 <= wp ->
  stores fl (Hex2Str l) XBT_HEX wp limit (le 4 (zlen l) ++ l).
Proof.
  intros Hb Hl Hw. pose proof (zlen_nonneg l). unfold stores.
  change (XBT_FromString fl (Hex2Str l) XBT_HEX wp limit) with
    (if limit <? align_up 4 wp + 4 then Ub else
     let '(n, bs, _) := ScanHex (Hex2Str l) (limit - (align_up 4 wp + 4)) in
     Ok (mkstored (align_up 4 wp) (le 4 n ++ bs) (align_up 4 wp + zlen (le 4 n ++ bs)))).
  destruct (Z.ltb_spec limit (align_up 4 wp + 4)); [lia|].
  rewrite ScanHex_Hex2Str by (try assumption; lia). eexists. split; [reflexivity|]. cbn [st_bytes st_pos st_wp]. split; [reflexivity|].
  split; [apply align_up_ge; lia|]. split; reflexivity.
Qed.

Lemma stores_string fl t wp limit : stores fl t XBT_STRING wp limit (t ++ [0]).
Proof.
  unfold stores. change (XBT_FromString fl t XBT_STRING wp limit) with (Ok (mkstored wp (t ++ [0]) (wp + zlen (t ++ [0])))).
  eexists. split; [reflexivity|]. cbn [st_bytes st_pos st_wp]. split; [reflexivity|]. split; [lia|]. split; reflexivity.
Qed.

(** ** The round trip *)

(** Texts that come back letter by letter. *)
Inductive exact_text : list Z -> Prop :=
| ex_int32 n : int32 n -> exact_text (sdec n)
| ex_int64 n : int64 n -> n < -2147483648 \/ 4294967295 < n -> n <> INT64_MIN -> n <> -576460752303423488 -> exact_text (sdec n)
| ex_uint64 n : 9223372036854775807 < n < 10000000000000000000 -> exact_text (udec n)
| ex_fraction (neg : bool) i f k : In k [1; 2; 3; 6; 9] -> 0 <= i -> 0 <= f < 10 ^ k -> (neg = true -> 0 < i) ->
    i * 10 ^ k + f <= INT_MAX - 48 -> exact_text ((if neg then [45] else []) ++ udec i ++ [46] ++ fmt0 k f)
| ex_date d : valid_date d -> 1969 <= yr d <= 9999 -> last_of_leap_year d = false -> exact_text (date_text d)
| ex_time d t : uint32 t -> valid_date d -> day_number d (t / 86400) ->
    exact_text (time_text 32 d (t mod 86400 / 3600) (t mod 3600 / 60) (t mod 60))
| ex_guid l : bytes l -> List.length l = 16%nat -> exact_text (GUID2Str l)
| ex_sha1 l : bytes l -> List.length l = 20%nat -> (exists c, In c (Hex2Str l) /\ 97 <= c) -> exact_text (Hex2Str l)
| ex_string t : cstring t -> XBT_Detect t = XBT_STRING -> exact_text t.

Definition keeps (fl : floats) (t shown : list Z) : Prop := forall wp limit rest out, 0 <= wp ->
  exists bs, stores fl t (XBT_Detect t) wp limit bs /\ shows fl (XBT_Detect t) (bs ++ rest) out shown.

Lemma ring_type ty : isin ty ring_types = true -> In ty ring_types.
Proof. apply isin_true. Qed.

Lemma fixed_text_of (neg : bool) i f k : 1 <= k -> 0 <= i -> 0 <= f < 10 ^ k -> (neg = true -> 0 < i) ->
  fixed_text k (if neg then - (i * 10 ^ k + f) else i * 10 ^ k + f) = (if neg then [45] else []) ++ udec i ++ [46] ++ fmt0 k f.
Proof.
  intros Hk Hi Hf Hn. pose proof (pow10_pos k ltac:(lia)). unfold fixed_text.
  assert (Q : (i * 10 ^ k + f) / 10 ^ k = i) by (rewrite Z.div_add_l, Z.div_small by lia; lia).
  assert (R : (i * 10 ^ k + f) mod 10 ^ k = f) by (rewrite Z.add_comm, Z.mod_add, Z.mod_small by lia; lia).
  destruct neg.
  - rewrite Z.quot_opp_l, Z.quot_div_nonneg, Q by nia. rewrite Z.abs_opp, Z.abs_eq, Z.rem_mod_nonneg, R by nia.
    unfold sdec. specialize (Hn eq_refl). destruct (Z.ltb_spec (- i) 0); [|lia]. replace (- - i) with i by lia. reflexivity.
  - rewrite Z.quot_div_nonneg, Q by nia. rewrite Z.abs_eq, Z.rem_mod_nonneg, R by nia.
    unfold sdec. destruct (Z.ltb_spec i 0); [lia|]. reflexivity.
Qed.

Lemma rata_small d : valid_date d -> 1969 <= yr d <= 9999 -> int32 (rata d) /\ INT_MIN + 10957 <= rata d.
Proof.
  intros Hd Hy. pose proof (day_in_year d Hd) as D. unfold year_len in D. unfold int32, INT_MIN, rata, year_start.
  destruct (leap (yr d)); lia.
Qed.

Lemma exact_keeps fl t : exact_text t -> keeps fl t t.
Proof.
  intros H wp limit rest out Hw. destruct H as [n Hn|n Hn Hr Hm Hs|n Hn|neg i f k Hk Hi Hf Hneg Hmax|d Hd Hy Hl|d t Ht Hd Hn|l Hb Hl|l Hb Hl Hc|t Ht Hd].
  - assert (E : XBT_Detect (sdec n) = XBT_INT32).
    { unfold int32 in Hn. rewrite detect_sdec by (change (10 ^ 19) with 10000000000000000000; lia). unfold int_class.
      destruct (Z.ltb_spec n 0); [destruct (Z.leb_spec (Z.abs n) 2147483648)|destruct (Z.leb_spec (Z.abs n) 2147483647)]; try lia; reflexivity. }
    rewrite E. exists (le 4 n). split; [apply stores_int32; assumption|].
    eapply delivers_shows; [apply ring_type; reflexivity|]. apply int32_delivers; [exact Hn|rewrite fresh_len; lia].
  - assert (E : XBT_Detect (sdec n) = XBT_INT64).
    { unfold int64 in Hn. rewrite detect_sdec by (change (10 ^ 19) with 10000000000000000000; lia). unfold int_class.
      destruct (Z.ltb_spec n 0).
      - destruct (Z.leb_spec (Z.abs n) 2147483648); [lia|reflexivity].
      - destruct (Z.leb_spec (Z.abs n) 2147483647); [lia|]. destruct (Z.leb_spec (Z.abs n) 4294967295); [lia|].
        destruct (Z.leb_spec (Z.abs n) 9223372036854775807); [reflexivity|lia]. }
    rewrite E. exists (le 8 n). split; [apply stores_int64; assumption|]. apply int64_shows; assumption.
  - assert (E : XBT_Detect (udec n) = XBT_UINT64).
    { pose proof (detect_sdec n ltac:(change (10 ^ 19) with 10000000000000000000; lia)) as E. unfold sdec in E.
      destruct (Z.ltb_spec n 0); [lia|]. rewrite E. unfold int_class.
      destruct (Z.leb_spec (Z.abs n) 2147483647); [lia|]. destruct (Z.leb_spec (Z.abs n) 4294967295); [lia|].
      destruct (Z.leb_spec (Z.abs n) 9223372036854775807); [lia|reflexivity]. }
    rewrite E. exists (le 8 n). assert (Hu : uint64 n) by (unfold uint64; lia). split; [apply stores_uint64; assumption|]. apply uint64_shows; assumption.
  - assert (Hty : exists ty, In (ty, k) fixed_types).
    { cbn [In] in Hk. destruct Hk as [<-|[<-|[<-|[<-|[<-|[]]]]]]; eexists; unfold fixed_types; cbn [In];
      [left|right; left|do 2 right; left|do 3 right; left|do 4 right; left]; reflexivity. }
    destruct Hty as [ty Hty]. pose proof (fixed_k _ _ Hty) as Hk9. pose proof (pow10_le k Hk9) as Hp.
    destruct (udec_fmt0_value k f Hf ltac:(lia)) as (F1 & F2 & F3). unfold INT_MAX in Hmax.
    assert (Hi10 : i < 10 ^ 10) by (change (10 ^ 10) with 10000000000; nia).
    assert (Hval : dec_value (udec i ++ fmt0 k f) = i * 10 ^ k + f) by (rewrite dec_value_app, F1, F2, udec_value by lia; lia).
    assert (E : XBT_Detect ((if neg then [45] else []) ++ udec i ++ [46] ++ fmt0 k f) = ty).
    { apply (detect_fixed ty k); try assumption; [apply udec_nonempty; lia|apply udec_digits; lia|apply udec_len; lia|lia]. }
    rewrite E. set (V := if neg then - (i * 10 ^ k + f) else i * 10 ^ k + f).
    assert (HV : fraction_text k V ((if neg then [45] else []) ++ udec i ++ [46] ++ fmt0 k f)).
    { exists (if neg then [45] else []), (udec i), (fmt0 k f). split; [reflexivity|]. split; [apply udec_nonempty; lia|].
      split; [apply udec_digits; lia|]. split; [exact F3|]. split; [exact F2|]. unfold V. rewrite Hval. destruct neg; [right|left]; split; reflexivity. }
    exists (le 4 V). split.
    + apply (stores_fixed fl ty k); try assumption. unfold INT_MAX, V. destruct neg; nia.
    + rewrite <- (fixed_text_of neg i f k) by (try assumption; lia). fold V.
      eapply delivers_shows; [|apply (fixed_delivers fl ty k)]; try assumption.
      * unfold fixed_types in Hty. cbn [In] in Hty. apply ring_type.
        destruct Hty as [T|[T|[T|[T|[T|[]]]]]]; injection T as <- <-; reflexivity.
      * unfold int32, V. destruct neg; nia.
      * unfold INT_MIN, V. destruct neg; nia.
      * rewrite fresh_len. lia.
  - rewrite detect_date by (try assumption; lia). destruct (rata_small d Hd Hy) as [R1 R2].
    exists (le 4 (rata d)). split; [apply stores_date; try assumption; [lia|apply rata_day_number, Hd]|].
    assert (Hc : exists c, XBT_ToStringChunk fl XBT_UNIX_DATE (le 4 (rata d) ++ rest) 0 fresh = Ok c /\ cstr (ck_dst c) = date_text d).
    { rewrite chunk_unix_date by (rewrite fresh_len; lia). rewrite take4_le, s32_le by assumption.
      rewrite (UnixDate2Str_ok _ d R1 R2 Hd (rata_day_number d Hd)), Hl. unfold whole. eexists. split; [reflexivity|]. cbn [ck_dst].
      rewrite cstr_bput0. apply cstr_id, date_text_cstring. }
    destruct Hc as (c & C1 & C2). refine (ring_shows fl _ _ _ c _ _ C1 C2); apply ring_type; reflexivity.
  - unfold uint32 in Ht. pose proof (year_of_day d (t / 86400) Hd Hn ltac:(lia)) as Hy.
    rewrite detect_time by (try assumption; lia). exists (le 4 t). split; [apply stores_time; assumption|].
    assert (Ed : gm_date (t / 86400) = d).
    { destruct (gm_date_ok (t / 86400)) as [G1 G2]. apply rata_inj; try assumption.
      rewrite <- (day_number_rata _ _ G1 G2), <- (day_number_rata _ _ Hd Hn). reflexivity. }
    assert (Hc : exists c, XBT_ToStringChunk fl XBT_UNIX_TIME (le 4 t ++ rest) 0 fresh = Ok c /\
       cstr (ck_dst c) = time_text 32 d (t mod 86400 / 3600) (t mod 3600 / 60) (t mod 60)).
    { rewrite chunk_unix_time by (rewrite fresh_len; lia). cbv zeta. rewrite take4_le, unle4, Z.mod_small by lia. rewrite Ed.
      unfold whole. eexists. split; [reflexivity|]. cbn [ck_dst]. rewrite cstr_bput0. apply cstr_id, time_text_cstring. unfold is_cchar. lia. }
    destruct Hc as (c & C1 & C2). refine (ring_shows fl _ _ _ c _ _ C1 C2); apply ring_type; reflexivity.
  - rewrite detect_guid by assumption. exists l. split; [apply stores_guid; assumption|].
    unfold shows, XBT_ToString. cbv zeta.
    change (XBT_GUID =? XBT_NULL) with false. change (XBT_GUID =? XBT_STRING) with false. change (XBT_GUID =? XBT_GUID) with true. cbv iota.
    eexists _, _. split; [reflexivity|]. unfold shown_text. cbn [rg_bufs].
    rewrite set_nth_same by (split; [vm_compute; discriminate|vm_compute; reflexivity]). rewrite cstr_bput0. f_equal.
    rewrite ztake_app_len by (unfold zlen; lia). apply cstr_id.
    unfold GUID2Str. cbv zeta.
    assert (Hx : cstring (Hex2Str l)).
    { unfold cstring. eapply Forall_impl; [|apply Hex2Str_lower, Hb]. intros c. unfold lower_hex, is_cchar. lia. }
    assert (Hcut : forall a b, cstring (firstn a (skipn b (Hex2Str l)))).
    { intros a b. unfold cstring in *. rewrite <- (firstn_skipn b) in Hx. apply Forall_app in Hx. destruct Hx as [_ Hx].
      rewrite <- (firstn_skipn a) in Hx. apply Forall_app in Hx. tauto. }
    repeat first [apply cstring_1; unfold is_cchar; lia | apply Hcut | apply (Hcut 8%nat 0%nat) | apply cstring_app; split].
  - rewrite detect_hex by (try assumption; apply Hex2Str_lower, Hb).
    assert (HL : zlen l = 20) by (unfold zlen; lia). rewrite Hex2Str_length, HL. change (2 * 20 =? 40) with true. cbv iota.
    exists l. split; [apply stores_sha1; assumption|].
    assert (Hcc : exists c, XBT_ToStringChunk fl XBT_SHA1 (l ++ rest) 0 fresh = Ok c /\ cstr (ck_dst c) = Hex2Str l).
    { rewrite chunk_sha1 by (rewrite fresh_len; lia). eexists. split; [reflexivity|]. cbn [ck_dst]. rewrite cstr_bput0.
      rewrite zskip_0. rewrite ztake_app_len by lia. apply cstr_id. unfold cstring. eapply Forall_impl; [|apply Hex2Str_lower, Hb].
      intros c. unfold lower_hex, is_cchar. lia. }
    destruct Hcc as (c & C1 & C2). refine (ring_shows fl _ _ _ c _ _ C1 C2); apply ring_type; reflexivity.
  - rewrite Hd. exists (t ++ [0]). split; [apply stores_string|]. unfold shows.
    exists (Text (cstr ((t ++ [0]) ++ rest))), ring0. split; [reflexivity|]. unfold shown_text. rewrite <- app_assoc. cbn [app]. rewrite cstr_app by assumption. reflexivity.
Qed.

(** The empty text is no value. *)
Lemma empty_keeps fl wp limit data out : XBT_Detect [] = XBT_NULL /\
  XBT_FromString fl [] XBT_NULL wp limit = Ok (mkstored wp [] wp) /\ XBT_ToString fl XBT_NULL data out ring0 = Ok (NoText, ring0).
Proof. repeat split. Qed.

(** Milliseconds: the hour comes back without its leading zero. *)
Definition msec_shown (d : date) (t : Z) : list Z :=
  date_text d ++ [32] ++ fmtsp 2 (t mod 86400000 / 3600000) ++ [58] ++ fmt0 2 (t mod 3600000 / 60000) ++ [58]
  ++ fmt0 2 (t mod 60000 / 1000) ++ [46] ++ fmt0 3 (t mod 1000).

Lemma msec_keeps fl d t : 0 <= t / 1000 <= UINT32_MAX -> valid_date d -> day_number d (t / 86400000) -> keeps fl (msec_text d t) (msec_shown d t).
Proof.
  intros Ht Hd Hn wp limit rest out Hw. unfold UINT32_MAX in Ht.
  pose proof (year_of_day d (t / 86400000) Hd Hn ltac:(lia)) as Hy.
  unfold msec_text. rewrite detect_time64 by (try assumption; lia). exists (le 8 t). split; [apply stores_time64; assumption|].
  assert (Ed : gm_date (Z.quot t 1000 / 86400) = d).
  { rewrite Z.quot_div_nonneg by lia. replace (t / 1000 / 86400) with (t / 86400000) by lia.
    destruct (gm_date_ok (t / 86400000)) as [G1 G2]. apply rata_inj; try assumption.
    rewrite <- (day_number_rata _ _ G1 G2), <- (day_number_rata _ _ Hd Hn). reflexivity. }
  assert (Hc : exists c, XBT_ToStringChunk fl XBT_UNIX_TIME64_MSEC (le 8 t ++ rest) 0 fresh = Ok c /\ cstr (ck_dst c) = msec_shown d t).
  { rewrite chunk_time64 by (rewrite fresh_len; lia). cbv zeta. rewrite take8_le, s64_le by (unfold int64; lia). rewrite Ed.
    unfold whole. eexists. split; [reflexivity|]. cbn [ck_dst]. rewrite cstr_bput0.
    rewrite Z.quot_div_nonneg, Z.rem_mod_nonneg by lia.
    replace (t / 1000 mod 86400 / 3600) with (t mod 86400000 / 3600000) by lia.
    replace (t / 1000 mod 3600 / 60) with (t mod 3600000 / 60000) by lia.
    replace (t / 1000 mod 60) with (t mod 60000 / 1000) by lia.
    apply cstr_id. unfold msec_shown.
    repeat first [apply fmt0_cstring | apply date_text_cstring | apply fmtsp_cstring
               | apply cstring_1; unfold is_cchar; lia | apply cstring_app; split]. }
  destruct Hc as (c & C1 & C2). refine (ring_shows fl _ _ _ c _ _ C1 C2); apply ring_type; reflexivity.
Qed.

(** Hexadecimal data: the same digits, broken into lines. *)
Lemma hex_lines_digits : forall fuel l, bytes l -> (List.length l <= 16 * fuel)%nat -> filter (fun c => negb (c =? 10)) (hex_lines fuel l) = Hex2Str l.
Proof.
  assert (Hno : forall l, bytes l -> filter (fun c => negb (c =? 10)) (Hex2Str l) = Hex2Str l).
  { intros l Hb. pose proof (Hex2Str_lower l Hb) as H. induction H as [|c t Hc Ht IH]; [reflexivity|]. cbn [filter].
    assert (negb (c =? 10) = true) as -> by (unfold lower_hex in Hc; lia). rewrite IH. reflexivity. }
  assert (Happ : forall a b, Hex2Str (a ++ b) = Hex2Str a ++ Hex2Str b).
  { intros a b. induction a as [|x a IH]; [reflexivity|]. cbn [app]. rewrite !Hex2Str_cons, IH. reflexivity. }
  induction fuel as [|k IH]; intros l Hb Hl; [destruct l; [reflexivity|cbn [List.length] in Hl; lia]|]. cbn [hex_lines]. destruct l as [|b r]; [reflexivity|]. set (l := b :: r) in *.
  rewrite !filter_app. change (filter (fun c => negb (c =? 10)) [10]) with (@nil Z). cbn [app].
  assert (Hs : bytes (firstn 16 l) /\ bytes (skipn 16 l)).
  { unfold bytes in *. rewrite <- (firstn_skipn 16 l) in Hb. apply Forall_app in Hb. exact Hb. }
  rewrite Hno by apply Hs. rewrite IH; [|apply Hs|rewrite skipn_length; unfold l in *; cbn [List.length] in *; lia].
  rewrite <- Happ, firstn_skipn. reflexivity.
Qed.

Lemma hex_keeps fl l : bytes l -> zlen l <> 20 -> 0 < zlen l <= INT_MAX -> (exists c, In c (Hex2Str l) /\ 97 <= c) ->
  forall wp limit rest out, 0 <= wp -> align_up 4 wp + 4 + zlen l <= limit ->
  exists bs shown, stores fl (Hex2Str l) (XBT_Detect (Hex2Str l)) wp limit bs /\
    shows fl (XBT_Detect (Hex2Str l)) (bs ++ rest) out shown /\ filter (fun c => negb (c =? 10)) shown = Hex2Str l.
Proof.
  intros Hb H20 Hl Hc wp limit rest out Hw Hlim. unfold INT_MAX in Hl.
  rewrite detect_hex by (try assumption; apply Hex2Str_lower, Hb). rewrite Hex2Str_length.
  destruct (Z.eqb_spec (2 * zlen l) 40); [lia|].
  exists (le 4 (zlen l) ++ l), (hex_lines (S (Z.to_nat (zlen l / 16))) l). split; [apply stores_hex; assumption|]. split.
  - unfold shows. exists (Text (hex_lines (S (Z.to_nat (zlen l / 16))) l)), ring0. split; [|reflexivity].
    unfold XBT_ToString. cbv zeta. rewrite <- app_assoc, take4_le, unle4, Z.mod_small, skip4_le by lia.
    change (XBT_HEX =? XBT_NULL) with false. change (XBT_HEX =? XBT_STRING) with false. change (XBT_HEX =? XBT_GUID) with false.
    change (isin XBT_HEX _) with false. change (XBT_HEX =? XBT_BLOB_STRING) with false. change (XBT_HEX =? XBT_BLOB) with false.
    change (XBT_HEX =? XBT_HEX) with true. cbv iota. destruct (Z.eqb_spec (zlen l) 0); [lia|].
    rewrite ztake_app_len by reflexivity. reflexivity.
  - apply hex_lines_digits; [exact Hb|]. unfold zlen in *. lia.
Qed.

(** IPv4: stored, but shown only through the chunk interface. *)
Lemma ipv4_keeps fl v wp limit rest dst : uint32 v -> 0 <= wp -> 256 < zlen dst ->
  let t := quad (v / 16777216) (v / 65536 mod 256) (v / 256 mod 256) (v mod 256) in
  XBT_Detect t = XBT_IPv4 /\ stores fl t XBT_IPv4 wp limit (le 4 v) /\
  delivers_cstr (XBT_ToStringChunk fl XBT_IPv4 (le 4 v ++ rest) 0 dst) t (zlen dst).
Proof.
  intros Hv Hw Hd t. pose proof Hv as Hv'. unfold uint32 in Hv'. split; [apply detect_ipv4; lia|]. split; [apply stores_ipv4; assumption|].
  apply ipv4_delivers; assumption.
Qed.

(** ** Texts that do not come back *)

Definition lost (fl : floats) (t : list Z) : Prop := XBT_FromString fl t (XBT_Detect t) 0 1000 = Fail.
Definition altered (fl : floats) (t shown : list Z) : Prop :=
  exists bs, stores fl t (XBT_Detect t) 0 1000 bs /\ shows fl (XBT_Detect t) bs (zrepeat 0 600) shown.

Lemma lost_texts fl : lost fl (lit "3000000000") /\ lost fl (lit "12345678901234567890") /\ lost fl (lit "12345678901.5") /\ lost fl (lit "999.1.1.1").
Proof. repeat split; vm_compute; reflexivity. Qed.

Ltac alt := eexists; split; [eexists; split; [vm_compute; reflexivity|]; cbn [st_bytes st_pos st_wp];
   split; [reflexivity|]; split; [vm_compute; discriminate|]; split; reflexivity
   |eexists _, _; split; [vm_compute; reflexivity|vm_compute; reflexivity]].

Lemma altered_texts fl : altered fl (lit "007") (lit "7") /\ altered fl (lit "5-3") (lit "5") /\ altered fl (lit "0x10") (lit "0") /\
  altered fl (lit "-0.5") (lit "0.5") /\ altered fl (lit "ab1") (lit "ab" ++ [10]).
Proof. split; [|split; [|split; [|split]]]; alt. Qed.

Lemma ipv4_not_shown fl out : XBT_Detect (lit "10.0.0.1") = XBT_IPv4 /\
  XBT_ToString fl XBT_IPv4 (le 4 167772161) out ring0 = Ok (NoText, ring0).
Proof. split; [vm_compute; reflexivity|reflexivity]. Qed.

Lemma fraction_overflow fl : XBT_FromString fl (lit "3000.1234") (XBT_Detect (lit "3000.1234")) 0 1000 = Ub.
Proof. vm_compute. reflexivity. Qed.
