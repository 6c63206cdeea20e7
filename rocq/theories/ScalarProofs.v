(** Texts of the scalar types. *)
From Verif Require Import Base BaseFacts NumSpec CalSpec Scan ScanProofs Base64 Base64Spec Base64Proofs Dates DatesProofs
  Types ScalarSpec ListFacts ChunkProofs.

Definition opened (dst : list Z) : list Z := bput dst (zlen dst - 1) [0].

Lemma opened_len dst : 256 < zlen dst -> zlen (opened dst) = zlen dst.
Proof. intros H. unfold opened. apply bput_len; [lia|]. change (zlen [0]) with 1. lia. Qed.

Lemma guard (dst : list Z) : 256 < zlen dst -> (zlen dst <=? 256) = false.
Proof. intros H. apply Z.leb_gt. exact H. Qed.

(** What a call delivered: the text [t], all of it. *)
Definition delivers (o : outcome chunk) (t : list Z) (size : Z) : Prop :=
  exists c, o = Ok c /\ ck_ret c = zlen t /\ ztake (zlen t) (ck_dst c) = t /\ 0 < ck_offset c /\ zlen (ck_dst c) = size.

(** ... and terminated it, so that the buffer holds the C string [t]. *)
Definition delivers_cstr (o : outcome chunk) (t : list Z) (size : Z) : Prop :=
  exists c, o = Ok c /\ ck_ret c = zlen t /\ ztake (zlen t) (ck_dst c) = t /\ 0 < ck_offset c /\ zlen (ck_dst c) = size /\
    cstr (ck_dst c) = t.

Lemma delivers_weaken o t n : delivers_cstr o t n -> delivers o t n.
Proof. intros (c & H1 & H2 & H3 & H4 & H5 & _). exists c. tauto. Qed.

Lemma whole_delivers dst off t : cstring t -> zlen t < zlen dst -> 0 < off ->
  delivers_cstr (whole dst off t) t (zlen dst).
Proof.
  intros Ht Hl Ho. unfold whole. eexists. split; [reflexivity|]. cbn [ck_ret ck_dst ck_offset].
  split; [reflexivity|]. split; [apply ztake_bput_0|]. split; [exact Ho|]. split.
  - apply bput_len; [lia|]. rewrite zlen_app. change (zlen [0]) with 1. lia.
  - apply cstr_bput_0, Ht.
Qed.

(** The second call answers 0. *)
Definition finished (o : outcome chunk) : Prop := exists c, o = Ok c /\ ck_ret c = 0.

Lemma chunk_int32 fl data dst : 256 < zlen dst ->
  XBT_ToStringChunk fl XBT_INT32 data 0 dst = whole (opened dst) (0 + 4) (sdec (s32 (unle (ztake 4 data)))).
Proof. intros H. unfold XBT_ToStringChunk. rewrite guard by assumption. reflexivity. Qed.

Lemma chunk_uint32 fl data dst : 256 < zlen dst ->
  XBT_ToStringChunk fl XBT_UINT32 data 0 dst = whole (opened dst) (0 + 4) (udec (unle (ztake 4 data))).
Proof. intros H. unfold XBT_ToStringChunk. rewrite guard by assumption. reflexivity. Qed.

Lemma chunk_float fl data dst : 256 < zlen dst ->
  XBT_ToStringChunk fl XBT_FLOAT data 0 dst = whole (opened dst) (0 + 4) (f_print fl (unle (ztake 4 data))).
Proof. intros H. unfold XBT_ToStringChunk. rewrite guard by assumption. reflexivity. Qed.

(** The fixed-point types with their numbers of decimals. *)
Definition fixed_types : list (Z * Z) :=
  [(XBT_INT32_DECI, 1); (XBT_INT32_CENTI, 2); (XBT_INT32_MILI, 3); (XBT_INT32_MICRO, 6); (XBT_INT32_NANO, 9)].

Lemma chunk_fixed fl ty k data dst : In (ty, k) fixed_types -> 256 < zlen dst ->
  XBT_ToStringChunk fl ty data 0 dst =
    let V := s32 (unle (ztake 4 data)) in
    if V =? INT_MIN then Ub else whole (opened dst) (0 + 4) (fixed_text k V).
Proof.
  intros Hin H. unfold XBT_ToStringChunk. rewrite guard by assumption.
  repeat (destruct Hin as [Hin|Hin]; [inversion Hin; subst; reflexivity|]). destruct Hin.
Qed.

Lemma chunk_ipv4 fl data dst : 256 < zlen dst ->
  XBT_ToStringChunk fl XBT_IPv4 data 0 dst =
    let w4 := unle (ztake 4 data) in
    whole (opened dst) (0 + 4) (quad (Z.shiftr w4 24) (Z.land (Z.shiftr w4 16) 255) (Z.land (Z.shiftr w4 8) 255) (Z.land w4 255)).
Proof. intros H. unfold XBT_ToStringChunk. rewrite guard by assumption. reflexivity. Qed.

Definition number_chunk (dst : list Z) (ds : list Z) : outcome chunk :=
  let dst_size := zlen dst - 1 in
  Ok (mkchunk (zlen ds) (0 + 8) (bput (bput (opened dst) (dst_size - 1 - zlen ds) (ds ++ [0])) 0 ds)).

Lemma chunk_int64 fl data dst : 256 < zlen dst ->
  XBT_ToStringChunk fl XBT_INT64 data 0 dst =
    let value := s64 (unle (ztake 8 data)) in
    if value =? 0 then Ok (mkchunk 1 (0 + 8) (bput (opened dst) 0 [48; 0]))
    else if value =? -576460752303423488 then whole (opened dst) (0 + 8) (lit "9223372036854775808")
    else if value =? INT64_MIN then Ub
    else match dec_loop 38 (Z.abs value) [] with
         | Some ds => number_chunk dst (if value <? 0 then 45 :: ds else ds)
         | None => Ub
         end.
Proof. intros H. unfold XBT_ToStringChunk. rewrite guard by assumption. reflexivity. Qed.

Lemma chunk_uint64 fl data dst : 256 < zlen dst ->
  XBT_ToStringChunk fl XBT_UINT64 data 0 dst =
    let value := unle (ztake 8 data) in
    if value =? 0 then Ok (mkchunk 1 (0 + 8) (bput (opened dst) 0 [48; 0]))
    else match dec_loop 38 value [] with Some ds => number_chunk dst ds | None => Ub end.
Proof. intros H. unfold XBT_ToStringChunk. rewrite guard by assumption. reflexivity. Qed.

Lemma chunk_unix_time fl data dst : 256 < zlen dst ->
  XBT_ToStringChunk fl XBT_UNIX_TIME data 0 dst =
    let w4 := unle (ztake 4 data) in
    whole (zrepeat 0 (zlen dst - 1) ++ [0]) (0 + 4)
      (time_text 32 (gm_date (w4 / 86400)) (w4 mod 86400 / 3600) (w4 mod 3600 / 60) (w4 mod 60)).
Proof. intros H. unfold XBT_ToStringChunk. rewrite guard by assumption. reflexivity. Qed.

Lemma chunk_unix_date fl data dst : 256 < zlen dst ->
  XBT_ToStringChunk fl XBT_UNIX_DATE data 0 dst =
    match UnixDate2Str (s32 (unle (ztake 4 data))) with
    | Ok t => whole (opened dst) (0 + 4) t
    | Fail => Ok (mkchunk 0 (0 + 4) (opened dst))
    | Ub => Ub
    end.
Proof. intros H. unfold XBT_ToStringChunk. rewrite guard by assumption. reflexivity. Qed.

Lemma chunk_time64 fl data dst : 256 < zlen dst ->
  XBT_ToStringChunk fl XBT_UNIX_TIME64_MSEC data 0 dst =
    let value := s64 (unle (ztake 8 data)) in
    let t := Z.quot value 1000 in
    whole (zrepeat 0 (zlen dst - 1) ++ [0]) (0 + 8)
            (date_text (gm_date (t / 86400)) ++ [32] ++ fmtsp 2 (t mod 86400 / 3600) ++ [58] ++ fmt0 2 (t mod 3600 / 60)
               ++ [58] ++ fmt0 2 (t mod 60) ++ [46] ++ fmt0 3 (Z.rem value 1000)).
Proof. intros H. unfold XBT_ToStringChunk. rewrite guard by assumption. reflexivity. Qed.

Lemma chunk_sha1 fl data dst : 256 < zlen dst ->
  XBT_ToStringChunk fl XBT_SHA1 data 0 dst =
    Ok (mkchunk (2 * (20 - 0)) 20 (bput (opened dst) 0 (Hex2Str (ztake (20 - 0) (zskip 0 data)) ++ [0]))).
Proof. intros H. unfold XBT_ToStringChunk. rewrite guard by assumption. reflexivity. Qed.

Lemma chunk_guid fl data dst : 256 < zlen dst ->
  XBT_ToStringChunk fl XBT_GUID data 0 dst =
    Ok (mkchunk (2 * (16 - 0)) 16 (bput (opened dst) 0 (Hex2Str (ztake (16 - 0) (zskip 0 data)) ++ [0]))).
Proof. intros H. unfold XBT_ToStringChunk. rewrite guard by assumption. reflexivity. Qed.

(** ** Lengths and characters of the texts *)

Lemma zrepeat_Forall {A} (P : A -> Prop) x n : P x -> Forall P (zrepeat x n).
Proof. intros H. apply Forall_forall. intros y Hy. apply repeat_spec in Hy. subst. exact H. Qed.

Lemma sdec_cstring n : cstring (sdec n).
Proof.
  unfold sdec. destruct (Z.ltb_spec n 0).
  - constructor; [unfold is_cchar; lia|]. apply digits_cchar, udec_digits. lia.
  - apply digits_cchar, udec_digits. lia.
Qed.

Lemma fmt0_cstring w n : cstring (fmt0 w n).
Proof.
  unfold fmt0. destruct (Z.ltb_spec n 0).
  - constructor; [unfold is_cchar; lia|]. apply cstring_app. split; apply digits_cchar; [apply zeros_digits|apply udec_digits; lia].
  - apply cstring_app. split; apply digits_cchar; [apply zeros_digits|apply udec_digits; lia].
Qed.

Lemma fmtsp_cstring w n : cstring (fmtsp w n).
Proof. unfold fmtsp. apply cstring_app. split; [apply zrepeat_Forall; unfold is_cchar; lia | apply sdec_cstring]. Qed.

Lemma zrepeat_len {A} (x : A) n : zlen (zrepeat x n) = Z.max 0 n.
Proof. unfold zlen, zrepeat. rewrite repeat_length. lia. Qed.

Lemma sdec_len n k : 1 <= k -> - 10 ^ k < n < 10 ^ k -> zlen (sdec n) <= k + 1.
Proof.
  intros Hk Hn. unfold sdec. destruct (Z.ltb_spec n 0).
  - rewrite zlen_cons. pose proof (udec_len (- n) k ltac:(lia) Hk). lia.
  - pose proof (udec_len n k ltac:(lia) Hk). lia.
Qed.

Lemma fmt0_len_le w n k : 1 <= k -> - 10 ^ k < n < 10 ^ k -> zlen (fmt0 w n) <= Z.max w (k + 1).
Proof.
  intros Hk Hn. unfold fmt0. destruct (Z.ltb_spec n 0).
  - rewrite zlen_cons, zlen_app. unfold zeros. rewrite zrepeat_len. pose proof (udec_len (- n) k ltac:(lia) Hk). lia.
  - rewrite zlen_app. unfold zeros. rewrite zrepeat_len. pose proof (udec_len n k ltac:(lia) Hk). lia.
Qed.

Lemma cstring_1 c : is_cchar c -> cstring [c].
Proof. intros H. constructor; [exact H | constructor]. Qed.

Lemma date_text_cstring d : cstring (date_text d).
Proof.
  unfold date_text. repeat (apply cstring_app; split); try apply fmt0_cstring; apply cstring_1; unfold is_cchar; lia.
Qed.

Lemma time_text_cstring sep d h m s : is_cchar sep -> cstring (time_text sep d h m s).
Proof.
  intros Hs. unfold time_text, clock_text. repeat (apply cstring_app; split); try apply fmt0_cstring; try apply date_text_cstring;
    apply cstring_1; try exact Hs; unfold is_cchar; lia.
Qed.

(** ** Integers *)

Lemma int32_delivers fl v rest dst : int32 v -> 256 < zlen dst ->
  delivers_cstr (XBT_ToStringChunk fl XBT_INT32 (le 4 v ++ rest) 0 dst) (sdec v) (zlen dst).
Proof.
  intros Hv Hd. rewrite chunk_int32 by assumption. rewrite take4_le, s32_le by assumption.
  rewrite <- (opened_len dst) by assumption. apply whole_delivers; [apply sdec_cstring | | lia].
  rewrite opened_len by assumption. unfold int32 in Hv. pose proof (sdec_len v 10 ltac:(lia)). change (10 ^ 10) with 10000000000 in *. lia.
Qed.

Lemma uint32_delivers fl v rest dst : uint32 v -> 256 < zlen dst ->
  delivers_cstr (XBT_ToStringChunk fl XBT_UINT32 (le 4 v ++ rest) 0 dst) (udec v) (zlen dst).
Proof.
  intros Hv Hd. unfold uint32 in Hv. rewrite chunk_uint32 by assumption. rewrite take4_le, unle4, Z.mod_small by lia.
  rewrite <- (opened_len dst) by assumption. apply whole_delivers; [apply digits_cchar, udec_digits; lia | | lia].
  rewrite opened_len by assumption. pose proof (udec_len v 10). change (10 ^ 10) with 10000000000 in *. lia.
Qed.

Lemma number_delivers dst ds : 256 < zlen dst -> zlen ds <= 40 ->
  delivers (number_chunk dst ds) ds (zlen dst).
Proof.
  intros Hd Hl. unfold number_chunk. pose proof (zlen_nonneg ds). eexists. split; [reflexivity|]. cbn [ck_ret ck_dst ck_offset].
  split; [reflexivity|]. split; [rewrite bput_0; apply ztake_app_len; reflexivity|]. split; [lia|].
  assert (zlen (bput (opened dst) (zlen dst - 1 - 1 - zlen ds) (ds ++ [0])) = zlen dst) as E.
  { rewrite bput_len; rewrite ?zlen_app, ?opened_len by assumption; [reflexivity|lia|]. change (zlen [0]) with 1. lia. }
  rewrite bput_len; rewrite ?E; [reflexivity|lia|lia].
Qed.

Lemma zero_delivers dst : 256 < zlen dst -> delivers (Ok (mkchunk 1 (0 + 8) (bput (opened dst) 0 [48; 0]))) [48] (zlen dst).
Proof.
  intros Hd. eexists. split; [reflexivity|]. cbn [ck_ret ck_dst ck_offset]. split; [reflexivity|].
  split; [change [48; 0] with ([48] ++ [0]); apply ztake_bput_0|]. split; [lia|].
  rewrite bput_len; rewrite ?opened_len by assumption; [reflexivity|lia|]. change (zlen [48; 0]) with 2. lia.
Qed.

Lemma int64_delivers fl v rest dst : int64 v -> v <> INT64_MIN -> v <> -576460752303423488 -> 256 < zlen dst ->
  delivers (XBT_ToStringChunk fl XBT_INT64 (le 8 v ++ rest) 0 dst) (sdec v) (zlen dst).
Proof.
  intros Hv Hmin Hodd Hd. rewrite chunk_int64 by assumption. cbv zeta. rewrite take8_le, s64_le by assumption.
  destruct (Z.eqb_spec v 0) as [->|Hz]; [apply zero_delivers, Hd|].
  destruct (Z.eqb_spec v (-576460752303423488)); [contradiction|].
  destruct (Z.eqb_spec v INT64_MIN); [contradiction|].
  unfold int64, INT64_MIN in *.
  assert (H38 : 0 < Z.abs v < 10 ^ Z.of_nat 38).
  { change (10 ^ Z.of_nat 38) with 100000000000000000000000000000000000000. lia. }
  rewrite dec_loop_udec by exact H38. unfold sdec.
  assert (Hl : zlen (udec (Z.abs v)) <= 38).
  { apply udec_len; [|lia]. change (10 ^ 38) with 100000000000000000000000000000000000000. lia. }
  destruct (Z.ltb_spec v 0).
  - replace (Z.abs v) with (- v) in * by lia. apply number_delivers; [exact Hd|]. rewrite zlen_cons. lia.
  - replace (Z.abs v) with v in * by lia. apply number_delivers; [exact Hd|lia].
Qed.

Lemma uint64_delivers fl v rest dst : uint64 v -> 256 < zlen dst ->
  delivers (XBT_ToStringChunk fl XBT_UINT64 (le 8 v ++ rest) 0 dst) (udec v) (zlen dst).
Proof.
  intros Hv Hd. unfold uint64 in Hv. rewrite chunk_uint64 by assumption. cbv zeta. rewrite take8_le, unle8, Z.mod_small by lia.
  destruct (Z.eqb_spec v 0) as [->|Hz]; [apply zero_delivers, Hd|].
  assert (H38 : 0 < v < 10 ^ Z.of_nat 38).
  { change (10 ^ Z.of_nat 38) with 100000000000000000000000000000000000000. lia. }
  rewrite dec_loop_udec by exact H38. apply number_delivers; [exact Hd|].
  pose proof (udec_len v 38). change (10 ^ 38) with 100000000000000000000000000000000000000 in *. lia.
Qed.

Lemma int64_special fl rest dst : 256 < zlen dst ->
  delivers_cstr (XBT_ToStringChunk fl XBT_INT64 (le 8 (-576460752303423488) ++ rest) 0 dst) (lit "9223372036854775808") (zlen dst).
Proof.
  intros Hd. rewrite chunk_int64 by assumption. cbv zeta. rewrite take8_le, s64_le by (unfold int64; lia).
  destruct (Z.eqb_spec (-576460752303423488) 0); [lia|].
  destruct (Z.eqb_spec (-576460752303423488) (-576460752303423488)); [|lia].
  rewrite <- (opened_len dst) by assumption. apply whole_delivers; [|rewrite opened_len by assumption; change (zlen (lit "9223372036854775808")) with 19; lia|lia].
  repeat (constructor; [cbv; split; reflexivity|]). constructor.
Qed.

(** ** Fixed point *)

Lemma udec_fmt0_value k v : 0 <= v < 10 ^ k -> 1 <= k -> dec_value (fmt0 k v) = v /\ zlen (fmt0 k v) = k /\ Forall digit (fmt0 k v).
Proof.
  intros Hv Hk. split; [|split].
  - unfold fmt0. destruct (Z.ltb_spec v 0); [lia|]. rewrite dec_value_app, zeros_value, udec_value by lia. lia.
  - apply fmt0_len; lia.
  - unfold fmt0. destruct (Z.ltb_spec v 0); [lia|]. apply Forall_app. split; [apply zeros_digits|apply udec_digits; lia].
Qed.

Lemma fixed_k ty k : In (ty, k) fixed_types -> 1 <= k <= 9.
Proof. intros H. unfold fixed_types in H. cbn [In] in H. intuition (try congruence); match goal with H : (_, _) = (_, _) |- _ => inversion H; lia end. Qed.

Lemma pow10_le k : 1 <= k <= 9 -> 10 <= 10 ^ k <= 1000000000.
Proof.
  intros H. change 10 with (10 ^ 1) at 1. change 1000000000 with (10 ^ 9). split; apply Z.pow_le_mono_r; lia.
Qed.

Lemma fixed_cstring k V : cstring (fixed_text k V).
Proof. unfold fixed_text. repeat (apply cstring_app; split); [apply sdec_cstring|apply cstring_1; unfold is_cchar; lia|apply fmt0_cstring]. Qed.

Lemma quot_bound V q : int32 V -> 10 <= q -> -10 ^ 10 < Z.quot V q < 10 ^ 10.
Proof.
  intros HV Hq. change (10 ^ 10) with 10000000000. unfold int32 in HV.
  pose proof (Z.quot_rem' V q). pose proof (Z.rem_bound_abs V q ltac:(lia)). nia.
Qed.

Lemma fixed_len k V : 1 <= k <= 9 -> int32 V -> zlen (fixed_text k V) <= 30.
Proof.
  intros Hk HV. pose proof (pow10_le k Hk). unfold fixed_text. rewrite !zlen_app. change (zlen [46]) with 1.
  pose proof (sdec_len (Z.quot V (10 ^ k)) 10 ltac:(lia) (quot_bound V (10 ^ k) HV ltac:(lia))).
  pose proof (fmt0_len_le k (Z.rem (Z.abs V) (10 ^ k)) 9 ltac:(lia)) as Hr.
  pose proof (Z.rem_bound_pos (Z.abs V) (10 ^ k)). change (10 ^ 9) with 1000000000 in *. lia.
Qed.

Lemma fixed_delivers fl ty k V rest dst : In (ty, k) fixed_types -> int32 V -> V <> INT_MIN -> 256 < zlen dst ->
  delivers_cstr (XBT_ToStringChunk fl ty (le 4 V ++ rest) 0 dst) (fixed_text k V) (zlen dst).
Proof.
  intros Hin HV Hmin Hd. rewrite (chunk_fixed fl ty k) by assumption. cbv zeta. rewrite take4_le, s32_le by assumption.
  destruct (Z.eqb_spec V INT_MIN); [contradiction|].
  rewrite <- (opened_len dst) by assumption. apply whole_delivers; [apply fixed_cstring| |lia].
  rewrite opened_len by assumption. pose proof (fixed_len k V (fixed_k _ _ Hin) HV). lia.
Qed.

Lemma fixed_denotes k V : 1 <= k -> 0 <= V \/ V <= - 10 ^ k -> fraction_text k V (fixed_text k V).
Proof.
  intros Hk HV. pose proof (pow10_pos k ltac:(lia)) as Hp. unfold fixed_text, fraction_text.
  destruct HV as [HV|HV].
  - rewrite Z.abs_eq by lia. rewrite Z.quot_div_nonneg, Z.rem_mod_nonneg by lia.
    pose proof (Z.mod_pos_bound V (10 ^ k) Hp). pose proof (Z.div_pos V (10 ^ k) ltac:(lia) Hp).
    destruct (udec_fmt0_value k (V mod 10 ^ k) ltac:(lia) Hk) as (H1 & H2 & H3).
    exists [], (sdec (V / 10 ^ k)), (fmt0 k (V mod 10 ^ k)). unfold sdec. destruct (Z.ltb_spec (V / 10 ^ k) 0); [lia|].
    split; [reflexivity|]. split; [apply udec_nonempty; lia|]. split; [apply udec_digits; lia|]. split; [exact H3|]. split; [exact H2|].
    left. split; [reflexivity|]. rewrite dec_value_app, H1, H2, udec_value by lia. pose proof (Z.div_mod V (10 ^ k)). lia.
  - rewrite Z.abs_neq by lia. set (W := - V). replace V with (- W) by lia.
    rewrite Z.quot_opp_l by lia. rewrite Z.quot_div_nonneg, Z.rem_mod_nonneg by lia.
    pose proof (Z.mod_pos_bound W (10 ^ k) Hp). assert (1 <= W / 10 ^ k).
    { pose proof (Z.div_le_mono (10 ^ k) W (10 ^ k) Hp ltac:(lia)). rewrite Z.div_same in * by lia. lia. }
    destruct (udec_fmt0_value k (W mod 10 ^ k) ltac:(lia) Hk) as (H1 & H2 & H3).
    exists [45], (udec (W / 10 ^ k)), (fmt0 k (W mod 10 ^ k)). unfold sdec. destruct (Z.ltb_spec (- (W / 10 ^ k)) 0); [|lia].
    rewrite Z.opp_involutive.
    split; [reflexivity|]. split; [apply udec_nonempty; lia|]. split; [apply udec_digits; lia|]. split; [exact H3|]. split; [exact H2|].
    right. split; [reflexivity|]. rewrite dec_value_app, H1, H2, udec_value by lia. pose proof (Z.div_mod W (10 ^ k)). lia.
Qed.

Lemma dec_digits_ok : forall ds k v rest, Forall digit ds -> is_digit (cur rest) = false -> 0 <= v ->
  match k with None => True | Some n => (List.length ds <= n)%nat end ->
  (ds = [] \/ dval v ds + 48 <= INT_MAX) ->
  dec_digits k v (ds ++ rest) = Ok (dval v ds, List.length ds, rest).
Proof.
  induction ds as [|c ds IH]; intros k v rest Hds Hr Hv Hk Hb.
  - cbn [app List.length dval fold_left]. unfold dval. cbn [fold_left]. destruct rest as [|r rest]; cbn [dec_digits]; [reflexivity|].
    unfold cur in Hr. cbn [hd] in Hr. rewrite Hr. reflexivity.
  - inversion Hds as [|? ? Hc Hds']; subst. cbn [app dec_digits].
    assert (Hd : is_digit c = true) by (apply is_digit_spec; exact Hc). rewrite Hd.
    destruct Hb as [Hb|Hb]; [discriminate Hb|].
    assert (Hstep : dval v (c :: ds) = dval (v * 10 + c - 48) ds).
    { unfold dval. cbn [fold_left]. replace (v * 10 + (c - 48)) with (v * 10 + c - 48) by lia. reflexivity. }
    rewrite Hstep in *.
    assert (Hge : v * 10 + c - 48 <= dval (v * 10 + c - 48) ds).
    { rewrite dval_acc. pose proof (dec_value_bound ds Hds'). pose proof (pow10_pos (zlen ds) (zlen_nonneg ds)). unfold digit in Hc. nia. }
    unfold digit in Hc. unfold INT_MAX in *.
    assert (Hi : int32b (v * 10) && int32b (v * 10 + c) = true) by (unfold int32b; lia).
    assert (Hrec : dec_digits (option_map pred k) (v * 10 + c - 48) (ds ++ rest) = Ok (dval (v * 10 + c - 48) ds, List.length ds, rest)).
    { apply IH; try assumption; [lia| |right; lia]. destruct k as [n|]; cbn [option_map]; [cbn [List.length] in Hk; lia|exact I]. }
    destruct k as [[|n]|].
    + cbn [List.length] in Hk. lia.
    + rewrite Hi. cbn [option_map] in *. rewrite Hrec. reflexivity.
    + rewrite Hi. cbn [option_map] in *. rewrite Hrec. reflexivity.
Qed.

Lemma dval_dec ds : dval 0 ds = dec_value ds.
Proof. reflexivity. Qed.

Lemma str2dec_ok k sign ip fp :
  Forall digit ip -> Forall digit fp -> ip <> [] -> (sign = [] \/ sign = [45]) -> List.length fp = k ->
  dec_value (ip ++ fp) + 48 <= INT_MAX ->
  str2dec (sign ++ ip ++ [46] ++ fp) k = Ok (match sign with [] => dec_value (ip ++ fp) | _ => - dec_value (ip ++ fp) end).
Proof.
  intros Hip Hfp Hne Hs Hk Hb. unfold str2dec.
  assert (Hge : dec_value ip <= dec_value (ip ++ fp)).
  { rewrite dec_value_app. pose proof (dec_value_bound fp Hfp). pose proof (dec_value_bound ip Hip). pose proof (pow10_pos (zlen fp) (zlen_nonneg fp)). nia. }
  assert (Hmain : forall neg : bool, obind (dec_digits None 0 (ip ++ [46] ++ fp)) (fun '(value, _, p1) =>
     obind (if cur p1 =? 46 then dec_digits (Some k) value (tl p1) else Ok (value, O, p1)) (fun '(value, n, _) =>
     obind (dec_scale (k - n) value) (fun value => Ok (if neg then - value else value)))) =
     Ok (if neg then - dec_value (ip ++ fp) else dec_value (ip ++ fp))).
  { intros neg. rewrite dec_digits_ok; [|exact Hip|reflexivity|lia|exact I|right; rewrite dval_dec; lia].
    cbn [obind]. cbn [cur hd app tl]. change (46 =? 46) with true. cbv iota.
    rewrite <- (app_nil_r fp) at 1.
    rewrite dec_digits_ok; [|exact Hfp|reflexivity| |lia|].
    - cbn [obind]. rewrite Hk, Nat.sub_diag. cbn [dec_scale obind]. rewrite dval_dec. unfold dec_value.
      rewrite fold_left_app. reflexivity.
    - rewrite dval_dec. pose proof (dec_value_bound ip Hip). lia.
    - right. rewrite dval_dec. unfold dval, dec_value in *. rewrite fold_left_app in Hb. exact Hb. }
  destruct Hs as [->| ->].
  - cbn [app]. destruct ip as [|c ip']; [contradiction|]. cbn [app cur hd].
    inversion Hip as [|? ? Hc _]; subst. unfold digit in Hc. destruct (Z.eqb_spec c 45); [lia|].
    apply (Hmain false).
  - cbn [app cur hd tl]. change (45 =? 45) with true. cbv iota. apply (Hmain true).
Qed.

Lemma fixed_roundtrip k V : (1 <= k)%nat -> 0 <= V \/ V <= - 10 ^ (Z.of_nat k) -> Z.abs V + 48 <= INT_MAX ->
  str2dec (fixed_text (Z.of_nat k) V) k = Ok V.
Proof.
  intros Hk HV Hb. destruct (fixed_denotes (Z.of_nat k) V ltac:(lia) HV) as (sign & ip & fp & -> & Hne & Hip & Hfp & Hl & Hs).
  pose proof (dec_value_bound (ip ++ fp) (proj2 (Forall_app _ _ _) (conj Hip Hfp))).
  rewrite str2dec_ok; try assumption.
  - destruct Hs as [[-> ->]|[-> ->]]; reflexivity.
  - destruct Hs as [[-> _]|[-> _]]; [left|right]; reflexivity.
  - unfold zlen in Hl. lia.
  - destruct Hs as [[_ ->]|[_ ->]]; lia.
Qed.

Lemma fixed_small_negative : fixed_text 1 (-5) = lit "0.5" /\ ~ fraction_text 1 (-5) (fixed_text 1 (-5)) /\ str2dec (fixed_text 1 (-5)) 1 = Ok 5.
Proof.
  split; [vm_compute; reflexivity|]. split; [|vm_compute; reflexivity].
  change (fixed_text 1 (-5)) with [48; 46; 53]. intros (sign & ip & fp & E & Hne & Hip & Hfp & Hl & [[Hs Hv]|[Hs Hv]]).
  - pose proof (dec_value_bound (ip ++ fp) (proj2 (Forall_app _ _ _) (conj Hip Hfp))). lia.
  - subst sign. discriminate E.
Qed.

Lemma fixed_ub fl ty k rest dst : In (ty, k) fixed_types -> 256 < zlen dst ->
  XBT_ToStringChunk fl ty (le 4 INT_MIN ++ rest) 0 dst = Ub.
Proof.
  intros Hin Hd. rewrite (chunk_fixed fl ty k) by assumption. cbv zeta. rewrite take4_le, s32_le by (unfold int32, INT_MIN; lia).
  rewrite Z.eqb_refl. reflexivity.
Qed.

Lemma fixed_max_ub : str2dec (fixed_text 1 INT_MAX) 1 = Ub.
Proof. vm_compute. reflexivity. Qed.

Lemma quad_cstring a b c d : 0 <= a -> 0 <= b -> 0 <= c -> 0 <= d -> cstring (quad a b c d).
Proof.
  intros. unfold quad. repeat first [apply cstring_1; unfold is_cchar; lia | apply digits_cchar, udec_digits; lia | apply cstring_app; split].
Qed.

Lemma ipv4_delivers fl v rest dst : uint32 v -> 256 < zlen dst ->
  delivers_cstr (XBT_ToStringChunk fl XBT_IPv4 (le 4 v ++ rest) 0 dst)
    (quad (v / 16777216) (v / 65536 mod 256) (v / 256 mod 256) (v mod 256)) (zlen dst).
Proof.
  intros Hv Hd. unfold uint32 in Hv. rewrite chunk_ipv4 by assumption. cbv zeta. rewrite take4_le, unle4, Z.mod_small by lia.
  rewrite !shr_div by lia. change 255 with (2 ^ 8 - 1). rewrite !land_mod by lia. change (2 ^ 24) with 16777216. change (2 ^ 16) with 65536.
  change (2 ^ 8) with 256.
  rewrite <- (opened_len dst) by assumption. apply whole_delivers; [apply quad_cstring; lia| |lia].
  rewrite opened_len by assumption. unfold quad. rewrite !zlen_app. change (zlen [46]) with 1.
  pose proof (udec_len (v / 16777216) 3). pose proof (udec_len (v / 65536 mod 256) 3). pose proof (udec_len (v / 256 mod 256) 3). pose proof (udec_len (v mod 256) 3).
  change (10 ^ 3) with 1000 in *. lia.
Qed.
