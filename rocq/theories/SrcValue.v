(** The values of a source as they reach the stream. *)
From Verif Require Import Base BaseFacts ListFacts NumSpec CalSpec Scan ScanProofs Base64 Base64Spec Base64Proofs Dates DatesProofs Types ChunkProofs ScalarProofs RingProofs RoundtripProofs EscapeProofs Sort Xb XbWrite XbBin DocSpec XmlSpec SrcSpec.

Definition once_types : list Z :=
  [XBT_INT32; XBT_UINT32; XBT_INT64; XBT_UINT64; XBT_INT32_DECI; XBT_INT32_CENTI; XBT_INT32_MILI; XBT_INT32_MICRO; XBT_INT32_NANO; XBT_IPv4; XBT_FLOAT; XBT_UNIX_TIME; XBT_UNIX_DATE; XBT_UNIX_TIME64_MSEC].
Lemma again fl ty data off dst : In ty once_types -> 0 < off -> 256 < zlen dst -> exists c, XBT_ToStringChunk fl ty data off dst = Ok c /\ ck_ret c = 0.
Proof.
  intros I O D. unfold XBT_ToStringChunk. rewrite guard by assumption. cbv zeta. replace (0 <? off) with true by lia.
  repeat (destruct I as [<-|I]; [eexists; split; reflexivity|]). destruct I.
Qed.
Lemma again_guid fl data dst : 256 < zlen dst -> exists c, XBT_ToStringChunk fl XBT_GUID data 16 dst = Ok c /\ ck_ret c = 0.
Proof. intros D. unfold XBT_ToStringChunk. rewrite guard by assumption. eexists. split; reflexivity. Qed.
Lemma again_sha1 fl data dst : 256 < zlen dst -> exists c, XBT_ToStringChunk fl XBT_SHA1 data 20 dst = Ok c /\ ck_ret c = 0.
Proof. intros D. unfold XBT_ToStringChunk. rewrite guard by assumption. eexists. split; reflexivity. Qed.

Definition streams fl ty data buf t : Prop := exists f0, forall f, (f0 <= f)%nat -> XBT_ToXMLStream fl f ty data buf = Some (Ok (flat_map xml_escape t)).
Lemma loop_streams fl ty data buf t f l : chunk_loop fl f ty data 0 buf = Some (Ok l) -> List.concat l = t -> streams fl ty data buf t.
Proof. intros E C. exists f. intros g G. unfold XBT_ToXMLStream. rewrite (chunk_loop_mono _ f _ _ _ _ _ E g G), C. reflexivity. Qed.
Lemma two_streams fl ty data buf t c : XBT_ToStringChunk fl ty data 0 buf = Ok c -> ck_ret c = zlen t -> ztake (zlen t) (ck_dst c) = t ->
  (exists c', XBT_ToStringChunk fl ty data (ck_offset c) (ck_dst c) = Ok c' /\ ck_ret c' = 0) -> streams fl ty data buf t.
Proof.
  intros E R T (c' & E' & R'). destruct (Z.eqb_spec (zlen t) 0) as [Z0|Z0].
  - apply (loop_streams _ _ _ _ _ 1 []); [cbn [chunk_loop]; rewrite E, R, Z0; reflexivity|]. destruct t; [reflexivity|]. unfold zlen in Z0. cbn in Z0. lia.
  - apply (loop_streams _ _ _ _ _ 2 [t]); [|apply app_nil_r]. cbn [chunk_loop]. rewrite E, R. replace (zlen t =? 0) with false by lia. rewrite E', R'. cbn [Z.eqb]. rewrite T. reflexivity.
Qed.
Lemma delivers_streams fl ty data buf t n : In ty once_types -> 256 < n -> delivers (XBT_ToStringChunk fl ty data 0 buf) t n -> streams fl ty data buf t.
Proof. intros I N (c & E & R & T & O & L). apply (two_streams _ _ _ _ _ c E R T). apply again; auto. lia. Qed.
Lemma whole_streams fl ty data buf dst off t : In ty once_types -> XBT_ToStringChunk fl ty data 0 buf = whole dst off t -> 0 < off -> 256 < zlen dst -> streams fl ty data buf t.
Proof.
  intros I E O D. unfold whole in E. apply (two_streams _ _ _ _ _ _ E); cbn [ck_ret ck_dst ck_offset]; [reflexivity|apply ztake_bput_0|]. apply again; auto.
  rewrite bput_0, zlen_app. unfold zskip. pose proof (skipn_length (Z.to_nat (zlen (t ++ [0]))) dst). unfold zlen in *. lia.
Qed.
Lemma hex_char d : 0 <= d < 16 -> hexchar d = hex_digit d.
Proof. intros H. assert (d = 0 \/ d = 1 \/ d = 2 \/ d = 3 \/ d = 4 \/ d = 5 \/ d = 6 \/ d = 7 \/ d = 8 \/ d = 9 \/ d = 10 \/ d = 11 \/ d = 12 \/ d = 13 \/ d = 14 \/ d = 15) as X by lia. repeat (destruct X as [->|X]; [reflexivity|]). subst d. reflexivity. Qed.
Lemma hex_pairs_ok l : bytes l -> Hex2Str l = hex_pairs l.
Proof.
  unfold Hex2Str, hex_pairs. induction 1 as [|b l B _ IH]; [reflexivity|]. cbn [flat_map]. rewrite IH. unfold is_byte in B. do 2 f_equal; [|f_equal].
  - rewrite Z.shiftr_div_pow2 by lia. change (2 ^ 4) with 16. apply hex_char. lia.
  - change 15 with (Z.ones 4). rewrite Z.land_ones by lia. change (2 ^ 4) with 16. apply hex_char. lia.
Qed.
Lemma gm_same d n : valid_date d -> day_number d n -> gm_date n = d.
Proof. intros V N. destruct (gm_date_ok n) as [G1 G2]. apply rata_inj; try assumption. rewrite <- (day_number_rata _ _ G1 G2), <- (day_number_rata _ _ V N). reflexivity. Qed.
Lemma opened_long (buf : list Z) : 256 < zlen buf -> 256 < zlen (opened buf).
Proof. intros H. rewrite opened_len; assumption. Qed.

(** A text behind its size is printed like a text. *)
Lemma same_chunk fl z data off dst : zlen z = 4 -> XBT_ToStringChunk fl XBT_BLOB_STRING (z ++ data) off dst = XBT_ToStringChunk fl XBT_STRING data off dst.
Proof.
  intros L. unfold XBT_ToStringChunk. change (XBT_BLOB_STRING =? XBT_NULL) with false. change (XBT_BLOB_STRING =? XBT_STRING) with false. change (XBT_BLOB_STRING =? XBT_BLOB_STRING) with true.
  change (XBT_STRING =? XBT_NULL) with false. change (XBT_STRING =? XBT_STRING) with true. cbv beta iota zeta. rewrite zskip_app_len by (symmetry; exact L). reflexivity.
Qed.
Lemma same_text fl f : forall z data off dst, zlen z = 4 -> chunk_loop fl f XBT_BLOB_STRING (z ++ data) off dst = chunk_loop fl f XBT_STRING data off dst.
Proof. induction f as [|f IH]; intros z data off dst L; [reflexivity|]. cbn [chunk_loop]. rewrite same_chunk by exact L. destruct (XBT_ToStringChunk _ _ _ _ _); try reflexivity. rewrite IH by exact L. reflexivity. Qed.

Lemma value_streams fl ty v t rest buf : floats_ok fl -> stands_for fl ty v t -> 256 < zlen buf -> zlen buf mod 4 <> 2 -> streams fl ty (v ++ rest) buf t.
Proof.
  intros FL H B B4. pose proof (opened_long _ B) as OB. destruct H as [s r C|n r R|n r R|n r R R1 R2|n r R|ty k n r I R R1 R2|n r R|n r R|n d r R V D|n d r R0 R V D|n d r R R1 V D Y|g r G L|g r G L|z s r L C|b r G L]; rewrite <- ?app_assoc.
  - destruct (string_pieces fl s (r ++ rest) buf C B) as (f & l & E & CC & _). apply (loop_streams _ _ _ _ _ f l E CC).
  - eapply delivers_streams; [cbn; tauto|exact B|]. apply delivers_weaken, int32_delivers; assumption.
  - eapply delivers_streams; [cbn; tauto|exact B|]. apply delivers_weaken, uint32_delivers; assumption.
  - eapply delivers_streams; [cbn; tauto|exact B|]. apply int64_delivers; assumption.
  - eapply delivers_streams; [cbn; tauto|exact B|]. apply uint64_delivers; assumption.
  - change scaled with fixed_types in I. assert (T : sdec (Z.quot n (10 ^ k)) ++ [46] ++ fmt0 k (Z.abs n mod 10 ^ k) = fixed_text k n).
    { unfold fixed_text. rewrite Z.rem_mod_nonneg; [reflexivity|lia|]. apply Z.pow_pos_nonneg; [lia|]. pose proof (fixed_k _ _ I). lia. }
    rewrite T. eapply delivers_streams; [|exact B|apply delivers_weaken, (fixed_delivers fl ty k); assumption]. cbn in I |- *. repeat (destruct I as [I|I]; [injection I as <- <-; tauto|]). destruct I.
  - eapply delivers_streams; [cbn; tauto|exact B|]. apply delivers_weaken, ipv4_delivers; assumption.
  - eapply whole_streams; [cbn; tauto| | |exact OB]; [rewrite chunk_float by assumption; rewrite take4_le, unle4, Z.mod_small by (unfold uint32 in R; lia); reflexivity|lia].
  - unfold uint32 in R. eapply whole_streams; [cbn; tauto| | |]; [rewrite chunk_unix_time by assumption; cbv zeta; rewrite take4_le, unle4, Z.mod_small by lia; rewrite (gm_same d) by assumption; reflexivity|lia|]. rewrite zlen_app, zlen_repeat by lia. change (zlen [0]) with 1. lia.
  - unfold int64 in R. eapply whole_streams; [cbn; tauto| | |].
    + rewrite chunk_time64 by assumption. cbv zeta. rewrite ztake_app_len by reflexivity. rewrite s64_le by (unfold int64; lia). rewrite Z.quot_div_nonneg, Z.rem_mod_nonneg by lia.
      rewrite Z.div_div by lia. change (1000 * 86400) with 86400000. rewrite (gm_same d) by assumption.
      replace (n / 1000 mod 86400 / 3600) with (n / 3600000 mod 24) by lia. replace (n / 1000 mod 3600 / 60) with (n / 60000 mod 60) by lia. reflexivity.
    + lia.
    + rewrite zlen_app, zlen_repeat by lia. change (zlen [0]) with 1. lia.
  - eapply whole_streams; [cbn; tauto| | |exact OB]; [rewrite chunk_unix_date by assumption; rewrite take4_le, s32_le by assumption; rewrite (UnixDate2Str_ok _ d R R1 V D), Y; reflexivity|lia].
  - assert (E := chunk_guid fl (g ++ r ++ rest) buf B). apply (two_streams _ _ _ _ _ _ E); cbn [ck_ret ck_dst ck_offset].
    + rewrite <- hex_pairs_ok, Hex2Str_length by assumption. lia.
    + rewrite zskip_0, ztake_app_len, hex_pairs_ok by (try assumption; lia). apply ztake_bput_0.
    + apply again_guid. rewrite bput_0, zlen_app. unfold zskip. pose proof (skipn_length (Z.to_nat (zlen (Hex2Str (ztake (16 - 0) (skipn (Z.to_nat 0) (g ++ r ++ rest))) ++ [0]))) (opened buf)). unfold zlen in *. lia.
  - assert (E := chunk_sha1 fl (g ++ r ++ rest) buf B). apply (two_streams _ _ _ _ _ _ E); cbn [ck_ret ck_dst ck_offset].
    + rewrite <- hex_pairs_ok, Hex2Str_length by assumption. lia.
    + rewrite zskip_0, ztake_app_len, hex_pairs_ok by (try assumption; lia). apply ztake_bput_0.
    + apply again_sha1. rewrite bput_0, zlen_app. unfold zskip. pose proof (skipn_length (Z.to_nat (zlen (Hex2Str (ztake (20 - 0) (skipn (Z.to_nat 0) (g ++ r ++ rest))) ++ [0]))) (opened buf)). unfold zlen in *. lia.
  - destruct (string_pieces fl s (r ++ rest) buf C B) as (f & l & E & CC & _). apply (loop_streams _ _ _ _ _ f l); [|exact CC]. cbn [app] in E |- *. rewrite same_text by exact L. exact E.
  - destruct (blob_pieces fl b (r ++ rest) buf G L B B4) as (f & l & E & CC & _). apply (loop_streams _ _ _ _ _ f l E CC).
Qed.
Lemma null_streams fl data buf : 256 < zlen buf -> streams fl XBT_NULL data buf [].
Proof. intros B. apply (loop_streams _ _ _ _ _ 1 []); [|reflexivity]. cbn [chunk_loop]. unfold XBT_ToStringChunk. rewrite guard by assumption. reflexivity. Qed.
