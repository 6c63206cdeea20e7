(** Texts that come back whatever was shown before. *)
From Verif Require Import Base BaseFacts NumSpec CalSpec Base64Spec Scan ScanProofs Base64 Base64Proofs Dates DatesProofs
  Types ScalarSpec ListFacts ChunkProofs ScalarProofs RingProofs DetectProofs ShownProofs RoundtripProofs Xb.

Lemma chunk_total fl ty data d1 d2 c1 : In ty ring_types -> ty <> XBT_INT64 -> ty <> XBT_UINT64 -> 256 < zlen d1 -> zlen d1 = zlen d2 ->
  XBT_ToStringChunk fl ty data 0 d1 = Ok c1 -> exists c2, XBT_ToStringChunk fl ty data 0 d2 = Ok c2.
Proof.
  intros Hin Hf1 Hf2 L1 L2 H1. assert (L2' : 256 < zlen d2) by lia.
  assert (Hfx : forall k, In (ty, k) fixed_types -> exists c2, XBT_ToStringChunk fl ty data 0 d2 = Ok c2).
  { intros k Hk. rewrite (chunk_fixed fl ty k) in H1 |- * by assumption. cbv zeta in H1 |- *.
    destruct (_ =? INT_MIN); [discriminate H1|]. unfold whole. eauto. }
  unfold ring_types in Hin. cbn [In] in Hin.
  destruct Hin as [E|[E|[E|[E|[E|[E|[E|[E|[E|[E|[E|[E|[E|[E|[]]]]]]]]]]]]]]]; subst ty; try contradiction.
  - rewrite chunk_int32 by assumption. unfold whole. eauto.
  - apply (Hfx 1). cbn; tauto.
  - apply (Hfx 2). cbn; tauto.
  - apply (Hfx 3). cbn; tauto.
  - apply (Hfx 6). cbn; tauto.
  - apply (Hfx 9). cbn; tauto.
  - rewrite chunk_uint32 by assumption. unfold whole. eauto.
  - rewrite chunk_float by assumption. unfold whole. eauto.
  - rewrite chunk_unix_time by assumption. unfold whole. eauto.
  - rewrite chunk_unix_date in H1 |- * by assumption. destruct (UnixDate2Str (s32 (unle (ztake 4 data)))); [| |discriminate H1]; unfold whole; eauto.
  - rewrite chunk_time64 by assumption. unfold whole. eauto.
  - rewrite chunk_sha1 by assumption. eauto.
Qed.

Lemma ToString_total fl ty data o1 o2 st1 st2 r : ty <> XBT_INT64 -> ty <> XBT_UINT64 -> ring_ok st1 -> ring_ok st2 ->
  XBT_ToString fl ty data o1 st1 = Ok r -> exists r', XBT_ToString fl ty data o2 st2 = Ok r'.
Proof.
  intros Hf1 Hf2 Hr1 Hr2 H1.
  pose proof (ring_buf st1 (rg_idx st1) Hr1 (proj2 (proj2 Hr1))) as B1.
  pose proof (ring_buf st2 (rg_idx st2) Hr2 (proj2 (proj2 Hr2))) as B2.
  unfold XBT_ToString in *. cbv zeta in *.
  destruct (ty =? XBT_NULL); [eauto|]. destruct (ty =? XBT_STRING); [eauto|]. destruct (ty =? XBT_GUID); [eauto|].
  change [XBT_INT32; XBT_INT32_DECI; XBT_INT32_CENTI; XBT_INT32_MILI; XBT_INT32_MICRO; XBT_INT32_NANO; XBT_UINT32; XBT_INT64; XBT_UINT64;
      XBT_FLOAT; XBT_UNIX_TIME; XBT_UNIX_DATE; XBT_UNIX_TIME64_MSEC; XBT_SHA1] with ring_types in *.
  destruct (isin ty ring_types) eqn:Ein.
  { apply isin_true in Ein. destruct (XBT_ToStringChunk fl ty data 0 (nth (Z.to_nat (rg_idx st1)) (rg_bufs st1) [])) as [c1| |] eqn:E1; cbn [obind] in H1; [|discriminate H1|discriminate H1].
    destruct (chunk_total fl ty data _ (nth (Z.to_nat (rg_idx st2)) (rg_bufs st2) []) _ Ein Hf1 Hf2 ltac:(rewrite B1; lia) ltac:(rewrite B1, B2; reflexivity) E1) as (c2 & ->). cbn [obind]. eauto. }
  destruct (ty =? XBT_BLOB_STRING); [destruct (_ =? 0); eauto|].
  destruct (ty =? XBT_BLOB); [destruct (_ =? 0); [eauto|]; destruct (base64_encode _ _); eauto|].
  destruct (ty =? XBT_HEX); [destruct (_ =? 0); eauto|]. eauto.
Qed.

(** The forms in which exact texts are stored. *)
Definition stored_form (t : list Z) (ty : Z) (bs : list Z) : Prop :=
  (In ty [XBT_INT32; XBT_INT32_DECI; XBT_INT32_CENTI; XBT_INT32_MILI; XBT_INT32_MICRO; XBT_INT32_NANO; XBT_UNIX_TIME] /\ zlen bs = 4)
  \/ (ty = XBT_UNIX_DATE /\ exists d, bs = le 4 (rata d) /\ int32 (rata d) /\ valid_date d /\ last_of_leap_year d = false)
  \/ (In ty [XBT_INT64; XBT_UINT64] /\ zlen bs = 8)
  \/ (ty = XBT_GUID /\ zlen bs = 16) \/ (ty = XBT_SHA1 /\ zlen bs = 20) \/ (ty = XBT_STRING /\ bs = t ++ [0] /\ cstring t).

Lemma stores_one fl t ty wp limit a b : stores fl t ty wp limit a -> stores fl t ty wp limit b -> a = b.
Proof. intros (s1 & E1 & <- & _) (s2 & E2 & <- & _). rewrite E1 in E2. inversion E2. reflexivity. Qed.

Lemma exact_form fl t wp limit : exact_text t -> 0 <= wp -> exists bs, stores fl t (XBT_Detect t) wp limit bs /\ stored_form t (XBT_Detect t) bs /\ bytes bs.
Proof.
  intros H Hw. destruct H as [n Hn|n Hn Hr Hm Hs|n Hn|neg i f k Hk Hi Hf Hneg Hmax|d Hd Hy Hl|d t Ht Hd Hn|l Hb Hl|l Hb Hl Hc|t Ht Hd].
  - assert (E : XBT_Detect (sdec n) = XBT_INT32).
    { unfold int32 in Hn. rewrite detect_sdec by (change (10 ^ 19) with 10000000000000000000; lia). unfold int_class.
      destruct (Z.ltb_spec n 0); [destruct (Z.leb_spec (Z.abs n) 2147483648)|destruct (Z.leb_spec (Z.abs n) 2147483647)]; try lia; reflexivity. }
    rewrite E. exists (le 4 n). split; [apply stores_int32; assumption|]. split; [left; split; [cbn; tauto|reflexivity]|apply le_bytes].
  - assert (E : XBT_Detect (sdec n) = XBT_INT64).
    { unfold int64 in Hn. rewrite detect_sdec by (change (10 ^ 19) with 10000000000000000000; lia). unfold int_class.
      destruct (Z.ltb_spec n 0).
      - destruct (Z.leb_spec (Z.abs n) 2147483648); [lia|reflexivity].
      - destruct (Z.leb_spec (Z.abs n) 2147483647); [lia|]. destruct (Z.leb_spec (Z.abs n) 4294967295); [lia|].
        destruct (Z.leb_spec (Z.abs n) 9223372036854775807); [reflexivity|lia]. }
    rewrite E. exists (le 8 n). split; [apply stores_int64; assumption|]. split; [right; right; left; split; [cbn; tauto|reflexivity]|apply le_bytes].
  - assert (E : XBT_Detect (udec n) = XBT_UINT64).
    { pose proof (detect_sdec n ltac:(change (10 ^ 19) with 10000000000000000000; lia)) as E. unfold sdec in E.
      destruct (Z.ltb_spec n 0); [lia|]. rewrite E. unfold int_class.
      destruct (Z.leb_spec (Z.abs n) 2147483647); [lia|]. destruct (Z.leb_spec (Z.abs n) 4294967295); [lia|].
      destruct (Z.leb_spec (Z.abs n) 9223372036854775807); [lia|reflexivity]. }
    rewrite E. exists (le 8 n). assert (Hu : uint64 n) by (unfold uint64; lia). split; [apply stores_uint64; assumption|].
    split; [right; right; left; split; [cbn; tauto|reflexivity]|apply le_bytes].
  - assert (Hty : exists ty, In (ty, k) fixed_types).
    { cbn [In] in Hk. destruct Hk as [<-|[<-|[<-|[<-|[<-|[]]]]]]; eexists; unfold fixed_types; cbn [In];
      [left|right; left|do 2 right; left|do 3 right; left|do 4 right; left]; reflexivity. }
    destruct Hty as [ty Hty]. pose proof (fixed_k _ _ Hty) as Hk9. pose proof (pow10_le k Hk9) as Hp.
    destruct (udec_fmt0_value k f Hf ltac:(lia)) as (F1 & F2 & F3). unfold INT_MAX in Hmax.
    assert (Hi10 : i < 10 ^ 10) by (change (10 ^ 10) with 10000000000; nia).
    assert (Hval : dec_value (udec i ++ fmt0 k f) = i * 10 ^ k + f) by (rewrite dec_value_app, F1, F2, udec_value by lia; lia).
    assert (E : XBT_Detect ((if neg then [45] else []) ++ udec i ++ [46] ++ fmt0 k f) = ty).
    { apply (detect_fixed ty k); try assumption; [apply udec_nonempty; lia|apply udec_digits; lia|apply udec_len; lia|lia]. }
    rewrite E. set (V := if neg then - (i * 10 ^ k + f) else i * 10 ^ k + f).
    assert (HV : fraction_text k V ((if neg then [45] else []) ++ udec i ++ [46] ++ fmt0 k f)).
    { exists (if neg then [45] else []), (udec i), (fmt0 k f). split; [reflexivity|]. split; [apply udec_nonempty; lia|].
      split; [apply udec_digits; lia|]. split; [exact F3|]. split; [exact F2|]. unfold V. rewrite Hval. destruct neg; [right|left]; split; reflexivity. }
    exists (le 4 V). split; [apply (stores_fixed fl ty k); try assumption; unfold INT_MAX, V; destruct neg; nia|].
    split; [|apply le_bytes]. left. split; [|reflexivity]. unfold fixed_types in Hty. cbn [In] in Hty |- *.
    destruct Hty as [T|[T|[T|[T|[T|[]]]]]]; injection T as <- <-; tauto.
  - rewrite detect_date by (try assumption; lia). destruct (rata_small d Hd Hy) as [R1 R2].
    exists (le 4 (rata d)). split; [apply stores_date; try assumption; [lia|apply rata_day_number, Hd]|].
    split; [|apply le_bytes]. right; left. split; [reflexivity|]. exists d. auto.
  - unfold uint32 in Ht. pose proof (year_of_day d (t / 86400) Hd Hn ltac:(lia)) as Hy.
    rewrite detect_time by (try assumption; lia). exists (le 4 t). split; [apply stores_time; assumption|]. split; [left; split; [cbn; tauto|reflexivity]|apply le_bytes].
  - rewrite detect_guid by assumption. exists l. split; [apply stores_guid; assumption|]. split; [|exact Hb]. do 3 right; left. split; [reflexivity|unfold zlen; lia].
  - rewrite detect_hex by (try assumption; apply Hex2Str_lower, Hb).
    assert (HL : zlen l = 20) by (unfold zlen; lia). rewrite Hex2Str_length, HL. change (2 * 20 =? 40) with true. cbv iota.
    exists l. split; [apply stores_sha1; assumption|]. split; [|exact Hb]. do 4 right; left. split; [reflexivity|exact HL].
  - rewrite Hd. exists (t ++ [0]). split; [apply stores_string|]. split; [do 5 right; auto|]. rewrite bytes_app. split; [apply cstring_bytes, Ht|].
    repeat constructor; lia.
Qed.

Lemma form_ok t ty bs rest : stored_form t ty bs -> ty <> XBT_INT64 -> ty <> XBT_UINT64 ->
  history_free ty (bs ++ rest) /\ readable ty (bs ++ rest) = true /\ ty <> XBT_UNIX_TIME64_MSEC /\ ty <> XBT_NULL.
Proof.
  pose proof (zlen_nonneg rest) as Hr. intros F N1 N2. unfold history_free.
  destruct F as [[Hty Hl]|[(-> & d & -> & Hd & Hv & Hy)|[[Hty _]|[[-> Hl]|[[-> Hl]|(-> & -> & Hs)]]]]].
  - assert (L : (4 <=? zlen (bs ++ rest)) = true) by (rewrite zlen_app; lia).
    cbn [In] in Hty. repeat (destruct Hty as [<-|Hty]; [repeat split; try discriminate; exact L|]). contradiction.
  - split; [|split; [|split; discriminate]].
    + split; [discriminate|]. split; [discriminate|]. split; [|discriminate]. intros _. exists d. rewrite take4_le, s32_le by assumption. split; [exact Hv|]. split; [apply rata_day_number, Hv|exact Hy].
    + change (4 <=? zlen (le 4 (rata d) ++ rest) = true). rewrite zlen_app. change (zlen (le 4 (rata d))) with 4. lia.
  - cbn [In] in Hty. destruct Hty as [<-|[<-|[]]]; contradiction.
  - split; [|split; [|split; discriminate]]; [repeat split; discriminate|]. change (16 <=? zlen (bs ++ rest) = true). rewrite zlen_app. lia.
  - split; [|split; [|split; discriminate]]; [repeat split; discriminate|]. change (20 <=? zlen (bs ++ rest) = true). rewrite zlen_app. lia.
  - split; [|split; [|split; discriminate]]; [repeat split; discriminate|]. change (zlen (cstr ((t ++ [0]) ++ rest)) <? zlen ((t ++ [0]) ++ rest) = true).
    rewrite <- app_assoc. cbn [app]. rewrite cstr_app by exact Hs. rewrite zlen_app, zlen_cons. lia.
Qed.

(** The main fact: an exact text is stored in some way, and shown from there in any state of the ring. *)
Lemma steady_shows fl t wp limit : floats_ok fl -> exact_text t -> XBT_Detect t <> XBT_INT64 -> XBT_Detect t <> XBT_UINT64 -> 0 <= wp ->
  exists bs, stores fl t (XBT_Detect t) wp limit bs /\ stored_form t (XBT_Detect t) bs /\ XBT_Detect t <> XBT_UNIX_TIME64_MSEC /\
  forall rest out st, bytes rest -> ring_ok st -> readable (XBT_Detect t) (bs ++ rest) = true /\
  exists s st', XBT_ToString fl (XBT_Detect t) (bs ++ rest) out st = Ok (s, st') /\ shown_text s st' = Some t /\ ring_ok st'.
Proof.
  intros Hfl H N1 N2 Hw. destruct (exact_form fl t wp limit H Hw) as (bs & S & F & B). exists bs. split; [exact S|]. split; [exact F|].
  split; [apply (form_ok t _ bs [] F N1 N2)|]. intros rest out st Hr Ho. destruct (form_ok t _ bs rest F N1 N2) as (Hf & Rd & _).
  split; [exact Rd|]. destruct (exact_keeps fl t H wp limit rest out Hw) as (bs' & S' & s0 & st0 & E0 & T0). rewrite (stores_one _ _ _ _ _ _ _ S' S) in *. clear bs' S'.
  destruct (ToString_total fl _ _ out out ring0 st _ N1 N2 ring0_ok Ho E0) as ((s & st') & E).
  assert (Hb : bytes (bs ++ rest)) by (rewrite bytes_app; auto).
  exists s, st'. split; [exact E|]. split; [rewrite <- T0; eapply shown_indep; [exact Hb|exact Hf|exact Ho|apply ring0_ok|exact E|exact E0]|].
  apply (ToString_ring fl _ _ _ _ _ _ Hfl Hb Ho E).
Qed.
