(** Printing values in pieces: XBT_ToStringChunk and its callers. *)
From Verif Require Import Base BaseFacts NumSpec CalSpec Scan ScanProofs Base64 Base64Spec Base64Proofs Dates DatesProofs Types ListFacts.

(** The loop of a caller that always presents the same buffer, as a relation-free function of
    sufficient fuel: pieces delivered. *)

(** ** STRING and BLOB_STRING *)

(** One call on text: what is shown of [s] from [offset] on. *)
Definition text_chunk (s : list Z) (offset : Z) (dst0 : list Z) : outcome chunk :=
  let dst_size := zlen dst0 - 1 in
  let dst := bput dst0 dst_size [0] in
  let len := zlen s - offset in
  if len <=? 0 then Ok (mkchunk 0 offset dst)
  else
    let p := zskip offset s in
    let copied := ztake dst_size p in
    let dst' := bput dst 0 (copied ++ zrepeat 0 (dst_size - zlen copied)) in
    let out := zlen (cstr dst') in
    Ok (mkchunk out (offset + out) dst').

Lemma chunk_string fl data offset dst : 256 < zlen dst ->
  XBT_ToStringChunk fl XBT_STRING data offset dst = text_chunk (cstr data) offset dst.
Proof.
  intros H. unfold XBT_ToStringChunk. destruct (Z.leb_spec (zlen dst) 256); [lia|]. reflexivity.
Qed.

Lemma chunk_blob_string fl data offset dst : 256 < zlen dst ->
  XBT_ToStringChunk fl XBT_BLOB_STRING data offset dst = text_chunk (cstr (zskip 4 data)) offset dst.
Proof.
  intros H. unfold XBT_ToStringChunk. destruct (Z.leb_spec (zlen dst) 256); [lia|]. reflexivity.
Qed.

Lemma text_chunk_spec s offset dst :
  cstring s -> 256 < zlen dst -> 0 <= offset ->
  exists c, text_chunk s offset dst = Ok c /\ zlen (ck_dst c) = zlen dst /\
    ck_ret c = Z.min (zlen dst - 1) (Z.max 0 (zlen s - offset)) /\
    ck_offset c = offset + ck_ret c /\
    (0 < ck_ret c -> ztake (ck_ret c) (ck_dst c) = ztake (ck_ret c) (zskip offset s) /\
       cstr (ck_dst c) = ztake (ck_ret c) (zskip offset s)).
Proof.
  intros Hs Hd Ho. unfold text_chunk.
  set (D := zlen dst - 1). set (b := bput dst D [0]).
  assert (Hb : zlen b = D + 1). { unfold b. rewrite bput_len; unfold D; [lia|lia|]. change (zlen [0]) with 1. lia. }
  destruct (Z.leb_spec (zlen s - offset) 0) as [Hle|Hgt].
  - eexists. split; [reflexivity|]. cbn [ck_ret ck_dst ck_offset]. repeat split; unfold D in *; try lia.
  - set (p := zskip offset s).
    assert (Hp : zlen p = zlen s - offset). { unfold p. rewrite zlen_skip by lia. lia. }
    set (cp := ztake D p).
    assert (Hcp : zlen cp = Z.min D (zlen p)). { unfold cp. rewrite zlen_take; unfold D; lia. }
    assert (Hcs : cstring cp). { unfold cp, p. apply cstring_take, cstring_skip, Hs. }
    set (d' := bput b 0 (cp ++ zrepeat 0 (D - zlen cp))).
    assert (Hskip : zskip (zlen (cp ++ zrepeat 0 (D - zlen cp))) b = [0]).
    { rewrite zlen_app, zlen_repeat by lia. unfold b, bput.
      replace (zlen cp + (D - zlen cp)) with D by lia.
      rewrite zskip_app_len by (rewrite zlen_take; unfold D; lia).
      replace (zskip (D + zlen [0]) dst) with (@nil Z); [reflexivity|].
      symmetry. apply zskip_all. change (zlen [0]) with 1. unfold D. lia. }
    assert (Hd' : d' = cp ++ zrepeat 0 (D - zlen cp) ++ [0]).
    { unfold d'. rewrite bput_0, Hskip, <- app_assoc. reflexivity. }
    assert (Hcstr : cstr d' = cp).
    { rewrite Hd'. destruct (Z.eq_dec (D - zlen cp) 0) as [E|E].
      - rewrite E. change (zrepeat 0 0) with (@nil Z). cbn [app]. apply cstr_app, Hcs.
      - replace (D - zlen cp) with (D - zlen cp - 1 + 1) by lia. rewrite zrepeat_S by lia.
        cbn [app]. apply cstr_app, Hcs. }
    rewrite Hcstr.
    assert (Hz : zlen d' = zlen dst).
    { rewrite Hd', !zlen_app, zlen_repeat by lia. change (zlen [0]) with 1. unfold D. lia. }
    assert (Ecp : ztake (zlen cp) p = cp).
    { unfold cp at 2. rewrite Hcp.
      destruct (Z.le_gt_cases D (zlen p)); [rewrite Z.min_l by lia; reflexivity|].
      rewrite Z.min_r by lia. rewrite (ztake_all (zlen p)), (ztake_all D) by lia. reflexivity. }
    eexists. split; [reflexivity|]. cbn [ck_ret ck_dst ck_offset]. split; [exact Hz|].
    split; [unfold D in *; lia|]. split; [lia|]. intros _. change (zskip offset s) with p. rewrite Ecp. split; [|exact Hcstr].
    rewrite Hd'. apply ztake_app_len. reflexivity.
Qed.

(** The pieces of a text, as the specification sees them. *)
Fixpoint pieces (fuel : nat) (n : Z) (s : list Z) : list (list Z) :=
  match fuel with
  | O => []
  | S k => match s with [] => [] | _ => ztake n s :: pieces k n (zskip n s) end
  end.

Lemma chunk_loop_text fl ty data s :
  (forall offset dst, 256 < zlen dst -> XBT_ToStringChunk fl ty data offset dst = text_chunk s offset dst) ->
  cstring s ->
  forall fuel offset dst, 256 < zlen dst -> 0 <= offset <= zlen s -> (Z.to_nat (zlen s - offset) < fuel)%nat ->
  exists l, chunk_loop fl fuel ty data offset dst = Some (Ok l) /\ List.concat l = zskip offset s /\
    Forall (fun piece => 0 < zlen piece < zlen dst) l.
Proof.
  intros Hty Hs. induction fuel as [|k IH]; intros offset dst Hd Ho Hf; [lia|].
  cbn [chunk_loop]. rewrite Hty by assumption.
  destruct (text_chunk_spec s offset dst Hs Hd ltac:(lia)) as (c & -> & Hlen & Hret & Hoff & Htxt).
  destruct (Z.eqb_spec (ck_ret c) 0) as [E|E].
  - exists []. split; [reflexivity|]. split; [|constructor]. cbn [List.concat]. symmetry. apply zskip_all. lia.
  - assert (Hpos : 0 < ck_ret c) by lia. specialize (Htxt Hpos). destruct Htxt as [Htxt _].
    destruct (IH (ck_offset c) (ck_dst c)) as (l & Hl & Hcat & Hall); [lia|lia|lia|].
    rewrite Hl. eexists. split; [reflexivity|]. cbn [List.concat]. rewrite Hcat, Htxt, Hoff. split.
    + replace (offset + ck_ret c) with (ck_ret c + offset) by lia.
      rewrite <- zskip_zskip by lia. apply ztake_zskip.
    + constructor; [|rewrite <- Hlen; exact Hall]. rewrite zlen_take, zlen_skip by lia. lia.
Qed.

Lemma chunk_loop_mono fl f ty data off d r :
  chunk_loop fl f ty data off d = Some r -> forall g, (f <= g)%nat -> chunk_loop fl g ty data off d = Some r.
Proof.
  revert off d r. induction f as [|f IH]; intros off d r Hl g Hg; [discriminate Hl|].
  destruct g as [|g]; [lia|]. cbn [chunk_loop] in *.
  destruct (XBT_ToStringChunk fl ty data off d) as [c| |]; [|exact Hl|exact Hl].
  destruct (ck_ret c =? 0); [exact Hl|].
  destruct (chunk_loop fl f ty data (ck_offset c) (ck_dst c)) as [r1|] eqn:E; [|discriminate Hl].
  rewrite (IH _ _ _ E g) by lia. exact Hl.
Qed.

Lemma string_pieces fl s rest dst : cstring s -> 256 < zlen dst ->
  exists fuel l, chunk_loop fl fuel XBT_STRING (s ++ 0 :: rest) 0 dst = Some (Ok l) /\
    List.concat l = s /\ Forall (fun piece => 0 < zlen piece < zlen dst) l.
Proof.
  intros Hs Hd. pose proof (zlen_nonneg s). exists (S (List.length s)).
  apply (chunk_loop_text fl XBT_STRING (s ++ 0 :: rest) s); try assumption; [|lia|unfold zlen in *; lia].
  intros offset dst' Hd'. rewrite chunk_string by assumption. rewrite cstr_app by assumption. reflexivity.
Qed.

Lemma blob_string_pieces fl s n rest dst : cstring s -> 256 < zlen dst ->
  exists fuel l, chunk_loop fl fuel XBT_BLOB_STRING (le 4 n ++ s ++ 0 :: rest) 0 dst = Some (Ok l) /\
    List.concat l = s /\ Forall (fun piece => 0 < zlen piece < zlen dst) l.
Proof.
  intros Hs Hd. pose proof (zlen_nonneg s). exists (S (List.length s)).
  apply (chunk_loop_text fl XBT_BLOB_STRING (le 4 n ++ s ++ 0 :: rest) s); try assumption; [|lia|unfold zlen in *; lia].
  intros offset dst' Hd'. rewrite chunk_blob_string by assumption. rewrite skip4_le, cstr_app by assumption. reflexivity.
Qed.

(** ** BLOB *)

Lemma alphabet_cchar c : In c alphabet \/ c = 61 -> is_cchar c.
Proof.
  intros [H| ->]; [|unfold is_cchar; lia].
  assert (A : cstring alphabet). { unfold cstring. apply Forall_forall. intros x Hx. vm_compute in Hx. unfold is_cchar. intuition lia. }
  unfold cstring in A. rewrite Forall_forall in A. apply A, H.
Qed.

Lemma b64_text_cstring l : bytes l -> cstring (b64_text l).
Proof.
  intros H. pose proof (b64_text_chars l H) as A. unfold cstring. eapply Forall_impl; [|exact A].
  intros c. apply alphabet_cchar.
Qed.

Definition blob_chunk (blob : list Z) (offset : Z) (dst0 : list Z) : chunk :=
  let D := zlen dst0 - 1 in
  let n := Z.min ((D - 1) / 4 * 3) (zlen blob - offset) in
  let t := b64_text (ztake n (zskip offset blob)) in
  mkchunk (zlen t) (offset + n) (bput (bput dst0 D [0]) 0 (t ++ [0])).

Lemma chunk_blob fl blob rest offset dst :
  bytes blob -> zlen blob <= INT_MAX -> 256 < zlen dst -> zlen dst mod 4 <> 2 -> 0 <= offset < zlen blob ->
  XBT_ToStringChunk fl XBT_BLOB (le 4 (zlen blob) ++ blob ++ rest) offset dst = Ok (blob_chunk blob offset dst).
Proof.
  intros Hb Hn Hd Hm Ho. unfold XBT_ToStringChunk. destruct (Z.leb_spec (zlen dst) 256); [lia|].
  cbv zeta. change (isin XBT_BLOB) with (isin XBT_BLOB).
  unfold XBT_NULL, XBT_STRING, XBT_BLOB_STRING, XBT_INT32, XBT_INT32_DECI, XBT_INT32_CENTI, XBT_INT32_MILI, XBT_INT32_MICRO,
    XBT_INT32_NANO, XBT_UINT32, XBT_IPv4, XBT_INT64, XBT_UINT64, XBT_FLOAT, XBT_UNIX_TIME, XBT_UNIX_DATE, XBT_UNIX_TIME64_MSEC.
  unfold XBT_BLOB. repeat match goal with |- context [3 =? ?k] => change (3 =? k) with false || change (3 =? k) with true; cbn [negb] end.
  rewrite take4_le, s32_le by (unfold INT_MAX in *; unfold int32; lia).
  destruct (Z.leb_spec (zlen blob) offset); [lia|].
  set (D := zlen dst - 1). rewrite shr_div by lia. change (2 ^ 2) with 4.
  replace (if (D - 1) / 4 * 3 <? zlen blob - offset then (D - 1) / 4 * 3 else zlen blob - offset)
    with (Z.min ((D - 1) / 4 * 3) (zlen blob - offset)) by (destruct (Z.ltb_spec ((D - 1) / 4 * 3) (zlen blob - offset)); lia).
  set (n := Z.min _ _).
  assert (Hs : ztake n (zskip (4 + offset) (le 4 (zlen blob) ++ blob ++ rest)) = ztake n (zskip offset blob)).
  { rewrite zskip_app_ge by (rewrite le_zlen; lia). rewrite le_zlen. replace (4 + offset - Z.of_nat 4) with offset by lia.
    rewrite zskip_app_le by lia. apply ztake_app_l. rewrite zlen_skip by lia. unfold n. lia. }
  rewrite Hs. clear Hs.
  assert (Hbs : bytes (ztake n (zskip offset blob))) by (apply bytes_take, bytes_skip, Hb).
  assert (Hlen : zlen (ztake n (zskip offset blob)) = n).
  { assert (0 < n) by (unfold n, D; lia). rewrite zlen_take, zlen_skip by lia. unfold n. lia. }
  assert (Htl : zlen (b64_text (ztake n (zskip offset blob))) <= D - 2).
  { rewrite b64_text_length, Hlen. unfold n, D in *. lia. }
  rewrite base64_encode_spec by (try assumption; lia).
  destruct (Z.ltb_spec 1 (D - zlen (b64_text (ztake n (zskip offset blob))))); [|lia].
  unfold blob_chunk. fold D. fold n. rewrite cstr_bput_0 by (apply b64_text_cstring, Hbs). reflexivity.
Qed.

Lemma chunk_blob_end fl blob rest offset dst :
  zlen blob <= INT_MAX -> 256 < zlen dst -> offset = zlen blob ->
  exists c, XBT_ToStringChunk fl XBT_BLOB (le 4 (zlen blob) ++ blob ++ rest) offset dst = Ok c /\ ck_ret c = 0.
Proof.
  intros Hn Hd ->. unfold XBT_ToStringChunk. destruct (Z.leb_spec (zlen dst) 256); [lia|].
  cbv zeta. pose proof (zlen_nonneg blob).
  unfold XBT_NULL, XBT_STRING, XBT_BLOB_STRING, XBT_INT32, XBT_INT32_DECI, XBT_INT32_CENTI, XBT_INT32_MILI, XBT_INT32_MICRO,
    XBT_INT32_NANO, XBT_UINT32, XBT_IPv4, XBT_INT64, XBT_UINT64, XBT_FLOAT, XBT_UNIX_TIME, XBT_UNIX_DATE, XBT_UNIX_TIME64_MSEC.
  unfold XBT_BLOB. repeat match goal with |- context [3 =? ?k] => change (3 =? k) with false || change (3 =? k) with true; cbn [negb] end.
  rewrite take4_le, s32_le by (unfold INT_MAX in *; unfold int32; lia).
  destruct (Z.leb_spec (zlen blob) (zlen blob)); [|lia]. eexists. split; reflexivity.
Qed.

Lemma blob_loop fl blob rest : bytes blob -> zlen blob <= INT_MAX ->
  forall fuel offset dst, 256 < zlen dst -> zlen dst mod 4 <> 2 -> 0 <= offset <= zlen blob -> offset mod 3 = 0 \/ offset = zlen blob ->
  (Z.to_nat (zlen blob - offset) < fuel)%nat ->
  exists l, chunk_loop fl fuel XBT_BLOB (le 4 (zlen blob) ++ blob ++ rest) offset dst = Some (Ok l) /\
    List.concat l = b64_text (zskip offset blob) /\ Forall (fun piece => 0 < zlen piece < zlen dst) l.
Proof.
  intros Hb Hn. induction fuel as [|k IH]; intros offset dst Hd Hm Ho H3 Hf; [lia|].
  cbn [chunk_loop]. destruct (Z.eq_dec offset (zlen blob)) as [E|E].
  - destruct (chunk_blob_end fl blob rest offset dst Hn Hd E) as (c & -> & ->).
    change (0 =? 0) with true. exists []. split; [reflexivity|]. rewrite zskip_all by lia. split; [reflexivity|constructor].
  - rewrite chunk_blob by (try assumption; lia). unfold blob_chunk. cbn [ck_ret ck_offset ck_dst].
    set (D := zlen dst - 1). set (n := Z.min ((D - 1) / 4 * 3) (zlen blob - offset)).
    assert (Hnpos : 0 < n) by (unfold n, D; lia).
    assert (Hbs : bytes (ztake n (zskip offset blob))) by (apply bytes_take, bytes_skip, Hb).
    assert (Hlen : zlen (ztake n (zskip offset blob)) = n).
    { rewrite zlen_take, zlen_skip by lia. unfold n. lia. }
    set (t := b64_text (ztake n (zskip offset blob))).
    assert (Ht : zlen t = 4 * ((n + 2) / 3)) by (unfold t; rewrite b64_text_length, Hlen; reflexivity).
    destruct (Z.eqb_spec (zlen t) 0) as [Ez|_]; [lia|].
    assert (Hdl : zlen (bput (bput dst D [0]) 0 (t ++ [0])) = zlen dst).
    { assert (zlen (bput dst D [0]) = zlen dst) as Hd1 by (rewrite bput_len; [reflexivity|unfold D; lia|change (zlen [0]) with 1; unfold D; lia]).
      rewrite bput_len; rewrite ?Hd1; [reflexivity|lia|]. rewrite zlen_app. change (zlen [0]) with 1. unfold n, D in *. lia. }
    destruct (IH (offset + n) (bput (bput dst D [0]) 0 (t ++ [0]))) as (l & Hl & Hcat & Hall).
    + lia.
    + rewrite Hdl. exact Hm.
    + unfold n. lia.
    + unfold n. destruct H3 as [H3|H3]; [|lia].
      destruct (Z.le_gt_cases ((D - 1) / 4 * 3) (zlen blob - offset)) as [Hc|Hc]; [left|right; lia].
      rewrite Z.min_l by lia. rewrite Z.mod_add by lia. exact H3.
    + lia.
    + rewrite Hl. eexists. split; [reflexivity|]. cbn [List.concat].
      rewrite ztake_bput_0, Hcat. split.
      * destruct (Z.eq_dec (offset + n) (zlen blob)) as [Ef|Ef].
        -- rewrite (zskip_all (offset + n)) by lia. cbn [b64_text]. rewrite app_nil_r. unfold t. f_equal.
           apply ztake_all. rewrite zlen_skip by lia. lia.
        -- unfold t. rewrite <- b64_text_app.
           ++ replace (offset + n) with (n + offset) by lia. rewrite <- zskip_zskip by lia. rewrite ztake_zskip. reflexivity.
           ++ exact Hbs.
           ++ rewrite Hlen. unfold n in *. rewrite Z.min_l by lia. apply Z.mod_mul. lia.
      * constructor; [|rewrite <- Hdl; exact Hall]. unfold n, D in *. lia.
Qed.

Lemma blob_pieces fl blob rest dst :
  bytes blob -> zlen blob <= INT_MAX -> 256 < zlen dst -> zlen dst mod 4 <> 2 ->
  exists fuel l, chunk_loop fl fuel XBT_BLOB (le 4 (zlen blob) ++ blob ++ rest) 0 dst = Some (Ok l) /\
    List.concat l = b64_text blob /\ Forall (fun piece => 0 < zlen piece < zlen dst) l.
Proof.
  intros Hb Hn Hd Hm. pose proof (zlen_nonneg blob). exists (S (List.length blob)).
  destruct (blob_loop fl blob rest Hb Hn (S (List.length blob)) 0 dst Hd Hm) as (l & Hl); [lia|left; reflexivity|unfold zlen in *; lia|].
  exists l. exact Hl.
Qed.

(** With a buffer of 4k+2 bytes a full piece is not terminated: what was in the buffer shows. *)
Definition stale_buffer : list Z := zrepeat 65 258.
Lemma blob_pieces_stale fl : exists blob dst, bytes blob /\ 256 < zlen dst /\ bytes dst /\ exists fuel l, chunk_loop fl fuel XBT_BLOB (le 4 (zlen blob) ++ blob) 0 dst = Some (Ok l) /\ List.concat l <> b64_text blob.
Proof.
  exists (zrepeat 0 192), stale_buffer. split; [unfold zrepeat, bytes; apply Forall_forall; intros x Hx; apply repeat_spec in Hx; subst; unfold is_byte; lia|].
  split; [reflexivity|]. split; [unfold stale_buffer, zrepeat, bytes; apply Forall_forall; intros x Hx; apply repeat_spec in Hx; subst; unfold is_byte; lia|].
  exists 10%nat. eexists. split; [vm_compute; reflexivity|]. vm_compute. discriminate.
Qed.
