(** Proofs about base64 (Base64.v against Base64Spec.v). *)
From Verif Require Import Base BaseFacts Base64 Base64Spec.

Lemma list_ind3 {A} (P : list A -> Prop) :
  P [] -> (forall a, P [a]) -> (forall a b, P [a; b]) ->
  (forall a b c r, P r -> P (a :: b :: c :: r)) -> forall l, P l.
Proof.
  intros H0 H1 H2 H3. fix IH 1. intros [|a [|b [|c r]]]; [exact H0|apply H1|apply H2|].
  apply H3. apply IH.
Qed.

Lemma back64_b64char v : 0 <= v < 64 -> back64 (b64char v) = v.
Proof.
  intros Hv.
  assert (H : forallb (fun k => back64 (b64char (Z.of_nat k)) =? Z.of_nat k) (seq 0 64) = true) by (vm_compute; reflexivity).
  rewrite forallb_forall in H. specialize (H (Z.to_nat v)). rewrite Z2Nat.id in H by lia.
  apply Z.eqb_eq. apply H. apply in_seq. lia.
Qed.

Lemma b64char_cchar v : 0 <= v < 64 -> 43 <= b64char v <= 122 /\ b64char v <> 61.
Proof.
  intros Hv.
  assert (H : forallb (fun k => (43 <=? b64char (Z.of_nat k)) && (b64char (Z.of_nat k) <=? 122) && negb (b64char (Z.of_nat k) =? 61)) (seq 0 64) = true) by (vm_compute; reflexivity).
  rewrite forallb_forall in H. specialize (H (Z.to_nat v)). rewrite Z2Nat.id in H by lia.
  specialize (H ltac:(apply in_seq; lia)). lia.
Qed.

Lemma back64_pad : back64 61 = -1.
Proof. reflexivity. Qed.

(** Arithmetic reading of the four 6-bit digits. *)
Lemma sext1 a : is_byte a -> Z.shiftr a 2 = a / 4.
Proof. intros H. rewrite shr_div by lia. reflexivity. Qed.

Lemma sext2 a b : is_byte a -> is_byte b ->
  Z.lor (Z.shiftl (Z.land a 3) 4) (Z.shiftr b 4) = (a mod 4) * 16 + b / 16.
Proof.
  unfold is_byte. intros Ha Hb. change 3 with (2 ^ 2 - 1). rewrite land_mod by lia. rewrite (shr_div b 4) by lia.
  change (2 ^ 2) with 4. change (2 ^ 4) with 16. rewrite lor_shl_add by (change (2 ^ 4) with 16; lia). reflexivity.
Qed.

Lemma sext3 b c : is_byte b -> is_byte c ->
  Z.lor (Z.shiftl (Z.land b 15) 2) (Z.shiftr c 6) = (b mod 16) * 4 + c / 64.
Proof.
  unfold is_byte. intros Hb Hc. change 15 with (2 ^ 4 - 1). rewrite land_mod by lia. rewrite (shr_div c 6) by lia.
  change (2 ^ 4) with 16. change (2 ^ 6) with 64. rewrite lor_shl_add by (change (2 ^ 2) with 4; lia). reflexivity.
Qed.

Lemma sext4 c : is_byte c -> Z.land c 63 = c mod 64.
Proof. intros Hc. change 63 with (2 ^ 6 - 1). apply land_mod. lia. Qed.

Lemma byte0 : is_byte 0.
Proof. unfold is_byte. lia. Qed.

(** ** Encoder = specification *)

Definition enc4 (a b c : Z) : list Z :=
  [b64char (a / 4); b64char ((a mod 4) * 16 + b / 16); b64char ((b mod 16) * 4 + c / 64); b64char (c mod 64)].

Lemma digit64_spec a b c : is_byte a -> is_byte b -> is_byte c ->
  [digit64 (group24 a b c) 0; digit64 (group24 a b c) 1; digit64 (group24 a b c) 2; digit64 (group24 a b c) 3] = enc4 a b c.
Proof.
  unfold is_byte, digit64, group24, enc4, b64char. intros Ha Hb Hc.
  change alphabet with BASE64.
  change (64 ^ (3 - 0)) with 262144. change (64 ^ (3 - 1)) with 4096. change (64 ^ (3 - 2)) with 64. change (64 ^ (3 - 3)) with 1.
  replace ((a * 65536 + b * 256 + c) / 262144 mod 64) with (a / 4) by lia.
  replace ((a * 65536 + b * 256 + c) / 4096 mod 64) with ((a mod 4) * 16 + b / 16) by lia.
  replace ((a * 65536 + b * 256 + c) / 64 mod 64) with ((b mod 16) * 4 + c / 64) by lia.
  replace ((a * 65536 + b * 256 + c) / 1 mod 64) with (c mod 64) by (rewrite Z.div_1_r; lia).
  reflexivity.
Qed.

Lemma b64_text_enc4_3 a b c r : is_byte a -> is_byte b -> is_byte c -> b64_text (a :: b :: c :: r) = enc4 a b c ++ b64_text r.
Proof.
  intros Ha Hb Hc. rewrite <- digit64_spec by assumption. reflexivity.
Qed.

Lemma b64_text_length l : zlen (b64_text l) = 4 * ((zlen l + 2) / 3).
Proof.
  induction l as [|a|a b|a b c r IH] using list_ind3.
  - reflexivity.
  - reflexivity.
  - reflexivity.
  - cbn [b64_text]. rewrite !zlen_cons, IH. pose proof (zlen_nonneg r). lia.
Qed.

Lemma b64_loop_spec l d : bytes l -> zlen (b64_text l) <= d ->
  exists o, fst (b64_loop l d) = o /\ snd (b64_loop l d) = d - zlen o /\
    let p := Z.land (zlen o) 3 in
    (p = 0 /\ o = b64_text l) \/ (p = 2 /\ o ++ [61; 61] = b64_text l) \/ (p = 3 /\ o ++ [61] = b64_text l).
Proof.
  assert (P4 : forall n, Z.land (4 + n) 3 = Z.land n 3).
  { intros n. change 3 with (2 ^ 2 - 1). rewrite !land_mod by lia. change (2 ^ 2) with 4. lia. }
  revert d. induction l as [|a|a b|a b c r IH] using list_ind3; intros d Hl Hd.
  - cbn [b64_loop]. destruct (Z.ltb_spec d 2); cbn [fst snd]; exists []; change (zlen (@nil Z)) with 0;
      (split; [reflexivity|]); (split; [lia|]); left; split; reflexivity.
  - change (zlen (b64_text [a])) with 4 in Hd. inversion Hl; subst.
    cbn [b64_loop]. destruct (Z.ltb_spec d 2); [lia|]. cbn [fst snd].
    eexists; split; [reflexivity|]. split; [reflexivity|]. cbv zeta. right; left. split; [reflexivity|].
    rewrite sext1, sext2 by (try assumption; apply byte0).
    pose proof (digit64_spec a 0 0 H1 byte0 byte0) as E. unfold enc4 in E. cbn [b64_text].
    injection E as E0 E1 E2 E3. rewrite <- E0, <- E1. reflexivity.
  - change (zlen (b64_text [a; b])) with 4 in Hd. inversion Hl as [|? ? Ha Hl']; subst. inversion Hl' as [|? ? Hb ?]; subst.
    cbn [b64_loop]. destruct (Z.ltb_spec d 2); [lia|].
    destruct (Z.eqb_spec (d - 2) 0); [lia|]. cbn [fst snd app].
    eexists; split; [reflexivity|]. split; [reflexivity|]. cbv zeta. right; right. split; [reflexivity|].
    rewrite sext1, sext2, sext3 by (try assumption; apply byte0).
    pose proof (digit64_spec a b 0 Ha Hb byte0) as E. unfold enc4 in E. cbn [b64_text].
    injection E as E0 E1 E2 E3. rewrite <- E0, <- E1, <- E2. reflexivity.
  - inversion Hl as [|? ? Ha Hl']; subst. inversion Hl' as [|? ? Hb Hl'']; subst. inversion Hl'' as [|? ? Hc Hr]; subst.
    rewrite b64_text_enc4_3 in * by assumption. unfold enc4 in Hd. cbn [app] in Hd. rewrite !zlen_cons in Hd.
    pose proof (zlen_nonneg (b64_text r)).
    cbn [b64_loop]. destruct (Z.ltb_spec d 2); [lia|].
    destruct (Z.eqb_spec (d - 2) 0); [lia|].
    destruct (Z.eqb_spec (d - 3) 0); [lia|].
    destruct (IH (d - 4) Hr ltac:(lia)) as (o & E1 & E2 & E3).
    destruct (b64_loop r (d - 4)) as [o' d'] eqn:El. cbn [fst snd] in *. subst o'.
    eexists; split; [reflexivity|]. cbn [app].
    rewrite sext1, sext2, sext3, sext4 by assumption.
    change (b64char (a / 4) :: b64char (a mod 4 * 16 + b / 16) :: b64char (b mod 16 * 4 + c / 64) :: b64char (c mod 64) :: o) with (enc4 a b c ++ o).
    assert (Hz : zlen (enc4 a b c ++ o) = 4 + zlen o) by (rewrite zlen_app; reflexivity).
    rewrite Hz. split; [lia|]. cbv zeta. rewrite P4.
    destruct E3 as [[Hp E]|[[Hp E]|[Hp E]]].
    + left. split; [assumption|]. rewrite E. reflexivity.
    + right; left. split; [assumption|]. rewrite <- E. reflexivity.
    + right; right. split; [assumption|]. rewrite <- E. reflexivity.
Qed.

Lemma base64_encode_spec l d : bytes l -> zlen (b64_text l) <= d ->
  base64_encode l d = (b64_text l, 1 <? d - zlen (b64_text l)).
Proof.
  intros Hl Hd. destruct (b64_loop_spec l d Hl Hd) as (o & E1 & E2 & E3).
  unfold base64_encode. destruct (b64_loop l d) as [o' d'] eqn:El. cbn [fst snd] in *. subst o' d'.
  cbv zeta in E3. destruct E3 as [[Hp E]|[[Hp E]|[Hp E]]]; rewrite Hp; cbn [b64_pad].
  - change ((0 <? 0) && _ && _) with false. cbv iota. rewrite app_nil_r, E. reflexivity.
  - assert (Hz : zlen (b64_text l) = zlen o + 2) by (rewrite <- E, zlen_app; reflexivity).
    destruct (Z.ltb_spec 0 (d - zlen o)); [|lia].
    change ((0 <? 2) && true && (2 <? 4)) with true. cbv iota.
    destruct (Z.ltb_spec 0 (d - zlen o - 1)); [|lia].
    change ((0 <? 2 + 1) && true && (2 + 1 <? 4)) with true. cbv iota.
    change ((0 <? 2 + 1 + 1) && _ && (2 + 1 + 1 <? 4)) with (true && (0 <? d - zlen o - 1 - 1) && false).
    rewrite andb_false_r. rewrite E. f_equal. f_equal. lia.
  - assert (Hz : zlen (b64_text l) = zlen o + 1) by (rewrite <- E, zlen_app; reflexivity).
    destruct (Z.ltb_spec 0 (d - zlen o)); [|lia].
    change ((0 <? 3) && true && (3 <? 4)) with true. cbv iota.
    change ((0 <? 3 + 1) && _ && (3 + 1 <? 4)) with (true && (0 <? d - zlen o - 1) && false).
    rewrite andb_false_r. rewrite E. f_equal. f_equal. lia.
Qed.

(** ** Decoder inverts the specification *)

Lemma dec_A a b : is_byte a -> is_byte b ->
  u8 (Z.lor (Z.shiftl (a / 4) 2) (Z.shiftr ((a mod 4) * 16 + b / 16) 4)) = a.
Proof.
  unfold is_byte, u8. intros Ha Hb. rewrite (shr_div _ 4) by lia. change (2 ^ 4) with 16.
  rewrite lor_shl_add by (change (2 ^ 2) with 4; lia). change (2 ^ 2) with 4. lia.
Qed.

Lemma dec_B a b c : is_byte a -> is_byte b -> is_byte c ->
  u8 (Z.lor (Z.shiftl (Z.land ((a mod 4) * 16 + b / 16) 15) 4) (Z.shiftr ((b mod 16) * 4 + c / 64) 2)) = b.
Proof.
  unfold is_byte, u8. intros Ha Hb Hc. rewrite (shr_div _ 2) by lia. change (2 ^ 2) with 4.
  change 15 with (2 ^ 4 - 1). rewrite land_mod by lia.
  rewrite lor_shl_add by (change (2 ^ 4) with 16; lia). change (2 ^ 4) with 16. lia.
Qed.

Lemma dec_C b c : is_byte b -> is_byte c ->
  u8 (Z.lor (Z.shiftl (Z.land ((b mod 16) * 4 + c / 64) 3) 6) (c mod 64)) = c.
Proof.
  unfold is_byte, u8. intros Hb Hc.
  change 3 with (2 ^ 2 - 1). rewrite land_mod by lia. change (2 ^ 2) with 4.
  rewrite lor_shl_add by (change (2 ^ 6) with 64; lia). change (2 ^ 6) with 64. lia.
Qed.

Ltac sextb := match goal with
  | |- context [back64 (b64char ?v)] => rewrite (back64_b64char v) by (unfold is_byte in *; lia)
  end.

Ltac ltb_false := match goal with
  | |- context [?x <? 0] => destruct (Z.ltb_spec x 0); [unfold is_byte in *; lia|]
  end.

Lemma base64_decode_text l d : bytes l -> zlen l <= d -> base64_decode (b64_text l) d = l.
Proof.
  revert d. induction l as [|a|a b|a b c r IH] using list_ind3; intros d Hl Hd.
  - reflexivity.
  - inversion Hl; subst. change (zlen [a]) with 1 in Hd.
    pose proof (digit64_spec a 0 0 H1 byte0 byte0) as E. unfold enc4 in E. injection E as E0 E1 E2 E3.
    cbn [b64_text]. rewrite E0, E1. cbn [base64_decode].
    destruct (Z.leb_spec d 0); [lia|]. rewrite back64_pad. repeat sextb.
    repeat ltb_false. change (-1 <? 0) with true. cbv iota.
    rewrite dec_A by (try assumption; apply byte0). reflexivity.
  - inversion Hl as [|? ? Ha Hl']; subst. inversion Hl' as [|? ? Hb ?]; subst. change (zlen [a; b]) with 2 in Hd.
    pose proof (digit64_spec a b 0 Ha Hb byte0) as E. unfold enc4 in E. injection E as E0 E1 E2 E3.
    cbn [b64_text]. rewrite E0, E1, E2. cbn [base64_decode].
    destruct (Z.leb_spec d 0); [lia|]. rewrite back64_pad. repeat sextb.
    change (-1 <? 0) with true. repeat ltb_false.
    destruct (Z.leb_spec d 1); [lia|].
    rewrite dec_A, dec_B by (try assumption; apply byte0). reflexivity.
  - inversion Hl as [|? ? Ha Hl']; subst. inversion Hl' as [|? ? Hb Hl'']; subst. inversion Hl'' as [|? ? Hc Hr]; subst.
    rewrite b64_text_enc4_3 by assumption. unfold enc4. cbn [app base64_decode].
    rewrite !zlen_cons in Hd. pose proof (zlen_nonneg r).
    destruct (Z.leb_spec d 0); [lia|]. repeat sextb. repeat ltb_false.
    destruct (Z.leb_spec d 1); [lia|]. destruct (Z.leb_spec d 2); [lia|].
    rewrite dec_A, dec_B, dec_C by assumption. rewrite IH by (try assumption; lia). reflexivity.
Qed.

(** Text of a concatenation when the first part is a whole number of groups. *)
Lemma b64_text_app l r : bytes l -> (zlen l) mod 3 = 0 -> b64_text (l ++ r) = b64_text l ++ b64_text r.
Proof.
  induction l as [|a|a b|a b c l IH] using list_ind3; intros Hl Hm.
  - reflexivity.
  - change (zlen [a]) with 1 in Hm. lia.
  - change (zlen [a; b]) with 2 in Hm. lia.
  - inversion Hl as [|? ? Ha Hl']; subst. inversion Hl' as [|? ? Hb Hl'']; subst. inversion Hl'' as [|? ? Hc Hr]; subst.
    cbn [app b64_text]. rewrite IH; [reflexivity|assumption|]. rewrite !zlen_cons in Hm. lia.
Qed.

Lemma b64_text_chars l : bytes l -> Forall (fun c => In c alphabet \/ c = 61) (b64_text l).
Proof.
  assert (Hin : forall v, In (znth alphabet (v mod 64)) alphabet).
  { intros v. unfold znth. assert (0 <= v mod 64 < 64) by lia.
    destruct (Z.ltb_spec (v mod 64) 0); [lia|]. apply nth_In. change (List.length alphabet) with 64%nat. lia. }
  induction l as [|a|a b|a b c l IH] using list_ind3; intros Hl; cbn [b64_text]; unfold digit64.
  - constructor.
  - repeat (apply Forall_cons; [first [left; apply Hin | right; reflexivity]|]). constructor.
  - repeat (apply Forall_cons; [first [left; apply Hin | right; reflexivity]|]). constructor.
  - do 4 (apply Forall_cons; [left; apply Hin|]).
    apply IH. inversion Hl as [|? ? Ha Hl']; subst. inversion Hl' as [|? ? Hb Hl'']; subst. inversion Hl''; subst. assumption.
Qed.

Lemma base64_roundtrip src dst_size back_size :
  bytes src -> 4 * ((zlen src + 2) / 3) + 2 <= dst_size -> zlen src <= back_size ->
  exists text,
    base64_encode src dst_size = (text, true) /\ text = b64_text src /\
    zlen text = 4 * ((zlen src + 2) / 3) /\
    Forall (fun c => In c alphabet \/ c = 61) text /\
    base64_decode text back_size = src.
Proof.
  intros Hb Hd Hs. exists (b64_text src). pose proof (b64_text_length src) as L.
  split; [rewrite base64_encode_spec by (try assumption; lia)|].
  - f_equal. lia.
  - split; [reflexivity|]. split; [assumption|]. split; [apply b64_text_chars; assumption|].
    apply base64_decode_text; assumption.
Qed.

Lemma base64_tight : exists src dst_size,
  bytes src /\ 4 * ((zlen src + 2) / 3) + 1 <= dst_size /\
  base64_encode src dst_size = (b64_text src, false).
Proof.
  exists [1; 2; 3], 5. split; [repeat constructor; lia|]. split; [vm_compute; discriminate|]. reflexivity.
Qed.
