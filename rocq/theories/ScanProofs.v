(** Proofs about the scanners and number printers (Scan.v). *)
From Verif Require Import Base BaseFacts NumSpec Scan.

Lemma is_digit_spec c : is_digit c = true <-> digit c.
Proof. unfold is_digit, digit. lia. Qed.

Lemma digit_not_space c : digit c -> is_space c = false.
Proof. unfold digit, is_space. lia. Qed.

Lemma skip_spaces_id p : is_space (cur p) = false -> skip_spaces p = p.
Proof. destruct p as [|c r]; cbn [cur hd skip_spaces]; [reflexivity|]. intros ->. reflexivity. Qed.

(** ** Value of digit strings *)

Definition dval (v : Z) (ds : list Z) : Z := fold_left (fun v c => v * 10 + (c - 48)) ds v.

Lemma dval_app v a b : dval v (a ++ b) = dval (dval v a) b.
Proof. apply fold_left_app. Qed.

Lemma dval_acc v ds : dval v ds = v * 10 ^ zlen ds + dec_value ds.
Proof.
  unfold dec_value. change (fold_left _ ds 0) with (dval 0 ds).
  revert v; induction ds as [|c r IH]; intros v.
  - change (zlen (@nil Z)) with 0. cbn [dval fold_left]. change (10 ^ 0) with 1. lia.
  - cbn [dval fold_left]. change (fold_left _ r ?x) with (dval x r).
    rewrite (IH (v * 10 + (c - 48))), (IH (0 * 10 + (c - 48))).
    rewrite zlen_cons, Z.pow_add_r by (try apply zlen_nonneg; lia).
    change (10 ^ 1) with 10. lia.
Qed.

Lemma dec_value_cons c r : dec_value (c :: r) = (c - 48) * 10 ^ zlen r + dec_value r.
Proof.
  unfold dec_value at 1. cbn [fold_left]. change (fold_left _ r ?x) with (dval x r).
  rewrite dval_acc. f_equal. 
Qed.

Lemma dec_value_app a b : dec_value (a ++ b) = dec_value a * 10 ^ zlen b + dec_value b.
Proof.
  unfold dec_value at 1. change (fold_left _ (a ++ b) 0) with (dval 0 (a ++ b)).
  rewrite dval_app, dval_acc. reflexivity.
Qed.

Lemma dec_value_snoc a c : dec_value (a ++ [c]) = dec_value a * 10 + (c - 48).
Proof. unfold dec_value. rewrite fold_left_app. reflexivity. Qed.

Lemma pow10_pos n : 0 <= n -> 0 < 10 ^ n.
Proof. intros. apply Z.pow_pos_nonneg; lia. Qed.

Lemma dec_value_bound ds : Forall digit ds -> 0 <= dec_value ds < 10 ^ zlen ds.
Proof.
  induction ds as [|c r IH]; intros H.
  - change (dec_value []) with 0. change (zlen (@nil Z)) with 0. change (10 ^ 0) with 1. lia.
  - inversion H as [|? ? Hc Hr]; subst. specialize (IH Hr). rewrite dec_value_cons, zlen_cons.
    rewrite Z.pow_add_r by (try apply zlen_nonneg; lia). change (10 ^ 1) with 10.
    unfold digit in Hc. pose proof (pow10_pos (zlen r) (zlen_nonneg r)). nia.
Qed.

Lemma zeros_value n : dec_value (zeros n) = 0.
Proof.
  unfold zeros, zrepeat. induction (Z.to_nat n) as [|k IH]; [reflexivity|].
  cbn [repeat]. rewrite dec_value_cons, IH. lia.
Qed.

Lemma zeros_digits n : Forall digit (zeros n).
Proof.
  unfold zeros, zrepeat. induction (Z.to_nat n) as [|k IH]; cbn [repeat]; constructor; [|exact IH].
  unfold digit. lia.
Qed.

(** ** [udec] prints numerals *)

Lemma udec_fuel_app fuel n acc : udec_fuel fuel n acc = udec_fuel fuel n [] ++ acc.
Proof.
  revert n acc; induction fuel as [|k IH]; intros n acc; cbn [udec_fuel]; [reflexivity|].
  destruct (n <? 10); [reflexivity|].
  rewrite IH, (IH _ [_]), <- app_assoc. reflexivity.
Qed.

Lemma udec_fuel_spec fuel n :
  0 <= n < 2 ^ Z.of_nat fuel -> (0 < fuel)%nat ->
  udec_fuel fuel n [] <> [] /\ Forall digit (udec_fuel fuel n []) /\
  dec_value (udec_fuel fuel n []) = n /\ (0 < n -> hd 0 (udec_fuel fuel n []) <> 48).
Proof.
  revert n; induction fuel as [|k IH]; intros n Hn Hk; [lia|].
  cbn [udec_fuel]. destruct (Z.ltb_spec n 10) as [Hlt|Hge].
  - repeat split.
    + discriminate.
    + constructor; [unfold digit; lia|constructor].
    + unfold dec_value; cbn [fold_left]. lia.
    + cbn [hd]. lia.
  - rewrite udec_fuel_app.
    assert (Hk' : (0 < k)%nat).
    { destruct k; [|lia]. change (Z.of_nat 1) with 1 in Hn. change (2 ^ 1) with 2 in Hn. lia. }
    assert (Hq : 0 <= n / 10 < 2 ^ Z.of_nat k).
    { rewrite Nat2Z.inj_succ, Z.pow_succ_r in Hn by lia. split; [lia|].
      apply Z.div_lt_upper_bound; lia. }
    destruct (IH (n / 10) Hq Hk') as (H1 & H2 & H3 & H4).
    repeat split.
    + destruct (udec_fuel k (n / 10) []); discriminate.
    + apply Forall_app. split; [exact H2|]. constructor; [unfold digit; lia|constructor].
    + rewrite dec_value_snoc, H3. lia.
    + intros _. destruct (udec_fuel k (n / 10) []) eqn:E; [congruence|].
      cbn [app hd] in *. apply H4. lia.
Qed.

Lemma udec_numeral n : 0 <= n -> numeral n (udec n).
Proof.
  intros Hn. unfold udec.
  assert (Hb : 0 <= n < 2 ^ Z.of_nat (S (Z.to_nat (Z.log2 n)))).
  { rewrite Nat2Z.inj_succ, Z2Nat.id by apply Z.log2_nonneg.
    split; [assumption|]. destruct (Z.eq_dec n 0) as [->|Hne].
    - change (Z.log2 0) with 0. change (2 ^ Z.succ 0) with 2. lia.
    - apply Z.log2_spec. lia. }
  destruct (udec_fuel_spec _ n Hb ltac:(lia)) as (H1 & H2 & H3 & H4).
  unfold numeral. repeat split; try assumption.
  intros Hhd. destruct (Z.eq_dec n 0) as [->|Hne].
  - reflexivity.
  - exfalso. apply H4; [lia|assumption].
Qed.

Lemma numeral_unique n a b : numeral n a -> numeral n b -> a = b.
Proof.
  (* equal length by the bounds on values without leading zero, then digit by digit *)
  assert (Hsame : forall a b, List.length a = List.length b -> Forall digit a -> Forall digit b ->
                         dec_value a = dec_value b -> a = b).
  { clear. intros a; induction a as [|x a IH]; intros b Hl Ha Hb Hv; destruct b as [|y b]; try discriminate.
    - reflexivity.
    - inversion Ha; inversion Hb; subst. injection Hl as Hl.
      rewrite !dec_value_cons in Hv. assert (zlen a = zlen b) as E by (unfold zlen; lia).
      rewrite E in Hv.
      pose proof (dec_value_bound a ltac:(assumption)) as B1. pose proof (dec_value_bound b ltac:(assumption)) as B2.
      rewrite E in B1. assert (x = y) by nia. subst. f_equal. apply IH; try assumption. lia. }
  assert (Hlow : forall d, digit (hd 0 d) -> hd 0 d <> 48 -> Forall digit d -> 10 ^ (zlen d - 1) <= dec_value d).
  { clear. intros d. destruct d as [|c r]; cbn [hd]; [unfold digit; lia|].
    intros Hc Hne Hd. inversion Hd; subst. rewrite dec_value_cons, zlen_cons.
    replace (1 + zlen r - 1) with (zlen r) by lia.
    pose proof (dec_value_bound r ltac:(assumption)). pose proof (pow10_pos (zlen r) (zlen_nonneg r)).
    unfold digit in Hc. nia. }
  intros (Ha0 & Ha & Hva & Hla) (Hb0 & Hb & Hvb & Hlb).
  assert (Hda : digit (hd 0 a)) by (destruct a; [congruence|inversion Ha; assumption]).
  assert (Hdb : digit (hd 0 b)) by (destruct b; [congruence|inversion Hb; assumption]).
  destruct (Z.eq_dec (hd 0 a) 48) as [Ea|Ea]; destruct (Z.eq_dec (hd 0 b) 48) as [Eb|Eb].
  - rewrite (Hla Ea), (Hlb Eb). reflexivity.
  - specialize (Hlow b Hdb Eb Hb). rewrite (Hla Ea) in Hva. unfold dec_value in Hva. cbn [fold_left] in Hva.
    pose proof (zlen_nonneg b). assert (0 < zlen b) by (destruct b; [congruence|rewrite zlen_cons; pose proof (zlen_nonneg b); lia]).
    pose proof (pow10_pos (zlen b - 1) ltac:(lia)). lia.
  - specialize (Hlow a Hda Ea Ha). rewrite (Hlb Eb) in Hvb. unfold dec_value in Hvb. cbn [fold_left] in Hvb.
    assert (0 < zlen a) by (destruct a; [congruence|rewrite zlen_cons; pose proof (zlen_nonneg a); lia]).
    pose proof (pow10_pos (zlen a - 1) ltac:(lia)). lia.
  - apply Hsame; try assumption; [|lia].
    pose proof (Hlow a Hda Ea Ha) as La. pose proof (Hlow b Hdb Eb Hb) as Lb.
    pose proof (dec_value_bound a Ha) as Ua. pose proof (dec_value_bound b Hb) as Ub'.
    assert (zlen a = zlen b); [|unfold zlen in *; lia].
    assert (zlen a - 1 < zlen b) by (apply (Z.pow_lt_mono_r_iff 10); [lia|apply zlen_nonneg|lia]).
    assert (zlen b - 1 < zlen a) by (apply (Z.pow_lt_mono_r_iff 10); [lia|apply zlen_nonneg|lia]).
    lia.
Qed.

Lemma udec_digits n : 0 <= n -> Forall digit (udec n).
Proof. intros H. apply (udec_numeral n H). Qed.

Lemma udec_value n : 0 <= n -> dec_value (udec n) = n.
Proof. intros H. apply (udec_numeral n H). Qed.

Lemma udec_nonempty n : 0 <= n -> udec n <> [].
Proof. intros H. apply (udec_numeral n H). Qed.

Lemma digits_cchar ds : Forall digit ds -> cstring ds.
Proof. intros H. eapply Forall_impl; [|exact H]. unfold digit, is_cchar. simpl. lia. Qed.

Lemma udec_len n k : 0 <= n < 10 ^ k -> 1 <= k -> zlen (udec n) <= k.
Proof.
  intros Hn Hk. pose proof (udec_numeral n ltac:(lia)) as (H1 & H2 & H3 & H4).
  destruct (udec n) as [|c r] eqn:E; [congruence|].
  inversion H2 as [|? ? Hc Hr]; subst.
  destruct (Z.eq_dec c 48) as [->|Hne].
  - rewrite (H4 eq_refl). change (zlen [48]) with 1. lia.
  - rewrite dec_value_cons in Hn. pose proof (dec_value_bound r Hr) as B. unfold digit in Hc.
    pose proof (pow10_pos (zlen r) (zlen_nonneg r)).
    assert (10 ^ zlen r < 10 ^ k) by nia.
    rewrite zlen_cons. apply Z.pow_lt_mono_r_iff in H0; lia.
Qed.

(** ** [dec_loop] is [udec] *)

Lemma dec_loop_spec room v acc :
  0 <= v < 10 ^ Z.of_nat room -> exists ds, dec_loop room v acc = Some (ds ++ acc) /\
     Forall digit ds /\ dec_value ds = v /\ (0 < v -> hd 0 ds <> 48 /\ ds <> []).
Proof.
  revert v acc; induction room as [|k IH]; intros v acc Hv.
  - change (10 ^ Z.of_nat 0) with 1 in Hv. assert (v = 0) by lia. subst v.
    exists []. cbn. repeat split; try constructor; lia.
  - cbn [dec_loop]. destruct (Z.leb_spec v 0).
    + assert (v = 0) by lia; subst. exists []. cbn. repeat split; try constructor; lia.
    + rewrite Nat2Z.inj_succ, Z.pow_succ_r in Hv by lia.
      destruct (IH (v / 10) ((48 + v mod 10) :: acc)) as (ds & E & D & V & Nz).
      { split; [lia|]. apply Z.div_lt_upper_bound; lia. }
      exists (ds ++ [48 + v mod 10]). rewrite E, <- app_assoc. cbn [app]. repeat split.
      * apply Forall_app; split; [assumption|]. constructor; [unfold digit; lia|constructor].
      * rewrite dec_value_snoc, V. lia.
      * destruct (Z.eq_dec (v / 10) 0) as [E0|E0].
        -- destruct ds as [|c ds'].
           ++ cbn [app hd]. lia.
           ++ destruct (Z.eq_dec c 48) as [->|]; [|cbn [app hd]; assumption].
              (* impossible: dec_loop k 0 adds nothing *)
              exfalso. rewrite E0 in E.
              assert (Hz : forall X, dec_loop k 0 X = Some X) by (intros X; destruct k; reflexivity).
              rewrite Hz in E. apply (f_equal (option_map (@List.length Z))) in E.
              cbn [option_map app List.length] in E. injection E as E. rewrite app_length in E. simpl in E. lia.
        -- destruct (Nz ltac:(lia)) as [N1 N2]. destruct ds; [congruence|]. cbn [app hd] in *. assumption.
      * destruct ds; discriminate.
Qed.

Lemma dec_loop_udec room v : 0 < v < 10 ^ Z.of_nat room -> dec_loop room v [] = Some (udec v).
Proof.
  intros Hv. destruct (dec_loop_spec room v [] ltac:(lia)) as (ds & E & D & V & Nz).
  rewrite app_nil_r in E. rewrite E. f_equal. destruct (Nz ltac:(lia)) as [N1 N2].
  apply (numeral_unique v).
  - unfold numeral. repeat split; try assumption. intros Hh. congruence.
  - apply udec_numeral. lia.
Qed.

(** ** Scanning digits *)

Lemma digits_signed_ok mx x ds rest :
  Forall digit ds -> is_digit (cur rest) = false -> 0 <= x -> dval x ds <= mx ->
  digits_signed mx x (ds ++ rest) = Some (dval x ds, rest).
Proof.
  revert x; induction ds as [|c r IH]; intros x Hd Hr Hx Hm.
  - cbn [app dval fold_left]. destruct rest as [|c rest]; [reflexivity|].
    cbn [cur hd] in Hr. cbn [digits_signed]. rewrite Hr. reflexivity.
  - inversion Hd as [|? ? Hc Hrr]; subst. cbn [app digits_signed].
    rewrite (proj2 (is_digit_spec c) Hc). unfold digit in Hc.
    cbn [dval fold_left] in Hm |- *. change (fold_left _ r ?y) with (dval y r) in *.
    assert (x * 10 + (c - 48) <= dval (x * 10 + (c - 48)) r).
    { rewrite dval_acc. pose proof (dec_value_bound r Hrr).
      pose proof (pow10_pos (zlen r) (zlen_nonneg r)). nia. }
    destruct (Z.ltb_spec mx (x * 10)); [lia|].
    destruct (Z.ltb_spec mx (x * 10 + (c - 48))); [lia|].
    apply IH; try assumption. lia.
Qed.

Lemma digits_signed_inv mx x p v r :
  digits_signed mx x p = Some (v, r) ->
  exists ds, p = ds ++ r /\ Forall digit ds /\ v = dval x ds /\ is_digit (cur r) = false.
Proof.
  revert x; induction p as [|c p IH]; intros x; cbn [digits_signed].
  - intros [= <- <-]. exists []. repeat split. constructor.
  - destruct (is_digit c) eqn:Ed.
    + destruct (mx <? x * 10); [discriminate|].
      destruct (mx <? x * 10 + (c - 48)); [discriminate|].
      intros H. destruct (IH _ H) as (ds & -> & Hds & Hv & Hr).
      exists (c :: ds). repeat split; try assumption.
      constructor; [apply is_digit_spec; assumption|assumption].
    + intros [= <- <-]. exists []. repeat split; [constructor|exact Ed].
Qed.

(** What a scanner accepts: spaces, an optional minus sign and at least one digit. *)
Definition int_text (sp sign ds : list Z) : Prop :=
  Forall (fun c => is_space c = true) sp /\ (sign = [] \/ sign = [45]) /\ ds <> [] /\ Forall digit ds.

Lemma skip_spaces_split p : exists sp, p = sp ++ skip_spaces p /\ Forall (fun c => is_space c = true) sp.
Proof.
  induction p as [|c r IH]; [exists []; split; [reflexivity|constructor]|].
  cbn [skip_spaces]. destruct (is_space c) eqn:E.
  - destruct IH as (sp & H1 & H2). exists (c :: sp). split; [cbn [app]; rewrite <- H1; reflexivity|].
    constructor; assumption.
  - exists []. split; [reflexivity|constructor].
Qed.

Lemma skip_spaces_app sp p :
  Forall (fun c => is_space c = true) sp -> is_space (cur p) = false -> skip_spaces (sp ++ p) = p.
Proof.
  induction sp as [|c r IH]; intros Hs Hp; cbn [app].
  - apply skip_spaces_id. assumption.
  - inversion Hs; subst. cbn [skip_spaces]. rewrite H1. apply IH; assumption.
Qed.

Lemma scan_signed_inv mx p v r :
  scan_signed mx p = Ok (v, r) ->
  exists sp sign ds, p = sp ++ sign ++ ds ++ r /\ int_text sp sign ds /\ is_digit (cur r) = false /\
     v = (if (List.length sign =? 0)%nat then dec_value ds else - dec_value ds).
Proof.
  unfold scan_signed. destruct (skip_spaces_split p) as (sp & Hp & Hsp).
  set (p0 := skip_spaces p) in *. clearbody p0.
  destruct (Z.eqb_spec (cur p0) 45) as [E|E].
  - destruct p0 as [|c p1]; [cbn in E; lia|]. cbn [cur hd] in E; subst c. cbn [tl].
    destruct (is_digit (cur p1)) eqn:Ed; cbn [negb]; [|discriminate].
    destruct (digits_signed mx 0 p1) as [[x q]|] eqn:Eq; [|discriminate].
    intros [= <- <-]. destruct (digits_signed_inv _ _ _ _ _ Eq) as (ds & -> & Hds & Hv & Hr).
    exists sp, [45], ds. subst p. repeat split; try assumption.
    + right; reflexivity.
    + intros ->. cbn [app] in Ed. congruence.
    + cbn. subst x. reflexivity.
  - destruct (is_digit (cur p0)) eqn:Ed; cbn [negb]; [|discriminate].
    destruct (digits_signed mx 0 p0) as [[x q]|] eqn:Eq; [|discriminate].
    intros [= <- <-]. destruct (digits_signed_inv _ _ _ _ _ Eq) as (ds & -> & Hds & Hv & Hr).
    exists sp, [], ds. subst p. repeat split; try assumption.
    + left; reflexivity.
    + intros ->. cbn [app] in Ed. congruence.
Qed.

Lemma cur_digits ds rest : ds <> [] -> Forall digit ds -> digit (cur (ds ++ rest)).
Proof. intros Hne Hd. destruct ds as [|c r]; [congruence|]. inversion Hd; assumption. Qed.

Lemma scan_signed_ok mx sp sign ds rest :
  int_text sp sign ds -> is_digit (cur rest) = false -> dec_value ds <= mx ->
  scan_signed mx (sp ++ sign ++ ds ++ rest) =
  Ok (if (List.length sign =? 0)%nat then dec_value ds else - dec_value ds, rest).
Proof.
  intros (Hsp & Hsign & Hne & Hds) Hr Hm. unfold scan_signed.
  pose proof (cur_digits ds rest Hne Hds) as Hcur.
  assert (E : skip_spaces (sp ++ sign ++ ds ++ rest) = sign ++ ds ++ rest).
  { apply skip_spaces_app; [assumption|]. destruct Hsign as [-> | ->]; [|reflexivity].
    cbn [app]. apply digit_not_space. assumption. }
  rewrite E.
  assert (Hds' : digits_signed mx 0 (ds ++ rest) = Some (dec_value ds, rest)).
  { apply digits_signed_ok; try assumption; lia. }
  destruct Hsign as [-> | ->].
  - cbn [app]. unfold digit in Hcur. destruct (Z.eqb_spec (cur (ds ++ rest)) 45); [lia|].
    rewrite (proj2 (is_digit_spec _) Hcur). cbn [negb]. rewrite Hds'. reflexivity.
  - cbn [app cur hd tl]. rewrite Z.eqb_refl.
    change (hd 0 (ds ++ rest)) with (cur (ds ++ rest)). rewrite (proj2 (is_digit_spec _) Hcur). cbn [negb].
    rewrite Hds'. reflexivity.
Qed.

Lemma scan_signed_ub mx sp sign ds rest :
  0 <= mx -> int_text sp sign ds -> is_digit (cur rest) = false -> mx < dec_value ds ->
  scan_signed mx (sp ++ sign ++ ds ++ rest) = Ub.
Proof.
  intros Hmx (Hsp & Hsign & Hne & Hds) Hr Hm. unfold scan_signed.
  pose proof (cur_digits ds rest Hne Hds) as Hcur.
  assert (E : skip_spaces (sp ++ sign ++ ds ++ rest) = sign ++ ds ++ rest).
  { apply skip_spaces_app; [assumption|]. destruct Hsign as [-> | ->]; [|reflexivity].
    cbn [app]. apply digit_not_space. assumption. }
  rewrite E.
  assert (Hds' : digits_signed mx 0 (ds ++ rest) = None).
  { destruct (digits_signed mx 0 (ds ++ rest)) as [[x q]|] eqn:Eq; [|reflexivity]. exfalso.
    assert (forall ds x x0 q, Forall digit ds -> 0 <= x0 <= mx -> digits_signed mx x0 (ds ++ rest) = Some (x, q) -> dval x0 ds <= mx) as G.
    { clear -Hr. intros ds. induction ds as [|c r IH]; intros x x0 q Hd Hx; cbn [app dval fold_left].
      - lia.
      - inversion Hd; subst. cbn [digits_signed]. rewrite (proj2 (is_digit_spec c)) by assumption.
        destruct (Z.ltb_spec mx (x0 * 10)); [discriminate|].
        destruct (Z.ltb_spec mx (x0 * 10 + (c - 48))); [discriminate|].
        change (fold_left _ r ?y) with (dval y r). apply IH; [assumption|]. unfold digit in *. lia. }
    specialize (G ds x 0 q Hds ltac:(lia) Eq). unfold dec_value in Hm. unfold dval in G. lia. }
  destruct Hsign as [-> | ->].
  - cbn [app]. unfold digit in Hcur. destruct (Z.eqb_spec (cur (ds ++ rest)) 45); [lia|].
    rewrite (proj2 (is_digit_spec _) Hcur). cbn [negb]. rewrite Hds'. reflexivity.
  - cbn [app cur hd tl]. rewrite Z.eqb_refl.
    change (hd 0 (ds ++ rest)) with (cur (ds ++ rest)). rewrite (proj2 (is_digit_spec _) Hcur). cbn [negb].
    rewrite Hds'. reflexivity.
Qed.

(** Scanning a numeral gives its value. *)
Lemma scan_signed_numeral mx n t rest :
  signed_numeral n t -> is_digit (cur rest) = false -> - mx <= n <= mx ->
  scan_signed mx (t ++ rest) = Ok (n, rest).
Proof.
  unfold signed_numeral. intros Ht Hr Hn.
  destruct (Z.ltb_spec n 0) as [Hneg|Hpos].
  - destruct Ht as (ds & -> & (H1 & H2 & H3 & H4)).
    replace ((45 :: ds) ++ rest) with ([] ++ [45] ++ ds ++ rest) by reflexivity.
    rewrite scan_signed_ok; try assumption; [cbn; do 2 f_equal; lia| |lia].
    repeat split; try assumption; [constructor|right; reflexivity].
  - destruct Ht as (H1 & H2 & H3 & H4).
    replace (t ++ rest) with ([] ++ [] ++ t ++ rest) by reflexivity.
    rewrite scan_signed_ok; try assumption; [cbn; do 2 f_equal; lia| |lia].
    repeat split; try assumption; [constructor|left; reflexivity].
Qed.

Lemma sdec_signed_numeral n : signed_numeral n (sdec n).
Proof.
  unfold signed_numeral, sdec. destruct (Z.ltb_spec n 0).
  - eexists. split; [reflexivity|]. apply udec_numeral. lia.
  - apply udec_numeral. assumption.
Qed.

(** ** Int64ToStr / ScanInt64 *)

Lemma Int64ToStr_ok v : int64 v -> v <> INT64_MIN -> Int64ToStr v = Ok (sdec v).
Proof.
  unfold int64, INT64_MIN. intros Hv Hne. unfold Int64ToStr, INT64_MIN.
  destruct (Z.eqb_spec v (-9223372036854775808)); [lia|].
  assert (Hb : forall x, 0 < x <= 9223372036854775807 -> dec_loop 38 x [] = Some (udec x)).
  { intros x Hx. apply dec_loop_udec. change (10 ^ Z.of_nat 38) with 100000000000000000000000000000000000000. lia. }
  unfold sdec. destruct (Z.ltb_spec v 0).
  - destruct (Z.eqb_spec (- v) 0); [lia|]. rewrite Hb by lia. reflexivity.
  - destruct (Z.eqb_spec v 0) as [->|]; [reflexivity|]. rewrite Hb by lia. reflexivity.
Qed.

Lemma Int64ToStr_numeral v : int64 v -> v <> INT64_MIN ->
  exists t, Int64ToStr v = Ok t /\ signed_numeral v t.
Proof.
  intros Hv Hne. exists (sdec v). split; [apply Int64ToStr_ok; assumption|apply sdec_signed_numeral].
Qed.

Lemma ScanInt64_numeral v t rest : int64 v -> v <> INT64_MIN -> signed_numeral v t ->
  is_digit (cur rest) = false -> ScanInt64 (t ++ rest) = Ok (v, rest).
Proof.
  unfold int64, INT64_MIN. intros Hv Hne Ht Hr.
  apply scan_signed_numeral; try assumption. unfold INT64_MAX. lia.
Qed.

Lemma ScanInt_numeral v t rest : int32 v -> v <> INT_MIN -> signed_numeral v t ->
  is_digit (cur rest) = false -> ScanInt (t ++ rest) = Ok (v, rest).
Proof.
  unfold int32, INT_MIN. intros Hv Hne Ht Hr.
  apply scan_signed_numeral; try assumption. unfold INT_MAX. lia.
Qed.

(** ** Unsigned numbers *)

Lemma digits_u64_value x ds rest :
  Forall digit ds -> is_digit (cur rest) = false -> 0 <= x < 18446744073709551616 ->
  digits_u64 x (ds ++ rest) = (u64 (dval x ds), rest).
Proof.
  revert x; induction ds as [|c r IH]; intros x Hd Hr Hx.
  - cbn [app dval fold_left]. unfold u64. rewrite Z.mod_small by assumption.
    destruct rest as [|c rest]; [reflexivity|]. cbn [cur hd] in Hr. cbn [digits_u64]. rewrite Hr. reflexivity.
  - inversion Hd as [|? ? Hc Hrr]; subst. cbn [app digits_u64].
    rewrite (proj2 (is_digit_spec c) Hc). rewrite IH; try assumption.
    + f_equal. cbn [dval fold_left]. change (fold_left _ r ?y) with (dval y r).
      rewrite !dval_acc. unfold u64. rewrite <- (Z.add_mod_idemp_l (_ * 10 ^ zlen r)) by lia.
      rewrite Z.mul_mod_idemp_l by lia. rewrite Z.add_mod_idemp_l by lia. reflexivity.
    + unfold u64. apply Z.mod_pos_bound. lia.
Qed.

Lemma numeral_not_hex n t rest : numeral n t -> (cur rest <> 120) ->
  (cur (t ++ rest) =? 48) && (cur (tl (t ++ rest)) =? 120) = false.
Proof.
  intros (H1 & H2 & H3 & H4) Hr. destruct t as [|c r]; [congruence|].
  destruct (Z.eqb_spec (cur ((c :: r) ++ rest)) 48) as [E|E]; [|reflexivity].
  cbn [app cur hd] in E. rewrite (H4 E) in *. cbn [app tl andb].
  apply Z.eqb_neq. assumption.
Qed.

Lemma ScanUInt64_numeral v t rest : uint64 v -> numeral v t ->
  is_digit (cur rest) = false -> cur rest <> 120 -> ScanUInt64 (t ++ rest) = Ok (v, rest).
Proof.
  intros Hv Ht Hr Hx. unfold ScanUInt64.
  pose proof Ht as (H1 & H2 & H3 & H4).
  pose proof (cur_digits t rest H1 H2) as Hc.
  rewrite skip_spaces_id by (apply digit_not_space; assumption).
  rewrite (numeral_not_hex v) by assumption.
  rewrite (proj2 (is_digit_spec _) Hc). cbn [negb].
  rewrite digits_u64_value by (try assumption; lia).
  do 2 f_equal. unfold dval. fold (dec_value t). rewrite H3. unfold u64, uint64 in *. apply Z.mod_small. lia.
Qed.

(** Hexadecimal digits: the code's table agrees with the specification's. *)
Lemma hexval_spec c : hexval c = hex_digit_value c.
Proof.
  unfold hexval, hex_digit_value.
  destruct ((48 <=? c) && (c <=? 57)); [reflexivity|].
  destruct ((65 <=? c) && (c <=? 70)); [f_equal; lia|].
  destruct ((97 <=? c) && (c <=? 102)); [f_equal; lia|reflexivity].
Qed.

Lemma hexval_range c v : hexval c = Some v -> 0 <= v < 16.
Proof.
  unfold hexval.
  destruct ((48 <=? c) && (c <=? 57)) eqn:E1; [intros [= <-]; lia|].
  destruct ((65 <=? c) && (c <=? 70)) eqn:E2; [intros [= <-]; lia|].
  destruct ((97 <=? c) && (c <=? 102)) eqn:E3; [intros [= <-]; lia|discriminate].
Qed.

Lemma hexval_xdigit c : is_xdigit c = match hexval c with Some _ => true | None => false end.
Proof.
  unfold is_xdigit, hexval, is_digit.
  destruct ((48 <=? c) && (c <=? 57)); [reflexivity|].
  destruct ((65 <=? c) && (c <=? 70)); [reflexivity|].
  destruct ((97 <=? c) && (c <=? 102)); reflexivity.
Qed.

Lemma hex_value_ge x ds v : hex_value x ds = Some v -> 0 <= x -> x <= v.
Proof.
  revert x; induction ds as [|c r IH]; intros x; cbn [hex_value].
  - intros [= <-]. lia.
  - rewrite <- hexval_spec. destruct (hexval c) as [d|] eqn:E; [|discriminate].
    intros H Hx. pose proof (hexval_range c d E). specialize (IH _ H ltac:(lia)). lia.
Qed.

Lemma hex_u64_value x ds rest v :
  hex_value x ds = Some v -> uint64 v -> 0 <= x -> hexval (cur rest) = None ->
  hex_u64 x (ds ++ rest) = (v, rest).
Proof.
  unfold uint64. revert x; induction ds as [|c r IH]; intros x; cbn [hex_value app].
  - intros [= <-] Hv Hx Hr. destruct rest as [|c rest]; [reflexivity|].
    cbn [cur hd] in Hr. cbn [hex_u64]. rewrite Hr. reflexivity.
  - cbn [hex_u64]. rewrite <- hexval_spec. destruct (hexval c) as [d|] eqn:E; [|discriminate].
    intros H Hv Hx Hr. pose proof (hexval_range c d E) as Hd.
    pose proof (hex_value_ge _ _ _ H ltac:(lia)) as Hge.
    replace (u64 (Z.shiftl x 4 + d)) with (x * 16 + d).
    + apply IH; try assumption. lia.
    + rewrite Z.shiftl_mul_pow2 by lia. change (2 ^ 4) with 16. unfold u64. rewrite Z.mod_small by lia. reflexivity.
Qed.

Lemma hex_cur ds rest x v : ds <> [] -> hex_value x ds = Some v ->
  is_xdigit (cur (ds ++ rest)) = true /\ is_space (cur (ds ++ rest)) = false.
Proof.
  intros Hne H. destruct ds as [|c r]; [congruence|]. cbn [app cur hd].
  cbn [hex_value] in H. rewrite <- hexval_spec in H.
  rewrite hexval_xdigit. destruct (hexval c) as [d|] eqn:E; [|discriminate]. split; [reflexivity|].
  unfold hexval in E. unfold is_space.
  destruct ((48 <=? c) && (c <=? 57)) eqn:E1; [lia|].
  destruct ((65 <=? c) && (c <=? 70)) eqn:E2; [lia|].
  destruct ((97 <=? c) && (c <=? 102)) eqn:E3; [lia|discriminate].
Qed.

Lemma ScanUInt64Hex_value v ds rest : uint64 v -> ds <> [] -> hex_value 0 ds = Some v ->
  hex_digit_value (cur rest) = None -> ScanUInt64Hex (ds ++ rest) = Ok (v, rest).
Proof.
  intros Hv Hne Hh Hr. unfold ScanUInt64Hex.
  destruct (hex_cur ds rest 0 v Hne Hh) as [Hx Hs].
  rewrite skip_spaces_id by assumption. rewrite Hx. cbn [negb].
  rewrite (hex_u64_value 0 ds rest v); try assumption; try lia; [reflexivity|].
  rewrite hexval_spec. assumption.
Qed.

Lemma ScanUInt64_0x v ds rest : uint64 v -> ds <> [] -> hex_value 0 ds = Some v ->
  hex_digit_value (cur rest) = None -> ScanUInt64 (48 :: 120 :: ds ++ rest) = Ok (v, rest).
Proof.
  intros Hv Hne Hh Hr. unfold ScanUInt64.
  destruct (hex_cur ds rest 0 v Hne Hh) as [Hx Hs].
  rewrite skip_spaces_id by reflexivity. cbn [cur hd tl]. cbn [Z.eqb andb].
  change ((48 =? 48) && (120 =? 120)) with true. cbv iota.
  change (hd 0 (ds ++ rest)) with (cur (ds ++ rest)). rewrite Hx. cbn [negb].
  rewrite (hex_u64_value 0 ds rest v); try assumption; try lia; [reflexivity|].
  rewrite hexval_spec. assumption.
Qed.

(** ** IPv4 *)

Lemma octet_spec a : octet a = true <-> 0 <= a < 256.
Proof. unfold octet. lia. Qed.

Lemma ipv4_pack a b c d : 0 <= a < 256 -> 0 <= b < 256 -> 0 <= c < 256 -> 0 <= d < 256 ->
  Z.lor (Z.lor (Z.lor (Z.shiftl a 24) (Z.shiftl b 16)) (Z.shiftl c 8)) d =
  a * 16777216 + b * 65536 + c * 256 + d.
Proof.
  intros Ha Hb Hc Hd.
  assert (E1 : Z.lor (Z.shiftl a 24) (Z.shiftl b 16) = Z.shiftl (a * 256 + b) 16).
  { replace (Z.shiftl a 24) with (Z.shiftl (Z.shiftl a 8) 16) by (rewrite Z.shiftl_shiftl by lia; reflexivity).
    rewrite <- Z.shiftl_lor. f_equal. rewrite lor_shl_add by (change (2 ^ 8) with 256; lia). reflexivity. }
  rewrite E1.
  assert (E2 : Z.lor (Z.shiftl (a * 256 + b) 16) (Z.shiftl c 8) = Z.shiftl ((a * 256 + b) * 256 + c) 8).
  { replace (Z.shiftl (a * 256 + b) 16) with (Z.shiftl (Z.shiftl (a * 256 + b) 8) 8) by (rewrite Z.shiftl_shiftl by lia; reflexivity).
    rewrite <- Z.shiftl_lor. f_equal. rewrite lor_shl_add by (change (2 ^ 8) with 256; lia). reflexivity. }
  rewrite E2. rewrite lor_shl_add by (change (2 ^ 8) with 256; lia). change (2 ^ 8) with 256. lia.
Qed.

Lemma scan_octet a rest : 0 <= a < 256 -> is_digit (cur rest) = false ->
  ScanInt (udec a ++ rest) = Ok (a, rest).
Proof.
  intros Ha Hr. apply ScanInt_numeral; try assumption.
  - unfold int32. lia.
  - unfold INT_MIN. lia.
  - unfold signed_numeral. destruct (Z.ltb_spec a 0); [lia|]. apply udec_numeral. lia.
Qed.

Lemma ScanIPv4_quad a b c d rest :
  0 <= a < 256 -> 0 <= b < 256 -> 0 <= c < 256 -> 0 <= d < 256 -> is_digit (cur rest) = false ->
  ScanIPv4 (quad a b c d ++ rest) = Ok (a * 16777216 + b * 65536 + c * 256 + d, rest).
Proof.
  intros Ha Hb Hc Hd Hr. unfold ScanIPv4, quad. rewrite <- !app_assoc.
  rewrite scan_octet by (try assumption; reflexivity). cbn [obind app cur hd tl].
  rewrite (proj2 (octet_spec a) Ha). cbn [andb negb Z.eqb]. change (negb (46 =? 46)) with false. cbv iota.
  rewrite scan_octet by (try assumption; reflexivity). cbn [obind app cur hd tl].
  rewrite (proj2 (octet_spec b) Hb). cbn [andb negb]. change (negb (46 =? 46)) with false. cbv iota.
  rewrite scan_octet by (try assumption; reflexivity). cbn [obind app cur hd tl].
  rewrite (proj2 (octet_spec c) Hc). cbn [andb negb]. change (negb (46 =? 46)) with false. cbv iota.
  rewrite scan_octet by assumption. cbn [obind].
  rewrite (proj2 (octet_spec d) Hd). cbn [negb].
  rewrite ipv4_pack by assumption. reflexivity.
Qed.

Lemma ScanIPv4_inv p v r : ScanIPv4 p = Ok (v, r) ->
  exists a b c d sa sb sc sd, 
    0 <= a < 256 /\ 0 <= b < 256 /\ 0 <= c < 256 /\ 0 <= d < 256 /\
    v = a * 16777216 + b * 65536 + c * 256 + d /\
    p = sa ++ [46] ++ sb ++ [46] ++ sc ++ [46] ++ sd ++ r /\
    ScanInt sa = Ok (a, []) /\ ScanInt sb = Ok (b, []) /\ ScanInt sc = Ok (c, []) /\ ScanInt sd = Ok (d, []).
Proof.
  assert (Hpart : forall p a r, ScanInt p = Ok (a, r) -> exists s, p = s ++ r /\ ScanInt s = Ok (a, [])).
  { clear. intros p a r H. unfold ScanInt in *. destruct (scan_signed_inv _ _ _ _ H) as (sp & sg & ds & E & T & R & V).
    exists (sp ++ sg ++ ds). split; [rewrite E, <- !app_assoc; reflexivity|].
    assert (dec_value ds <= INT_MAX) as Hle.
    { destruct (Z.leb_spec (dec_value ds) INT_MAX) as [|Hgt]; [assumption|exfalso].
      rewrite E in H. rewrite scan_signed_ub in H; try assumption; [discriminate|unfold INT_MAX; lia]. }
    replace (sp ++ sg ++ ds) with (sp ++ sg ++ ds ++ []) by (rewrite app_nil_r; reflexivity).
    rewrite scan_signed_ok by (try assumption; reflexivity). rewrite V. reflexivity. }
  unfold ScanIPv4. destruct (ScanInt p) as [[a p1]| |] eqn:E1; cbn [obind]; try discriminate.
  destruct (octet a) eqn:Oa; cbn [andb negb]; [|discriminate].
  destruct (Z.eqb_spec (cur p1) 46) as [C1|]; cbn [negb]; [|discriminate].
  destruct (ScanInt (tl p1)) as [[b p2]| |] eqn:E2; cbn [obind]; try discriminate.
  destruct (octet b) eqn:Ob; cbn [andb negb]; [|discriminate].
  destruct (Z.eqb_spec (cur p2) 46) as [C2|]; cbn [negb]; [|discriminate].
  destruct (ScanInt (tl p2)) as [[c p3]| |] eqn:E3; cbn [obind]; try discriminate.
  destruct (octet c) eqn:Oc; cbn [andb negb]; [|discriminate].
  destruct (Z.eqb_spec (cur p3) 46) as [C3|]; cbn [negb]; [|discriminate].
  destruct (ScanInt (tl p3)) as [[d p4]| |] eqn:E4; cbn [obind]; try discriminate.
  destruct (octet d) eqn:Od; cbn [negb]; [|discriminate].
  intros [= <- <-].
  apply octet_spec in Oa, Ob, Oc, Od.
  destruct (Hpart _ _ _ E1) as (sa & -> & Sa). destruct (Hpart _ _ _ E2) as (sb & Eb & Sb).
  destruct (Hpart _ _ _ E3) as (sc & Ec & Sc). destruct (Hpart _ _ _ E4) as (sd & Ed & Sd).
  exists a, b, c, d, sa, sb, sc, sd. repeat (split; [assumption|]).
  split; [apply ipv4_pack; assumption|]. split; [|repeat split; assumption].
  destruct p1 as [|x p1]; [cbn in C1; lia|]. cbn [cur hd] in C1; subst x. cbn [tl] in Eb. subst p1.
  destruct p2 as [|x p2]; [cbn in C2; lia|]. cbn [cur hd] in C2; subst x. cbn [tl] in Ec. subst p2.
  destruct p3 as [|x p3]; [cbn in C3; lia|]. cbn [cur hd] in C3; subst x. cbn [tl] in Ed. subst p3.
  reflexivity.
Qed.

(** ** Hexadecimal bytes *)

Lemma hexval_hexchar v : 0 <= v < 16 -> hexval (hexchar v) = Some v.
Proof.
  intros Hv. assert (v = 0 \/ v = 1 \/ v = 2 \/ v = 3 \/ v = 4 \/ v = 5 \/ v = 6 \/ v = 7 \/ v = 8 \/
    v = 9 \/ v = 10 \/ v = 11 \/ v = 12 \/ v = 13 \/ v = 14 \/ v = 15) as H by lia.
  repeat (destruct H as [->|H]; [reflexivity|]). subst; reflexivity.
Qed.

Lemma hexchar_range v : 0 <= v < 16 -> (48 <= hexchar v <= 57) \/ (97 <= hexchar v <= 102).
Proof. intros Hv. unfold hexchar. destruct (Z.ltb_spec v 10); lia. Qed.

Lemma byte_nibbles b : is_byte b -> 0 <= Z.shiftr b 4 < 16 /\ 0 <= Z.land b 15 < 16 /\
  Z.lor (Z.shiftl (Z.shiftr b 4) 4) (Z.land b 15) = b.
Proof.
  unfold is_byte. intros Hb. rewrite shr_div by lia. change (2 ^ 4) with 16.
  change 15 with (2 ^ 4 - 1). rewrite land_mod by lia. change (2 ^ 4) with 16.
  repeat split; try lia. rewrite lor_shl_add by (change (2 ^ 4) with 16; lia). change (2 ^ 4) with 16. lia.
Qed.

Lemma Hex2Str_cons b r : Hex2Str (b :: r) = hexchar (Z.shiftr b 4) :: hexchar (Z.land b 15) :: Hex2Str r.
Proof. reflexivity. Qed.

Lemma scan_hex_pair n count b rest : is_byte b ->
  scan_hex_loop (S n) count (hexchar (Z.shiftr b 4) :: hexchar (Z.land b 15) :: rest) =
  let '(c, out, r) := scan_hex_loop n (count + 1) rest in (c, b :: out, r).
Proof.
  intros Hb. destruct (byte_nibbles b Hb) as (H1 & H2 & H3).
  cbn [scan_hex_loop cur hd].
  pose proof (hexchar_range _ H1) as R.
  destruct (Z.eqb_spec (hexchar (Z.shiftr b 4)) 45); [lia|].
  destruct (Z.eqb_spec (hexchar (Z.shiftr b 4)) 32); [lia|].
  cbn [cur hd tl]. rewrite !hexval_hexchar by assumption. rewrite H3. reflexivity.
Qed.

Lemma scan_hex_dash n count b rest : is_byte b ->
  scan_hex_loop (S n) count (45 :: hexchar (Z.shiftr b 4) :: hexchar (Z.land b 15) :: rest) =
  let '(c, out, r) := scan_hex_loop n (count + 1) rest in (c, b :: out, r).
Proof.
  intros Hb. destruct (byte_nibbles b Hb) as (H1 & H2 & H3).
  cbn [scan_hex_loop cur hd]. change (45 =? 45) with true. cbv iota.
  cbn [cur tl hd]. rewrite !hexval_hexchar by assumption. rewrite H3. reflexivity.
Qed.

Lemma scan_hex_loop_text l count k rest : bytes l -> (hexval (cur rest) = None) -> (cur rest <> 45) -> cur rest <> 32 ->
  scan_hex_loop (List.length l + k) count (Hex2Str l ++ rest) = (count + zlen l, l, rest).
Proof.
  revert count; induction l as [|b r IH]; intros count Hl Hr H1 H2.
  - cbn [List.length Nat.add Hex2Str flat_map app]. change (zlen (@nil Z)) with 0.
    destruct k as [|k]; cbn [scan_hex_loop].
    + f_equal. f_equal. lia.
    + destruct (Z.eqb_spec (cur rest) 45); [congruence|]. destruct (Z.eqb_spec (cur rest) 32); [congruence|].
      rewrite Hr. do 2 f_equal. lia.
  - inversion Hl; subst. rewrite Hex2Str_cons. cbn [List.length Nat.add app].
    rewrite scan_hex_pair by assumption. rewrite IH by assumption.
    rewrite zlen_cons. do 2 f_equal. lia.
Qed.

Lemma ScanHex_Hex2Str l n : bytes l -> zlen l <= n ->
  ScanHex (Hex2Str l) n = (zlen l, l, []).
Proof.
  intros Hl Hn. unfold ScanHex. destruct l as [|b r].
  - reflexivity.
  - rewrite Hex2Str_cons.
    replace (Z.to_nat n) with (List.length (b :: r) + (Z.to_nat n - List.length (b :: r)))%nat by (unfold zlen in *; lia).
    rewrite <- (Hex2Str_cons b r).
    replace (Hex2Str (b :: r)) with (Hex2Str (b :: r) ++ []) by apply app_nil_r.
    rewrite scan_hex_loop_text; try assumption; try reflexivity; cbn; lia.
Qed.

Lemma scan_hex_loop_bound n count p :
  let '(c, out, _) := scan_hex_loop n count p in
  c = count + zlen out /\ zlen out <= Z.of_nat n /\ bytes out.
Proof.
  revert count p; induction n as [|n IH]; intros count p; cbn [scan_hex_loop].
  - change (zlen (@nil Z)) with 0. repeat split; try lia. constructor.
  - set (p0 := if cur p =? 45 then _ else _). clearbody p0.
    destruct (hexval (cur p0)) as [h|] eqn:Eh; [|change (zlen (@nil Z)) with 0; repeat split; try lia; constructor].
    destruct (hexval (cur (tl p0))) as [l|] eqn:El; [|change (zlen (@nil Z)) with 0; repeat split; try lia; constructor].
    specialize (IH (count + 1) (tl (tl p0))).
    destruct (scan_hex_loop n (count + 1) (tl (tl p0))) as [[c out] r].
    rewrite zlen_cons. destruct IH as (I1 & I2 & I3). repeat split; try lia.
    constructor; [|assumption]. apply hexval_range in Eh, El. unfold is_byte.
    rewrite lor_shl_add by (change (2 ^ 4) with 16; lia). change (2 ^ 4) with 16. lia.
Qed.

Lemma ScanHex_bound p n : 0 <= n ->
  let '(c, out, _) := ScanHex p n in c = zlen out /\ zlen out <= n /\ bytes out.
Proof.
  intros Hn. unfold ScanHex. destruct p as [|c0 p0].
  - change (zlen (@nil Z)) with 0. repeat split; try lia. constructor.
  - pose proof (scan_hex_loop_bound (Z.to_nat n) 0 (c0 :: p0)) as H.
    destruct (scan_hex_loop (Z.to_nat n) 0 (c0 :: p0)) as [[c out] r]. destruct H as (H1 & H2 & H3).
    repeat split; try assumption; lia.
Qed.

Lemma Hex2Str_length l : zlen (Hex2Str l) = 2 * zlen l.
Proof. induction l as [|b r IH]; [reflexivity|]. rewrite Hex2Str_cons, !zlen_cons, IH. lia. Qed.

(** ** GUID *)

Lemma ScanHex_GUID2Str l : bytes l -> List.length l = 16%nat ->
  ScanHex (GUID2Str l) 16 = (16, l, []).
Proof.
  intros Hl Hlen.
  do 16 (destruct l as [|?b l]; [discriminate|]). destruct l; [|discriminate].
  unfold bytes in Hl. repeat match goal with H : Forall _ (_ :: _) |- _ => inversion H; clear H; subst end.
  unfold GUID2Str. rewrite !Hex2Str_cons. cbn [Hex2Str flat_map firstn skipn app].
  unfold ScanHex. change (Z.to_nat 16) with 16%nat.
  repeat first [ rewrite scan_hex_pair by assumption | rewrite scan_hex_dash by assumption ].
  reflexivity.
Qed.

Lemma GUID2Str_shape l : List.length l = 16%nat ->
  List.length (GUID2Str l) = 36%nat /\
  nth 8 (GUID2Str l) 0 = 45 /\ nth 13 (GUID2Str l) 0 = 45 /\ nth 18 (GUID2Str l) 0 = 45 /\ nth 23 (GUID2Str l) 0 = 45.
Proof.
  intros Hlen. do 16 (destruct l as [|?b l]; [discriminate|]). destruct l; [|discriminate].
  unfold GUID2Str. rewrite !Hex2Str_cons. cbn [Hex2Str flat_map firstn skipn app List.length nth].
  repeat split.
Qed.

(** The scanned parts of an address, without reference to the scanner. *)
Lemma ScanInt_number_text s a : ScanInt s = Ok (a, []) -> number_text s a.
Proof.
  intros H. destruct (scan_signed_inv _ _ _ _ H) as (sp & sg & ds & E & (T1 & T2 & T3 & T4) & R & V).
  exists sp, sg, ds. rewrite app_nil_r in E. repeat split; try assumption.
  destruct T2 as [-> | ->]; [left|right]; split; try reflexivity; assumption.
Qed.

Lemma ScanIPv4_sound p v r : ScanIPv4 p = Ok (v, r) ->
  exists a b c d sa sb sc sd,
    0 <= a < 256 /\ 0 <= b < 256 /\ 0 <= c < 256 /\ 0 <= d < 256 /\
    v = a * 16777216 + b * 65536 + c * 256 + d /\
    p = sa ++ [46] ++ sb ++ [46] ++ sc ++ [46] ++ sd ++ r /\
    number_text sa a /\ number_text sb b /\ number_text sc c /\ number_text sd d.
Proof.
  intros H. destruct (ScanIPv4_inv p v r H) as (a & b & c & d & sa & sb & sc & sd & Ha & Hb & Hc & Hd & V & P & H1 & H2 & H3 & H4).
  exists a, b, c, d, sa, sb, sc, sd. repeat (split; [assumption|]).
  repeat split; try assumption; apply ScanInt_number_text; assumption.
Qed.

Lemma ScanIPv4_all v rest : uint32 v -> is_digit (cur rest) = false ->
  ScanIPv4 (quad (v / 16777216) (v / 65536 mod 256) (v / 256 mod 256) (v mod 256) ++ rest) = Ok (v, rest).
Proof.
  unfold uint32. intros Hv Hr. rewrite ScanIPv4_quad by (try assumption; lia). do 2 f_equal. lia.
Qed.

(** INT64_MIN has no printed text and cannot be scanned: signed overflow in both directions. *)
Lemma Int64ToStr_min : Int64ToStr INT64_MIN = Ub.
Proof. reflexivity. Qed.

Lemma ScanInt64_min : ScanInt64 (sdec INT64_MIN) = Ub.
Proof. vm_compute. reflexivity. Qed.

Lemma int64_roundtrip v : int64 v -> v <> INT64_MIN ->
  exists t, Int64ToStr v = Ok t /\ signed_numeral v t /\ ScanInt64 t = Ok (v, []).
Proof.
  intros Hv Hne. exists (sdec v). split; [apply Int64ToStr_ok; assumption|].
  split; [apply sdec_signed_numeral|]. rewrite <- (app_nil_r (sdec v)).
  apply ScanInt64_numeral; try assumption; [apply sdec_signed_numeral|reflexivity].
Qed.

Lemma signed_numeral_unique n a b : signed_numeral n a -> signed_numeral n b -> a = b.
Proof.
  unfold signed_numeral. destruct (n <? 0); [|apply numeral_unique].
  intros (x & -> & Hx) (y & -> & Hy). f_equal. apply (numeral_unique (- n)); assumption.
Qed.

Lemma int64_min_refuted : exists v, int64 v /\ Int64ToStr v = Ub /\
  forall t, signed_numeral v t -> ScanInt64 t = Ub.
Proof.
  exists INT64_MIN. split; [unfold int64, INT64_MIN; lia|]. split; [reflexivity|].
  intros t Ht. rewrite (signed_numeral_unique _ _ _ Ht (sdec_signed_numeral _)). apply ScanInt64_min.
Qed.

Lemma uint64_hex v ds rest : uint64 v -> ds <> [] -> hex_value 0 ds = Some v ->
  hex_digit_value (cur rest) = None ->
  ScanUInt64Hex (ds ++ rest) = Ok (v, rest) /\ ScanUInt64 (48 :: 120 :: ds ++ rest) = Ok (v, rest).
Proof. intros. split; [apply ScanUInt64Hex_value|apply ScanUInt64_0x]; assumption. Qed.
