(** Comparing values (C16). *)
From Verif Require Import Base BaseFacts Scan Types ListFacts.

Lemma cmpZ_cases x y : (x < y /\ cmpZ x y = -1) \/ (x = y /\ cmpZ x y = 0) \/ (y < x /\ cmpZ x y = 1).
Proof. unfold cmpZ. destruct (Z.ltb_spec x y); [lia|]. destruct (Z.ltb_spec y x); lia. Qed.
Lemma cmpZ_anti x y : cmpZ y x = - cmpZ x y.
Proof. destruct (cmpZ_cases x y) as [[? ->]|[[? ->]|[? ->]]], (cmpZ_cases y x) as [[? ->]|[[? ->]|[? ->]]]; lia. Qed.
Lemma cmpZ_range x y : -1 <= cmpZ x y <= 1.
Proof. destruct (cmpZ_cases x y) as [[? ->]|[[? ->]|[? ->]]]; lia. Qed.
Lemma cmpZ_le x y : cmpZ x y <= 0 <-> x <= y.
Proof. destruct (cmpZ_cases x y) as [[? ->]|[[? ->]|[? ->]]]; lia. Qed.
Lemma cmpZ_eq x y : cmpZ x y = 0 <-> x = y.
Proof. destruct (cmpZ_cases x y) as [[? ->]|[[? ->]|[? ->]]]; lia. Qed.

Lemma memcmp_cons x a y b : memcmp (x :: a) (y :: b) = if x =? y then memcmp a b else cmpZ x y.
Proof.
  cbn [memcmp]. destruct (Z.eqb_spec x y) as [->|H]; [rewrite Z.ltb_irrefl; reflexivity|].
  unfold cmpZ. destruct (Z.ltb_spec x y); [reflexivity|]. destruct (Z.ltb_spec y x); [reflexivity|lia].
Qed.
Lemma memcmp_anti a : forall b, memcmp b a = - memcmp a b.
Proof.
  induction a as [|x a IH]; intros [|y b]; try reflexivity. rewrite !memcmp_cons, IH, cmpZ_anti, (Z.eqb_sym y x). destruct (x =? y); reflexivity.
Qed.
Lemma memcmp_range a : forall b, -1 <= memcmp a b <= 1.
Proof.
  induction a as [|x a IH]; intros [|y b]; try (cbn; lia). rewrite memcmp_cons. destruct (x =? y); [apply IH|apply cmpZ_range].
Qed.
Lemma memcmp_eq a : forall b, memcmp a b = 0 <-> a = b.
Proof.
  induction a as [|x a IH]; intros [|y b]; try (cbn; split; [lia|discriminate]); [cbn; split; reflexivity|].
  rewrite memcmp_cons. destruct (Z.eqb_spec x y) as [->|H].
  - rewrite IH. split; [intros ->; reflexivity|intros E; inversion E; reflexivity].
  - rewrite cmpZ_eq. split; [lia|intros E; inversion E; contradiction].
Qed.
Lemma memcmp_trans a : forall b c, memcmp a b <= 0 -> memcmp b c <= 0 -> memcmp a c <= 0.
Proof.
  induction a as [|x a IH]; intros [|y b] [|z c]; try (cbn; lia). rewrite !memcmp_cons.
  destruct (Z.eqb_spec x y) as [->|], (Z.eqb_spec y z) as [->|]; [apply IH|..].
  - intros _ H. exact H.
  - destruct (Z.eqb_spec x z); [contradiction|]. intros H _. exact H.
  - rewrite !cmpZ_le. destruct (Z.eqb_spec x z) as [->|]; [lia|]. rewrite cmpZ_le. lia.
Qed.

Definition incomparable : Z := - 2147483648.

Lemma fcmp_anti sb inf x y : fcmp sb inf y x = - fcmp sb inf x y.
Proof. unfold fcmp. rewrite orb_comm. destruct (fnan sb inf x || fnan sb inf y); [reflexivity|apply cmpZ_anti]. Qed.
Lemma fcmp_range sb inf x y : -1 <= fcmp sb inf x y <= 1.
Proof. unfold fcmp. destruct (_ || _); [lia|apply cmpZ_range]. Qed.

(** Every answer is -1, 0, 1 or "cannot compare", and swapping the values negates it. *)
Lemma compare_swap tA A tB B :
  (XBT_Compare tA A tB B = incomparable /\ XBT_Compare tB B tA A = incomparable) \/
  (-1 <= XBT_Compare tA A tB B <= 1 /\ XBT_Compare tB B tA A = - XBT_Compare tA A tB B).
Proof.
  unfold XBT_Compare. rewrite (Z.eqb_sym tB tA).
  assert (HN : forall n (f : Z -> Z -> Z), (forall x y, f y x = - f x y) -> (forall x y, -1 <= f x y <= 1) ->
    ((if negb ((zlen A =? n) && (zlen B =? n)) then INT_NULL_VALUE else f (unle A) (unle B)) = incomparable /\
     (if negb ((zlen B =? n) && (zlen A =? n)) then INT_NULL_VALUE else f (unle B) (unle A)) = incomparable) \/
    (-1 <= (if negb ((zlen A =? n) && (zlen B =? n)) then INT_NULL_VALUE else f (unle A) (unle B)) <= 1 /\
     (if negb ((zlen B =? n) && (zlen A =? n)) then INT_NULL_VALUE else f (unle B) (unle A)) =
     - (if negb ((zlen A =? n) && (zlen B =? n)) then INT_NULL_VALUE else f (unle A) (unle B)))).
  { intros n f Ha Hr. rewrite (andb_comm (zlen B =? n)). destruct (negb _); [left; split; reflexivity|right; split; [apply Hr|apply Ha]]. }
  assert (HM : ((if zlen A =? zlen B then memcmp A B else INT_NULL_VALUE) = incomparable /\ (if zlen B =? zlen A then memcmp B A else INT_NULL_VALUE) = incomparable) \/
    (-1 <= (if zlen A =? zlen B then memcmp A B else INT_NULL_VALUE) <= 1 /\
     (if zlen B =? zlen A then memcmp B A else INT_NULL_VALUE) = - (if zlen A =? zlen B then memcmp A B else INT_NULL_VALUE))).
  { rewrite (Z.eqb_sym (zlen B)). destruct (zlen A =? zlen B); [right; split; [apply memcmp_range|apply memcmp_anti]|left; split; reflexivity]. }
  destruct (Z.eqb_spec tA tB) as [<-|Ht]; [|exact HM]. cbv zeta.
  destruct (isin tA [XBT_INT32; _; _; _; _; _; _]); [apply (HN 4 (fun x y => cmpZ (s32 x) (s32 y))); intros; [apply cmpZ_anti|apply cmpZ_range]|].
  destruct (isin tA [XBT_UINT32; _]); [apply (HN 4 cmpZ); intros; [apply cmpZ_anti|apply cmpZ_range]|].
  destruct (isin tA [XBT_UNIX_TIME64_MSEC; _]); [apply (HN 8 (fun x y => cmpZ (s64 x) (s64 y))); intros; [apply cmpZ_anti|apply cmpZ_range]|].
  destruct (tA =? XBT_UINT64); [apply (HN 8 cmpZ); intros; [apply cmpZ_anti|apply cmpZ_range]|].
  destruct (tA =? XBT_FLOAT); [apply (HN 4 (fcmp (2 ^ 31) 2139095040)); intros; [apply fcmp_anti|apply fcmp_range]|].
  destruct (tA =? XBT_DOUBLE); [apply (HN 8 (fcmp (2 ^ 63) 9218868437227405312)); intros; [apply fcmp_anti|apply fcmp_range]|].
  destruct (isin tA [XBT_STRING; _]); [right; split; [apply memcmp_range|apply memcmp_anti]|].
  destruct (isin tA [XBT_HEX; _; _; _; _]); [exact HM|left; split; reflexivity].
Qed.

(** A NaN bit pattern, by its IEEE fields. *)
Definition is_nan (ty : Z) (A : list Z) : bool :=
  ((ty =? XBT_FLOAT) && (2139095040 <? unle A mod 2 ^ 31)) || ((ty =? XBT_DOUBLE) && (9218868437227405312 <? unle A mod 2 ^ 63)).

Definition le_answer (r : Z) : Prop := r = -1 \/ r = 0.

Lemma compare_trans ty A B C : is_nan ty B = false -> le_answer (XBT_Compare ty A ty B) -> le_answer (XBT_Compare ty B ty C) ->
  is_nan ty A = false -> is_nan ty C = false -> le_answer (XBT_Compare ty A ty C).
Proof.
  intros NB H1 H2 NA NC. unfold XBT_Compare in *. rewrite Z.eqb_refl in *. cbv zeta in *.
  assert (HN : forall n (f : Z -> Z -> Z), (forall x y, -1 <= f x y <= 1) ->
    (f (unle A) (unle B) <= 0 -> f (unle B) (unle C) <= 0 -> f (unle A) (unle C) <= 0) ->
    le_answer (if negb ((zlen A =? n) && (zlen B =? n)) then INT_NULL_VALUE else f (unle A) (unle B)) ->
    le_answer (if negb ((zlen B =? n) && (zlen C =? n)) then INT_NULL_VALUE else f (unle B) (unle C)) ->
    le_answer (if negb ((zlen A =? n) && (zlen C =? n)) then INT_NULL_VALUE else f (unle A) (unle C))).
  { intros n f Hr Htr. unfold le_answer. pose proof (Hr (unle A) (unle B)). pose proof (Hr (unle B) (unle C)). pose proof (Hr (unle A) (unle C)).
    change INT_NULL_VALUE with (-2147483648). destruct (zlen A =? n), (zlen B =? n), (zlen C =? n); cbn [andb negb]; try lia. }
  assert (HM : forall X Y Z', memcmp X Y <= 0 -> memcmp Y Z' <= 0 -> le_answer (memcmp X Z')).
  { intros X Y Z' P Q. pose proof (memcmp_trans _ _ _ P Q). pose proof (memcmp_range X Z'). unfold le_answer. lia. }
  assert (Hle : forall r, le_answer r -> r <= 0) by (unfold le_answer; lia).
  destruct (isin ty [XBT_INT32; _; _; _; _; _; _]).
  { revert H1 H2. apply (HN 4 (fun x y => cmpZ (s32 x) (s32 y))); intros; [apply cmpZ_range|]. rewrite cmpZ_le in *. lia. }
  destruct (isin ty [XBT_UINT32; _]). { revert H1 H2. apply (HN 4 cmpZ); intros; [apply cmpZ_range|]. rewrite cmpZ_le in *. lia. }
  destruct (isin ty [XBT_UNIX_TIME64_MSEC; _]).
  { revert H1 H2. apply (HN 8 (fun x y => cmpZ (s64 x) (s64 y))); intros; [apply cmpZ_range|]. rewrite cmpZ_le in *. lia. }
  destruct (ty =? XBT_UINT64). { revert H1 H2. apply (HN 8 cmpZ); intros; [apply cmpZ_range|]. rewrite cmpZ_le in *. lia. }
  destruct (Z.eqb_spec ty XBT_FLOAT) as [->|].
  { unfold is_nan in *. change (XBT_FLOAT =? XBT_DOUBLE) with false in *. rewrite Z.eqb_refl in *. cbn [andb orb] in *. rewrite orb_false_r in *.
    revert H1 H2. apply (HN 4 (fcmp (2 ^ 31) 2139095040)); intros; [apply fcmp_range|].
    unfold fcmp, fnan in *. rewrite NA, NB, NC in *. cbn [orb] in *. rewrite cmpZ_le in *. lia. }
  destruct (Z.eqb_spec ty XBT_DOUBLE) as [->|].
  { unfold is_nan in *. rewrite Z.eqb_refl in *. change (XBT_DOUBLE =? XBT_FLOAT) with false in *. cbn [andb orb] in *.
    revert H1 H2. apply (HN 8 (fcmp (2 ^ 63) 9218868437227405312)); intros; [apply fcmp_range|].
    unfold fcmp, fnan in *. rewrite NA, NB, NC in *. cbn [orb] in *. rewrite cmpZ_le in *. lia. }
  destruct (isin ty [XBT_STRING; _]); [eapply HM; apply Hle; eassumption|].
  destruct (isin ty [XBT_HEX; _; _; _; _]).
  2: { unfold le_answer in H1. change INT_NULL_VALUE with (-2147483648) in H1. lia. }
  unfold le_answer in *. change INT_NULL_VALUE with (-2147483648) in *.
  destruct (Z.eqb_spec (zlen A) (zlen B)) as [E1|]; [|lia]. destruct (Z.eqb_spec (zlen B) (zlen C)) as [E2|]; [|lia].
  rewrite E1, E2, Z.eqb_refl. apply (HM A B C); lia.
Qed.

(** The size a value of a fixed-size type has. *)
Definition fixed_content (ty : Z) : Z := if XBT_IS_4 ty then 4 else 8.

Lemma s32_inj x y : 0 <= x < 2 ^ 32 -> 0 <= y < 2 ^ 32 -> s32 x = s32 y -> x = y.
Proof. unfold s32. change (2 ^ 32) with 4294967296. intros. lia. Qed.
Lemma s64_inj x y : 0 <= x < 2 ^ 64 -> 0 <= y < 2 ^ 64 -> s64 x = s64 y -> x = y.
Proof. unfold s64. change (2 ^ 64) with 18446744073709551616. intros. lia. Qed.
Lemma unle_inj a b : bytes a -> bytes b -> zlen a = zlen b -> unle a = unle b -> a = b.
Proof.
  intros Ha Hb Hl H. rewrite <- (le_unle a Ha), <- (le_unle b Hb), H. unfold zlen in Hl. replace (List.length a) with (List.length b) by lia. reflexivity.
Qed.

(** Answer 0 means the same content: byte for byte, and for strings up to the terminator. *)
Lemma compare_zero ty A B : bytes A -> bytes B -> ty <> XBT_FLOAT -> ty <> XBT_DOUBLE -> XBT_Compare ty A ty B = 0 ->
  if (ty =? XBT_STRING) || (ty =? XBT_BLOB_STRING) then cstr A = cstr B else A = B.
Proof.
  intros HA HB NF ND H. unfold XBT_Compare in H. rewrite Z.eqb_refl in H. cbv zeta in H.
  assert (HN : forall n (f : Z -> Z -> Z), (forall x y, 0 <= x < 256 ^ n -> 0 <= y < 256 ^ n -> f x y = 0 -> x = y) ->
    (if negb ((zlen A =? n) && (zlen B =? n)) then INT_NULL_VALUE else f (unle A) (unle B)) = 0 -> A = B).
  { intros n f Hf. destruct (Z.eqb_spec (zlen A) n) as [E1|]; [|intros; discriminate]. destruct (Z.eqb_spec (zlen B) n) as [E2|]; [|intros; discriminate].
    cbn [andb negb]. intros E. apply unle_inj; [assumption..|congruence|]. apply Hf; [rewrite <- E1; apply unle_bound; assumption|rewrite <- E2; apply unle_bound; assumption|exact E]. }
  assert (HS : isin ty [XBT_STRING; XBT_BLOB_STRING] = (ty =? XBT_STRING) || (ty =? XBT_BLOB_STRING)).
  { unfold isin. cbn [existsb]. rewrite orb_false_r. reflexivity. }
  destruct ((ty =? XBT_STRING) || (ty =? XBT_BLOB_STRING)) eqn:ES.
  - apply orb_true_iff in ES. destruct ES as [ES|ES]; apply Z.eqb_eq in ES; subst ty; apply memcmp_eq; exact H.
  - destruct (isin ty [XBT_INT32; _; _; _; _; _; _]).
    { revert H. apply (HN 4 (fun x y => cmpZ (s32 x) (s32 y))). intros x y Hx Hy E. apply (proj1 (cmpZ_eq _ _)) in E. change (256 ^ 4) with (2 ^ 32) in Hx, Hy. apply s32_inj; assumption. }
    destruct (isin ty [XBT_UINT32; _]). { revert H. apply (HN 4 cmpZ). intros x y _ _. apply cmpZ_eq. }
    destruct (isin ty [XBT_UNIX_TIME64_MSEC; _]).
    { revert H. apply (HN 8 (fun x y => cmpZ (s64 x) (s64 y))). intros x y Hx Hy E. apply (proj1 (cmpZ_eq _ _)) in E. change (256 ^ 8) with (2 ^ 64) in Hx, Hy. apply s64_inj; assumption. }
    destruct (ty =? XBT_UINT64). { revert H. apply (HN 8 cmpZ). intros x y _ _. apply cmpZ_eq. }
    destruct (Z.eqb_spec ty XBT_FLOAT); [contradiction|]. destruct (Z.eqb_spec ty XBT_DOUBLE); [contradiction|].
    rewrite HS in H. destruct (isin ty [XBT_HEX; _; _; _; _]); [|discriminate].
    destruct (zlen A =? zlen B); [apply memcmp_eq; exact H|discriminate].
Qed.

(** A value equals itself, for the types whose values XBT_Compare handles. *)
Definition compared_types : list Z :=
  [XBT_STRING; XBT_BLOB_STRING; XBT_HEX; XBT_GUID; XBT_SHA1; XBT_IPv4; XBT_IPv6].
Definition compared4 : list Z := [XBT_INT32; XBT_INT32_DECI; XBT_INT32_CENTI; XBT_INT32_MILI; XBT_INT32_MICRO; XBT_INT32_NANO; XBT_UNIX_DATE;
  XBT_UINT32; XBT_UNIX_TIME; XBT_FLOAT].
Definition compared8 : list Z := [XBT_INT64; XBT_UINT64; XBT_UNIX_TIME64_MSEC; XBT_DOUBLE].
Lemma compare_self ty A : In ty compared_types \/ (In ty compared4 /\ zlen A = 4) \/ (In ty compared8 /\ zlen A = 8) -> XBT_Compare ty A ty A = 0.
Proof.
  assert (HM : forall l, memcmp l l = 0) by (intros l; apply memcmp_eq; reflexivity).
  assert (HZ : forall x, cmpZ x x = 0) by (intros x; apply cmpZ_eq; reflexivity).
  assert (HF : forall sb inf x, fcmp sb inf x x = 0) by (intros sb inf x; unfold fcmp; destruct (_ || _); [reflexivity|apply HZ]).
  intros H. unfold XBT_Compare. rewrite !Z.eqb_refl. cbv zeta.
  destruct H as [H|[[H E]|[H E]]]; unfold compared_types, compared4, compared8 in H; cbn [In] in H; try rewrite E; rewrite ?Z.eqb_refl; cbn [andb negb];
    repeat (destruct H as [<-|H];
      [repeat match goal with |- context [isin ?a ?l] => let b := eval vm_compute in (isin a l) in change (isin a l) with b; cbv iota end;
       repeat match goal with |- context [Z.eqb ?a ?b] => let c := eval vm_compute in (Z.eqb a b) in change (Z.eqb a b) with c; cbv iota end;
       rewrite ?HM, ?HZ, ?HF; reflexivity|]); contradiction.
Qed.

(** Bad: 0 and -0, or NaN and anything, compare equal, and NaN breaks transitivity. *)
Definition f32 (bits : Z) := le 4 bits.
Lemma compare_float_zero : exists A B, A <> B /\ XBT_Compare XBT_FLOAT A XBT_FLOAT B = 0.
Proof. exists (f32 0), (f32 2147483648). split; [discriminate|reflexivity]. Qed.
Lemma compare_float_nan : exists A B C, XBT_Compare XBT_FLOAT A XBT_FLOAT B = 0 /\ XBT_Compare XBT_FLOAT B XBT_FLOAT C = 0 /\ XBT_Compare XBT_FLOAT A XBT_FLOAT C = 1.
Proof. exists (f32 1065353216), (f32 2143289344), (f32 0). repeat split. Qed.
(** Bad: a BLOB cannot even be compared with itself. *)
Lemma compare_blob A B : XBT_Compare XBT_BLOB A XBT_BLOB B = incomparable.
Proof. reflexivity. Qed.

(** ** XBT_Equal *)
Lemma equal_symmetric fl tA A tB B : XBT_Equal fl tA A tB B = XBT_Equal fl tB B tA A.
Proof.
  assert (S : forall a b, (zlen a =? zlen b) && (memcmp a b =? 0) = (zlen b =? zlen a) && (memcmp b a =? 0)).
  { intros a b. rewrite (Z.eqb_sym (zlen a)), memcmp_anti. f_equal. lia. }
  unfold XBT_Equal. rewrite (Z.eqb_sym tB tA). cbv zeta. destruct (Z.eqb_spec tA tB) as [->|Hn]; [rewrite S; reflexivity|].
  destruct (Z.eqb_spec tA XBT_STRING) as [->|HA].
  - destruct (Z.eqb_spec tB XBT_STRING) as [->|HB]; [contradiction Hn; reflexivity|].
    destruct (XBT_FromString fl (cstr A) tB 0 (zlen A + 64)); [rewrite S; reflexivity|reflexivity|reflexivity].
  - destruct (tB =? XBT_STRING); [|reflexivity]. destruct (XBT_FromString fl (cstr B) tA 0 (zlen B + 64)); [rewrite S; reflexivity|reflexivity|reflexivity].
Qed.

Lemma equal_same fl ty A B : XBT_Equal fl ty A ty B = Ok true <-> A = B.
Proof.
  unfold XBT_Equal. rewrite Z.eqb_refl. cbv zeta. split.
  - intros H. inversion H as [H0]. apply andb_true_iff in H0. destruct H0 as [_ H0]. apply memcmp_eq. lia.
  - intros ->. rewrite Z.eqb_refl, (proj2 (memcmp_eq B B) eq_refl). reflexivity.
Qed.

(** Different contents of one type are never equal, and unrelated types never are. *)
Lemma equal_unrelated fl tA A tB B : tA <> tB -> tA <> XBT_STRING -> tB <> XBT_STRING -> XBT_Equal fl tA A tB B = Ok false.
Proof.
  intros H HA HB. unfold XBT_Equal. rewrite (proj2 (Z.eqb_neq tA tB)), (proj2 (Z.eqb_neq tA XBT_STRING)), (proj2 (Z.eqb_neq tB XBT_STRING)) by assumption. reflexivity.
Qed.

(** A text equals a typed value exactly when storing the text gives that value's bytes. *)
Lemma equal_text fl s rest ty B st : cstring s -> ty <> XBT_STRING ->
  XBT_FromString fl s ty 0 (zlen (s ++ 0 :: rest) + 64) = Ok st ->
  (XBT_Equal fl XBT_STRING (s ++ 0 :: rest) ty B = Ok true <-> st_bytes st = B).
Proof.
  intros Hs Hty E. unfold XBT_Equal. rewrite (proj2 (Z.eqb_neq XBT_STRING ty)) by (intros X; apply Hty; symmetry; exact X). cbv zeta.
  change (XBT_STRING =? XBT_STRING) with true. cbv iota. rewrite cstr_app by assumption. rewrite E. split.
  - intros H. inversion H as [H0]. apply andb_true_iff in H0. destruct H0 as [_ H0]. apply memcmp_eq. lia.
  - intros <-. rewrite Z.eqb_refl, (proj2 (memcmp_eq _ _) eq_refl). reflexivity.
Qed.
