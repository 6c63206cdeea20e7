(** Lemmas about the vocabulary of [Base]. *)
From Verif Require Import Base.

Lemma length_app {A} (l r : list A) : List.length (l ++ r) = (List.length l + List.length r)%nat.
Proof. apply app_length. Qed.

Lemma zlen_nil {A} : zlen (@nil A) = 0.
Proof. reflexivity. Qed.

Lemma zlen_cons {A} (x : A) l : zlen (x :: l) = 1 + zlen l.
Proof. unfold zlen. simpl List.length. lia. Qed.

Lemma zlen_app {A} (l r : list A) : zlen (l ++ r) = zlen l + zlen r.
Proof. unfold zlen. rewrite app_length. lia. Qed.

Lemma zlen_nonneg {A} (l : list A) : 0 <= zlen l.
Proof. unfold zlen. lia. Qed.

Lemma zlen_map {A B} (f : A -> B) l : zlen (map f l) = zlen l.
Proof. unfold zlen. rewrite map_length. reflexivity. Qed.

Lemma zlen_repeat {A} (x : A) n : 0 <= n -> zlen (zrepeat x n) = n.
Proof. intros H. unfold zlen, zrepeat. rewrite repeat_length. lia. Qed.

Lemma zlen_skip {A} n (l : list A) : 0 <= n -> zlen (zskip n l) = Z.max 0 (zlen l - n).
Proof. intros H. unfold zlen, zskip. rewrite skipn_length. lia. Qed.

Lemma zlen_take {A} n (l : list A) : 0 <= n -> zlen (ztake n l) = Z.min n (zlen l).
Proof. intros H. unfold zlen, ztake. rewrite firstn_length. lia. Qed.

Lemma bytes_app l r : bytes (l ++ r) <-> bytes l /\ bytes r.
Proof. apply Forall_app. Qed.

Lemma cstring_app l r : cstring (l ++ r) <-> cstring l /\ cstring r.
Proof. apply Forall_app. Qed.

Lemma cstring_bytes l : cstring l -> bytes l.
Proof. intros H. eapply Forall_impl; [|exact H]. unfold is_cchar, is_byte. simpl. lia. Qed.

Lemma small_testbit y k n : 0 <= k <= n -> 0 <= y < 2 ^ k -> Z.testbit y n = false.
Proof.
  intros Hn Hy. destruct (Z.eq_dec y 0) as [->|Hne]; [apply Z.bits_0|].
  apply Z.bits_above_log2; [lia|].
  assert (Z.log2 y < k) by (apply Z.log2_lt_pow2; lia). lia.
Qed.

(** Disjoint [lor] of a shifted and a small number is addition. *)
Lemma lor_shl_add x y k : 0 <= k -> 0 <= y < 2 ^ k -> Z.lor (Z.shiftl x k) y = x * 2 ^ k + y.
Proof.
  intros Hk Hy.
  assert (H0 : Z.land (Z.shiftl x k) y = 0).
  { apply Z.bits_inj'. intros n Hn. rewrite Z.land_spec, Z.bits_0.
    destruct (Z.ltb_spec n k).
    - rewrite Z.shiftl_spec_low by lia. reflexivity.
    - rewrite (small_testbit y k n) by lia. apply andb_false_r. }
  rewrite <- Z.lxor_lor by assumption.
  rewrite <- Z.add_nocarry_lxor by assumption.
  rewrite Z.shiftl_mul_pow2 by assumption. reflexivity.
Qed.

Lemma land_mod x k : 0 <= k -> Z.land x (2 ^ k - 1) = x mod 2 ^ k.
Proof.
  intros Hk. replace (2 ^ k - 1) with (Z.ones k) by (rewrite Z.ones_equiv; lia).
  apply Z.land_ones. assumption.
Qed.

Lemma shr_div x k : 0 <= k -> Z.shiftr x k = x / 2 ^ k.
Proof. intros. apply Z.shiftr_div_pow2. assumption. Qed.

(** Little-endian round trip. *)
Lemma le_length n x : List.length (le n x) = n.
Proof. revert x; induction n as [|n IH]; intros x; simpl; [reflexivity|]. rewrite IH. reflexivity. Qed.

Lemma le_zlen n x : zlen (le n x) = Z.of_nat n.
Proof. unfold zlen. rewrite le_length. reflexivity. Qed.

Lemma le_bytes n x : bytes (le n x).
Proof.
  revert x; induction n as [|n IH]; intros x; simpl; constructor.
  - unfold is_byte. apply Z.mod_pos_bound. lia.
  - apply IH.
Qed.

Lemma unle_le n x : unle (le n x) = x mod (256 ^ Z.of_nat n).
Proof.
  revert x; induction n as [|n IH]; intros x.
  - simpl. change (Z.of_nat 0) with 0. rewrite Z.pow_0_r, Z.mod_1_r. reflexivity.
  - cbn [le unle]. rewrite IH.
    rewrite Nat2Z.inj_succ, Z.pow_succ_r by lia.
    rewrite Z.rem_mul_r; try lia. 
Qed.

Lemma unle_bound l : bytes l -> 0 <= unle l < 256 ^ zlen l.
Proof.
  induction l as [|b r IH]; intros H.
  - cbn [unle]. change (zlen (@nil Z)) with 0. change (256 ^ 0) with 1. lia.
  - inversion H as [|? ? Hb Hr]; subst. specialize (IH Hr). unfold is_byte in Hb.
    cbn [unle]. rewrite zlen_cons, Z.add_comm, Z.pow_add_r by (try apply zlen_nonneg; lia).
    change (256 ^ 1) with 256. lia.
Qed.

Lemma le_unle l : bytes l -> le (List.length l) (unle l) = l.
Proof.
  induction l as [|b r IH]; intros H; [reflexivity|].
  inversion H as [|? ? Hb Hr]; subst. unfold is_byte in Hb.
  cbn [List.length le unle]. f_equal.
  - rewrite (Z.mul_comm 256), Z.mod_add by lia. apply Z.mod_small. lia.
  - rewrite (Z.mul_comm 256), Z.div_add by lia. rewrite Z.div_small by lia. apply IH. assumption.
Qed.

Lemma unle_le_small n x : 0 <= x < 256 ^ Z.of_nat n -> unle (le n x) = x.
Proof. intros H. rewrite unle_le. apply Z.mod_small. assumption. Qed.

Lemma s32_le x : int32 x -> s32 (unle (le 4 x)) = x.
Proof. intros H. rewrite unle_le. change (256 ^ Z.of_nat 4) with 4294967296. unfold s32, int32 in *. lia. Qed.

Lemma s16_le x : -32768 <= x <= 32767 -> s16 (unle (le 2 x)) = x.
Proof. intros H. rewrite unle_le. change (256 ^ Z.of_nat 2) with 65536. unfold s16 in *. lia. Qed.

Lemma s64_le x : int64 x -> s64 (unle (le 8 x)) = x.
Proof.
  intros H. rewrite unle_le. change (256 ^ Z.of_nat 8) with 18446744073709551616.
  unfold s64, int64 in *. lia.
Qed.

Lemma align_up_ge a x : 0 < a -> x <= align_up a x < x + a.
Proof. intros H. unfold align_up. pose proof (Z.mul_div_le (x + a - 1) a H). pose proof (Z.mul_succ_div_gt (x + a - 1) a H). lia. Qed.

Lemma align_up_mod a x : 0 < a -> align_up a x mod a = 0.
Proof. intros H. unfold align_up. apply Z.mod_mul. lia. Qed.

Lemma align_up_id a x : 0 < a -> x mod a = 0 -> align_up a x = x.
Proof.
  intros Ha Hx. unfold align_up. apply Z.mod_divide in Hx; [|lia]. destruct Hx as [k ->].
  replace (k * a + a - 1) with (k * a + (a - 1)) by lia.
  rewrite Z.div_add_l by lia. rewrite Z.div_small by lia. lia.
Qed.

Lemma align_up_least a x y : 0 < a -> x <= y -> y mod a = 0 -> align_up a x <= y.
Proof.
  intros Ha Hxy Hy. apply Z.mod_divide in Hy; [|lia]. destruct Hy as [k ->].
  unfold align_up. assert ((x + a - 1) / a < k + 1); [|nia].
  apply Z.div_lt_upper_bound; lia.
Qed.

Lemma align_up_add a x k : 0 < a -> align_up a (x + k * a) = align_up a x + k * a.
Proof.
  intros Ha. unfold align_up. replace (x + k * a + a - 1) with ((x + a - 1) + k * a) by lia.
  rewrite Z.div_add by lia. lia.
Qed.
