(** Facts about slices, buffers and C strings in memory. *)
From Verif Require Import Base BaseFacts NumSpec Scan Base64 CalSpec Dates Types.

Lemma ztake_app_l {A} n (a b : list A) : n <= zlen a -> ztake n (a ++ b) = ztake n a.
Proof.
  intros H. unfold ztake, zlen in *. rewrite firstn_app.
  replace (Z.to_nat n - List.length a)%nat with O by lia. cbn [firstn]. apply app_nil_r.
Qed.

Lemma ztake_app_len {A} (a b : list A) n : n = zlen a -> ztake n (a ++ b) = a.
Proof. intros ->. unfold ztake, zlen. rewrite Nat2Z.id. rewrite firstn_app, Nat.sub_diag, firstn_all. cbn [firstn]. apply app_nil_r. Qed.

Lemma zskip_app_len {A} (a b : list A) n : n = zlen a -> zskip n (a ++ b) = b.
Proof. intros ->. unfold zskip, zlen. rewrite Nat2Z.id. rewrite skipn_app, Nat.sub_diag, skipn_all. reflexivity. Qed.

Lemma zskip_app_ge {A} n (a b : list A) : zlen a <= n -> zskip n (a ++ b) = zskip (n - zlen a) b.
Proof.
  intros H. unfold zskip, zlen in *. rewrite skipn_app.
  rewrite skipn_all2 by lia. cbn [app]. f_equal. lia.
Qed.

Lemma zskip_app_le {A} n (a b : list A) : n <= zlen a -> zskip n (a ++ b) = zskip n a ++ b.
Proof.
  intros H. unfold zskip, zlen in *. rewrite skipn_app.
  replace (Z.to_nat n - List.length a)%nat with O by lia. reflexivity.
Qed.

Lemma ztake_app_ge {A} n (a b : list A) : zlen a <= n -> ztake n (a ++ b) = a ++ ztake (n - zlen a) b.
Proof.
  intros H. unfold ztake, zlen in *. rewrite firstn_app.
  rewrite firstn_all2 by lia. f_equal. f_equal. lia.
Qed.

Lemma ztake_all {A} n (a : list A) : zlen a <= n -> ztake n a = a.
Proof. intros H. unfold ztake, zlen in *. apply firstn_all2. lia. Qed.

Lemma zskip_all {A} n (a : list A) : zlen a <= n -> zskip n a = [].
Proof. intros H. unfold zskip, zlen in *. apply skipn_all2. lia. Qed.

Lemma zskip_0 {A} (l : list A) : zskip 0 l = l.
Proof. reflexivity. Qed.

Lemma ztake_0 {A} n (l : list A) : n <= 0 -> ztake n l = [].
Proof. intros H. unfold ztake. replace (Z.to_nat n) with O by lia. reflexivity. Qed.

Lemma zskip_neg {A} n (l : list A) : n <= 0 -> zskip n l = l.
Proof. intros H. unfold zskip. replace (Z.to_nat n) with O by lia. reflexivity. Qed.

Lemma ztake_zskip {A} n (l : list A) : ztake n l ++ zskip n l = l.
Proof. apply firstn_skipn. Qed.

Lemma skipn_skipn {A} (a b : nat) (l : list A) : skipn a (skipn b l) = skipn (a + b) l.
Proof.
  revert l; induction b as [|b IH]; intros l.
  - rewrite Nat.add_0_r. reflexivity.
  - replace (a + S b)%nat with (S (a + b)) by lia. destruct l as [|x l]; cbn [skipn]; [apply skipn_nil | apply IH].
Qed.

Lemma zskip_zskip {A} a b (l : list A) : 0 <= a -> 0 <= b -> zskip a (zskip b l) = zskip (a + b) l.
Proof.
  intros Ha Hb. unfold zskip. rewrite skipn_skipn. f_equal. lia.
Qed.

Lemma bytes_take n l : bytes l -> bytes (ztake n l).
Proof. intros H. rewrite <- (ztake_zskip n l) in H. apply bytes_app in H. tauto. Qed.

Lemma bytes_skip n l : bytes l -> bytes (zskip n l).
Proof. intros H. rewrite <- (ztake_zskip n l) in H. apply bytes_app in H. tauto. Qed.

Lemma cstring_skip n l : cstring l -> cstring (zskip n l).
Proof. intros H. rewrite <- (ztake_zskip n l) in H. apply cstring_app in H. tauto. Qed.

Lemma cstring_take n l : cstring l -> cstring (ztake n l).
Proof. intros H. rewrite <- (ztake_zskip n l) in H. apply cstring_app in H. tauto. Qed.

(** ** C strings in memory *)

Lemma cstr_app s r : cstring s -> cstr (s ++ 0 :: r) = s.
Proof.
  induction s as [|c s IH]; intros H; cbn [app cstr]; [reflexivity|].
  inversion H as [|? ? Hc Hs]; subst. unfold is_cchar in Hc.
  destruct (Z.eqb_spec c 0); [lia|]. rewrite IH by assumption. reflexivity.
Qed.

Lemma cstr_id s : cstring s -> cstr s = s.
Proof.
  induction s as [|c s IH]; intros H; cbn [cstr]; [reflexivity|].
  inversion H as [|? ? Hc Hs]; subst. unfold is_cchar in Hc.
  destruct (Z.eqb_spec c 0); [lia|]. rewrite IH by assumption. reflexivity.
Qed.

Lemma cstr_len l : zlen (cstr l) <= zlen l.
Proof.
  induction l as [|c r IH]; cbn [cstr]; [lia|].
  destruct (c =? 0); rewrite ?zlen_cons; [change (zlen (@nil Z)) with 0; pose proof (zlen_nonneg r); lia|lia].
Qed.

Lemma cstr_split l : zlen (cstr l) < zlen l -> exists r, l = cstr l ++ 0 :: r.
Proof.
  induction l as [|c r IH]; cbn [cstr]; [lia|].
  destruct (Z.eqb_spec c 0) as [->|Hc]; intros H.
  - exists r. reflexivity.
  - rewrite !zlen_cons in H. destruct IH as [q Hq]; [lia|]. exists q. cbn [app]. f_equal. exact Hq.
Qed.

Lemma cstr_app_nz a r : Forall (fun c => c <> 0) a -> cstr (a ++ r) = a ++ cstr r.
Proof.
  induction a as [|c a IH]; intros H; cbn [app cstr]; [reflexivity|].
  inversion H as [|? ? Hc Hs]; subst.
  destruct (Z.eqb_spec c 0); [lia|]. rewrite IH by assumption. reflexivity.
Qed.

Lemma cstr_nz l : Forall (fun c => c <> 0) (cstr l).
Proof.
  induction l as [|c r IH]; cbn [cstr]; [constructor|].
  destruct (Z.eqb_spec c 0); [constructor|constructor; assumption].
Qed.

Lemma cstr_cstring l : bytes l -> cstring (cstr l).
Proof.
  induction l as [|c r IH]; intros H; cbn [cstr]; [constructor|].
  inversion H as [|? ? Hc Hr]; subst. unfold is_byte in Hc.
  destruct (Z.eqb_spec c 0); constructor; [unfold is_cchar; lia|]. apply IH, Hr.
Qed.

Lemma zrepeat_S {A} (x : A) n : 0 <= n -> zrepeat x (n + 1) = x :: zrepeat x n.
Proof. intros H. unfold zrepeat. replace (Z.to_nat (n + 1)) with (S (Z.to_nat n)) by lia. reflexivity. Qed.

(** ** Buffers *)

Lemma bput_len dst i bs : 0 <= i -> i + zlen bs <= zlen dst -> zlen (bput dst i bs) = zlen dst.
Proof.
  intros Hi H. unfold bput. pose proof (zlen_nonneg bs).
  rewrite !zlen_app, zlen_take, zlen_skip by lia. lia.
Qed.

Lemma bput_0 dst bs : bput dst 0 bs = bs ++ zskip (zlen bs) dst.
Proof. unfold bput. rewrite ztake_0 by lia. reflexivity. Qed.

Lemma bput_take dst i bs n : 0 <= i -> n <= i -> i <= zlen dst -> ztake n (bput dst i bs) = ztake n dst.
Proof.
  intros Hi Hn Hd. unfold bput. rewrite ztake_app_l.
  - unfold ztake. rewrite firstn_firstn. f_equal. lia.
  - rewrite zlen_take; lia.
Qed.

Lemma cstr_bput_0 dst t : cstring t -> cstr (bput dst 0 (t ++ [0])) = t.
Proof. intros H. rewrite bput_0, <- app_assoc. apply cstr_app, H. Qed.

Lemma ztake_bput_0 dst t u : ztake (zlen t) (bput dst 0 (t ++ u)) = t.
Proof. rewrite bput_0, <- app_assoc. apply ztake_app_len. reflexivity. Qed.

Lemma bput_bytes dst i bs : bytes dst -> bytes bs -> bytes (bput dst i bs).
Proof.
  intros Hd Hb. unfold bput. apply bytes_app. split; [apply bytes_take, Hd|].
  apply bytes_app. split; [exact Hb | apply bytes_skip, Hd].
Qed.

(** ** Memory fields *)
Lemma take4_le x rest : ztake 4 (le 4 x ++ rest) = le 4 x.
Proof. apply ztake_app_len. rewrite le_zlen. reflexivity. Qed.
Lemma take8_le x rest : ztake 8 (le 8 x ++ rest) = le 8 x.
Proof. apply ztake_app_len. rewrite le_zlen. reflexivity. Qed.
Lemma skip4_le x rest : zskip 4 (le 4 x ++ rest) = rest.
Proof. apply zskip_app_len. rewrite le_zlen. reflexivity. Qed.

Lemma unle4 x : unle (le 4 x) = x mod 4294967296.
Proof. rewrite unle_le. reflexivity. Qed.
Lemma unle8 x : unle (le 8 x) = x mod 18446744073709551616.
Proof. rewrite unle_le. reflexivity. Qed.

Lemma isin_true t l : isin t l = true <-> In t l.
Proof.
  unfold isin. rewrite existsb_exists. split.
  - intros [x [Hx He]]. apply Z.eqb_eq in He. subst. exact Hx.
  - intros H. exists t. split; [exact H | apply Z.eqb_refl].
Qed.
