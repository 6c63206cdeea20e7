(** Proofs about [StrWrite] and [streq]. *)
From Verif Require Import Base BaseFacts StrSpec StrTools.

Lemma same_iff a : forall b, same_text a b = true <-> a = b.
Proof.
  induction a as [|x a IH]; intros [|y b]; cbn [same_text]; try (split; [discriminate|discriminate]); [split; reflexivity|].
  rewrite andb_true_iff, IH, Z.eqb_eq. split; [intros [-> ->]; reflexivity|intros [= -> ->]; auto].
Qed.


Lemma streq_iff a b : streq a b = true <-> text_of a = text_of b.
Proof.
  destruct a as [a|], b as [b|]; cbn [streq text_of].
  - apply same_iff.
  - destruct a; split; congruence.
  - destruct b; split; congruence.
  - split; reflexivity.
Qed.

Lemma strncpy_whole s r : cstring s -> strncpy (List.length s) (s ++ r) = s.
Proof.
  induction s as [|c s IH]; intros Hs; cbn [List.length strncpy app]; [destruct r; reflexivity|]. inversion Hs as [|? ? Hc Hr]; subst.
  unfold is_cchar in Hc. destruct (Z.eqb_spec c 0); [lia|]. rewrite IH by exact Hr. reflexivity.
Qed.

Lemma strlen_whole s r : cstring s -> strlen (s ++ 0 :: r) = zlen s.
Proof.
  induction s as [|c s IH]; intros Hs; cbn [strlen app]; [reflexivity|]. inversion Hs as [|? ? Hc Hr]; subst.
  unfold is_cchar in Hc. destruct (Z.eqb_spec c 0); [lia|]. rewrite IH by exact Hr. rewrite zlen_cons. reflexivity.
Qed.

Lemma s32_small n : 0 <= n <= INT_MAX -> s32 n = n.
Proof. unfold INT_MAX, s32. intros H. rewrite Z.mod_small by lia. lia. Qed.

Lemma strwrite_fits dest s r : cstring s -> zlen s <= zlen dest <= INT_MAX ->
  StrWrite dest (s ++ r) (Some (zlen s)) = Ok (true, s ++ zskip (zlen s) dest, zlen s, Some r).
Proof.
  intros Hs [Hl Hm]. pose proof (zlen_nonneg s). unfold StrWrite. cbv zeta. rewrite !s32_small by lia. destruct (Z.ltb_spec (zlen dest) (zlen s)); [lia|]. destruct (Z.ltb_spec (zlen s) 0); [lia|].
  replace (Z.to_nat (zlen s)) with (List.length s) by (unfold zlen; lia). rewrite strncpy_whole by exact Hs.
  replace (zskip (zlen s) (s ++ r)) with r; [reflexivity|]. unfold zskip, zlen. rewrite Nat2Z.id. rewrite skipn_app, Nat.sub_diag, skipn_all. reflexivity.
Qed.

Lemma strwrite_full dest src n : zlen dest < n <= INT_MAX -> StrWrite dest src (Some n) = Ok (false, dest, 0, Some src).
Proof.
  intros [Hl Hm]. pose proof (zlen_nonneg dest). unfold StrWrite. cbv zeta. rewrite !s32_small by lia. destruct (Z.ltb_spec (zlen dest) n); [reflexivity|lia].
Qed.

Lemma strwrite_null dest s r : cstring s -> zlen s <= zlen dest <= INT_MAX ->
  StrWrite dest (s ++ 0 :: r) None = Ok (true, s ++ zskip (zlen s) dest, zlen s, None).
Proof.
  intros Hs [Hl Hm]. pose proof (zlen_nonneg s). unfold StrWrite. cbv zeta. rewrite strlen_whole by exact Hs. rewrite !s32_small by lia. destruct (Z.ltb_spec (zlen dest) (zlen s)); [lia|]. destruct (Z.ltb_spec (zlen s) 0); [lia|].
  replace (Z.to_nat (zlen s)) with (List.length s) by (unfold zlen; lia). rewrite strncpy_whole by exact Hs. reflexivity.
Qed.

Lemma ztake_app_len (s r : list Z) : ztake (zlen s) (s ++ r) = s.
Proof. unfold ztake, zlen. rewrite Nat2Z.id, firstn_app, Nat.sub_diag, firstn_all. cbn [firstn]. apply app_nil_r. Qed.
Lemma zskip_app_len (s r : list Z) : zskip (zlen s) (s ++ r) = r.
Proof. unfold zskip, zlen. rewrite Nat2Z.id, skipn_app, Nat.sub_diag, skipn_all. reflexivity. Qed.
Lemma zskip_len n (l : list Z) : 0 <= n <= zlen l -> zlen (zskip n l) = zlen l - n.
Proof. intros H. unfold zskip, zlen in *. rewrite skipn_length. lia. Qed.

Lemma write_all_ok pieces : forall dest, Forall cstring pieces -> zlen dest <= INT_MAX -> Forall (fun s => zlen s <= INT_MAX) pieces ->
  write_all dest pieces = if zlen (List.concat pieces) <=? zlen dest then Ok (List.concat pieces) else Fail.
Proof.
  induction pieces as [|s ss IH]; intros dest Hp Hd Hi; cbn [write_all List.concat].
  - pose proof (zlen_nonneg dest). change (zlen (@nil Z)) with 0. destruct (Z.leb_spec 0 (zlen dest)); [reflexivity|lia].
  - inversion Hp as [|? ? Hs Hss]; subst. inversion Hi as [|? ? His Hiss]; subst. cbv beta in His. rewrite zlen_app. pose proof (zlen_nonneg (List.concat ss)) as C0. pose proof (zlen_nonneg s) as S0.
    destruct (Z_le_gt_dec (zlen s) (zlen dest)) as [L|G].
    + pose proof (strwrite_fits dest s [] Hs ltac:(lia)) as E. rewrite app_nil_r in E. rewrite E. rewrite ztake_app_len, zskip_app_len.
      rewrite IH by (try assumption; rewrite zskip_len; lia). rewrite zskip_len by lia.
      destruct (Z.leb_spec (zlen (List.concat ss)) (zlen dest - zlen s)); destruct (Z.leb_spec (zlen s + zlen (List.concat ss)) (zlen dest)); try lia; reflexivity.
    + rewrite strwrite_full by lia. destruct (Z.leb_spec (zlen s + zlen (List.concat ss)) (zlen dest)); [lia|reflexivity].
Qed.

Lemma strwrite_null_lost : StrWrite (lit "........") (lit "name" ++ [0]) None = Ok (true, lit "name....", 4, None).
Proof. reflexivity. Qed.
Lemma strwrite_nul_inside : StrWrite (lit "........") (lit "a" ++ [0] ++ lit "b") (Some 3) = Ok (true, lit "a" ++ [0; 0] ++ lit ".....", 3, Some []).
Proof. reflexivity. Qed.
