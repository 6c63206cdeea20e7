(** Facts about images: what stands where. *)
From Verif Require Import Base BaseFacts ListFacts Types Sort SortProofs Symtab Xb XbSpec.

Lemma has_range m p bs : has m p bs -> 0 <= p /\ p + zlen bs <= zlen m.
Proof. intros (a & b & -> & <-). rewrite !zlen_app. pose proof (zlen_nonneg a). pose proof (zlen_nonneg b). lia. Qed.
Lemma has_skip m p bs : has m p bs -> exists b, zskip p m = bs ++ b.
Proof. intros (a & b & -> & <-). exists b. apply zskip_app_len. reflexivity. Qed.
Lemma has_slice m p bs : has m p bs -> slice m p (zlen bs) = bs.
Proof. intros H. destruct (has_skip _ _ _ H) as (b & E). unfold slice. rewrite E. apply ztake_app_len. reflexivity. Qed.
Lemma has_rd m p bs : has m p bs -> rd m p (zlen bs) = Ok bs.
Proof.
  intros H. pose proof (has_range _ _ _ H). unfold rd. destruct (Z.leb_spec 0 p); [|lia]. destruct (Z.leb_spec (p + zlen bs) (zlen m)); [|lia]. cbn [andb].
  rewrite (has_slice _ _ _ H). reflexivity.
Qed.
Lemma has_app m p a b : has m p (a ++ b) <-> has m p a /\ has m (p + zlen a) b.
Proof.
  split.
  - intros (u & v & -> & <-). split.
    + exists u, (b ++ v). rewrite !app_assoc. auto.
    + exists (u ++ a), v. rewrite zlen_app, !app_assoc. auto.
  - intros ((u & v & E & <-) & (u' & v' & E' & L)). exists u, v'. split; [|reflexivity]. rewrite E' in E. rewrite E'.
    assert (Hu : u' = u ++ a).
    { assert (H : firstn (List.length u') (u' ++ b ++ v') = u') by (rewrite firstn_app, Nat.sub_diag, firstn_all; cbn; apply app_nil_r).
      rewrite E in H. assert (Hl : List.length u' = List.length (u ++ a)) by (unfold zlen in L; rewrite app_length; lia). rewrite Hl in H. rewrite (app_assoc u a v) in H. rewrite firstn_app, Nat.sub_diag, firstn_all in H. cbn in H. rewrite app_nil_r in H. symmetry. exact H. }
    rewrite Hu, !app_assoc. reflexivity.
Qed.
Lemma has_nil m p : 0 <= p <= zlen m -> has m p [].
Proof. intros H. exists (ztake p m), (zskip p m). cbn [app]. rewrite ztake_zskip. split; [reflexivity|]. rewrite zlen_take; lia. Qed.
Lemma slice_has m p n : 0 <= p -> 0 <= n -> p + n <= zlen m -> has m p (slice m p n).
Proof.
  intros Hp Hn H. exists (ztake p m), (zskip n (zskip p m)). unfold slice. rewrite ztake_zskip, ztake_zskip. split; [reflexivity|]. rewrite zlen_take; lia.
Qed.
Lemma zlen_slice m p n : 0 <= p -> 0 <= n -> p + n <= zlen m -> zlen (slice m p n) = n.
Proof. intros Hp Hn H. unfold slice. rewrite zlen_take; rewrite ?zlen_skip by lia; lia. Qed.
Lemma rd_inv m p n b : 0 <= n -> rd m p n = Ok b -> 0 <= p /\ p + n <= zlen m /\ has m p b /\ zlen b = n.
Proof.
  unfold rd. intros Hn H. destruct (Z.leb_spec 0 p); [|discriminate]. destruct (Z.leb_spec (p + n) (zlen m)); [|discriminate]. cbn [andb] in H. inversion H.
  repeat split; try assumption; [apply slice_has; lia|apply zlen_slice; lia].
Qed.

(** Reading numbers *)
Lemma has_u8 m p v : 0 <= v < 256 -> has m p [v] -> rd_u8 m p = Ok v.
Proof. intros Hv H. unfold rd_u8. change 1 with (zlen [v]). rewrite (has_rd _ _ _ H). cbn [obind unle]. f_equal. lia. Qed.
Lemma has_s16 m p v : -32768 <= v < 32768 -> has m p (le 2 v) -> rd_s16 m p = Ok v.
Proof. intros Hv H. unfold rd_s16. change 2 with (zlen (le 2 v)). rewrite (has_rd _ _ _ H). cbn [obind]. rewrite s16_le by lia. reflexivity. Qed.
Lemma has_s32 m p v : int32 v -> has m p (le 4 v) -> rd_s32 m p = Ok v.
Proof. intros Hv H. unfold rd_s32. change 4 with (zlen (le 4 v)). rewrite (has_rd _ _ _ H). cbn [obind]. rewrite s32_le by exact Hv. reflexivity. Qed.
Lemma has_str m p s : cstring s -> has m p (s ++ [0]) -> rd_str m p = Ok s.
Proof.
  intros Hs H. pose proof (has_range _ _ _ H) as Hr. rewrite zlen_app in Hr. change (zlen [0]) with 1 in Hr. pose proof (zlen_nonneg s). unfold rd_str.
  destruct (Z.leb_spec 0 p); [|lia]. destruct (Z.ltb_spec p (zlen m)); [|lia]. cbn [andb]. destruct (has_skip _ _ _ H) as (b & ->). rewrite <- app_assoc. cbn [app].
  rewrite cstr_app by exact Hs. destruct (Z.ltb_spec (p + zlen s) (zlen m)); [reflexivity|lia].
Qed.

Lemma cstr_prefix l : exists r, l = cstr l ++ r /\ (r = [] \/ exists r', r = 0 :: r').
Proof.
  induction l as [|c l IH]; [exists []; auto|]. cbn [cstr]. destruct (Z.eqb_spec c 0) as [->|Hc].
  - exists (0 :: l). split; [reflexivity|]. right. eauto.
  - destruct IH as (r & E & H). exists r. split; [cbn [app]; rewrite <- E; reflexivity|exact H].
Qed.
Lemma rd_str_inv m p s : rd_str m p = Ok s -> has m p (s ++ [0]) /\ s = cstr (zskip p m).
Proof.
  unfold rd_str. intros H. destruct (Z.leb_spec 0 p); [|discriminate]. destruct (Z.ltb_spec p (zlen m)); [|discriminate]. cbn [andb] in H.
  destruct (Z.ltb_spec (p + zlen (cstr (zskip p m))) (zlen m)) as [Hl|]; [|discriminate]. inversion H as [E]. split; [|reflexivity].
  destruct (cstr_prefix (zskip p m)) as (r & Er & Hr). exists (ztake p m). destruct Hr as [->|(r' & ->)].
  - rewrite app_nil_r in Er. rewrite <- Er in Hl. rewrite zlen_skip in Hl by lia. lia.
  - exists r'. split; [|rewrite zlen_take; lia]. rewrite <- app_assoc. cbn [app]. rewrite <- Er. symmetry. apply ztake_zskip.
Qed.
Lemma rd_s32_inv m p v : rd_s32 m p = Ok v -> exists b, has m p b /\ zlen b = 4 /\ v = s32 (unle b).
Proof. unfold rd_s32. intros H. destruct (rd m p 4) as [b| |] eqn:E; try discriminate. cbn [obind] in H. inversion H. apply rd_inv in E; [|lia]. exists b. tauto. Qed.
Lemma rd_s32_range m p v : rd_s32 m p = Ok v -> int32 v.
Proof. intros H. apply rd_s32_inv in H. destruct H as (b & _ & _ & ->). unfold s32, int32, INT_MIN, INT_MAX. lia. Qed.
