From Verif Require Import Base BaseFacts ListFacts Sort SortSpec.
From Coq Require Import Permutation Sorted.

Lemma at_app {T} (a : list T) x b i : i = zlen a -> at_ (a ++ x :: b) i = rret x.
Proof.
  intros ->. unfold at_. pose proof (zlen_nonneg a). destruct (Z.ltb_spec (zlen a) 0); [lia|].
  unfold zlen. rewrite Nat2Z.id, nth_error_app2, Nat.sub_diag by lia. reflexivity.
Qed.
Lemma put_app {T} (a : list T) x b y i : i = zlen a -> put (a ++ x :: b) i y = rret (a ++ y :: b).
Proof.
  intros ->. unfold put. pose proof (zlen_nonneg a). pose proof (zlen_nonneg b). rewrite zlen_app, zlen_cons.
  replace ((zlen a <? 0) || (zlen a + (1 + zlen b) <=? zlen a)) with false by lia.
  rewrite ztake_app_len by reflexivity. rewrite zskip_app_ge by lia. replace (zlen a + 1 - zlen a) with 1 by lia. reflexivity.
Qed.

Lemma rbind_ret {A B} (x : A) (f : A -> run B) : rbind (rret x) f = f x.
Proof. reflexivity. Qed.
Ltac rb := rewrite ?rbind_ret; cbv beta.

Section MERGE.
Context {T : Type} (cmp : T -> T -> Z).
Context (Hpre : total_preorder cmp).

Lemma cmp_flip x y : cmp x y <= 0 -> 0 <= cmp y x.
Proof. intros H. destruct Hpre as [P _]. specialize (P x y). lia. Qed.
Lemma cmp_gt x y : 0 < cmp x y -> cmp y x < 0.
Proof. intros H. destruct Hpre as [P _]. specialize (P x y). lia. Qed.
Lemma cmp_trans x y z : cmp x y <= 0 -> cmp y z <= 0 -> cmp x z <= 0.
Proof. destruct Hpre as [_ P]. apply P. Qed.
Lemma cmp_refl x : cmp x x = 0.
Proof. destruct Hpre as [P _]. specialize (P x x). lia. Qed.
Lemma cmp_lt_trans x y z : cmp x y < 0 -> cmp y z <= 0 -> cmp x z < 0.
Proof.
  intros H1 H2. pose proof (cmp_trans x y z ltac:(lia) H2). destruct (Z.eq_dec (cmp x z) 0) as [E|]; [|lia].
  destruct Hpre as [P _]. pose proof (P x z). assert (cmp z x <= 0) by lia. pose proof (cmp_trans y z x H2 H3). pose proof (P x y). lia.
Qed.
Lemma cmp_eq_class x y z : cmp x y = 0 -> cmp x z = 0 -> cmp y z = 0.
Proof.
  intros H1 H2. destruct Hpre as [P _]. pose proof (P x y). pose proof (P x z).
  pose proof (cmp_trans y x z ltac:(lia) ltac:(lia)). pose proof (cmp_trans z x y ltac:(lia) ltac:(lia)). pose proof (P y z). lia.
Qed.

(** ** The merge of two lists *)
Fixpoint merge (n : nat) (a b : list T) : list T :=
  match n with
  | O => []
  | S k =>
      match a, b with
      | x :: a', y :: b' => if cmp x y <=? 0 then x :: merge k a' b else y :: merge k a b'
      | x :: a', [] => x :: merge k a' []
      | [], y :: b' => y :: merge k [] b'
      | [], [] => []
      end
  end.

Lemma merge_perm n : forall a b, (List.length a + List.length b <= n)%nat -> Permutation (a ++ b) (merge n a b).
Proof.
  induction n as [|n IH]; intros a b H; [destruct a, b; cbn in H; try lia; constructor|].
  destruct a as [|x a], b as [|y b]; cbn [merge app].
  - constructor.
  - constructor. apply (IH [] b). cbn in *. lia.
  - constructor. apply (IH a []). cbn in *. lia.
  - destruct (cmp x y <=? 0).
    + constructor. apply IH. cbn in *. lia.
    + etransitivity; [|constructor; apply IH; cbn in *; lia]. change (x :: a ++ y :: b) with ((x :: a) ++ y :: b). symmetry. apply Permutation_middle.
Qed.

Lemma merge_length n a b : (List.length a + List.length b <= n)%nat -> zlen (merge n a b) = zlen a + zlen b.
Proof. intros H. unfold zlen. rewrite <- (Permutation_length (merge_perm n a b H)), app_length. lia. Qed.

Lemma merge_ordered n : forall a b, (List.length a + List.length b <= n)%nat -> ordered cmp a -> ordered cmp b -> ordered cmp (merge n a b).
Proof.
  induction n as [|n IH]; intros a b H Ha Hb; [constructor|].
  destruct a as [|x a], b as [|y b]; cbn [merge]; [constructor|..].
  - inversion Hb as [|? ? Hs Hf]; subst. constructor; [apply IH; [cbn in *; lia|constructor|exact Hs]|].
    eapply Permutation_Forall; [apply merge_perm; cbn in *; lia|exact Hf].
  - inversion Ha as [|? ? Hs Hf]; subst. constructor; [apply IH; [cbn in *; lia|exact Hs|constructor]|].
    eapply Permutation_Forall; [apply merge_perm; cbn in *; lia|]. rewrite app_nil_r. exact Hf.
  - inversion Ha as [|? ? Hsa Hfa]; subst. inversion Hb as [|? ? Hsb Hfb]; subst. destruct (Z.leb_spec (cmp x y) 0) as [Hc|Hc].
    + constructor; [apply IH; [cbn in *; lia|exact Hsa|exact Hb]|].
      eapply Permutation_Forall; [apply merge_perm; cbn in *; lia|]. apply Forall_app. split; [exact Hfa|].
      constructor; [exact Hc|]. eapply Forall_impl; [|exact Hfb]. intros z Hz. cbn in Hz. eapply cmp_trans; eassumption.
    + constructor; [apply IH; [cbn in *; lia|exact Ha|exact Hsb]|].
      eapply Permutation_Forall; [apply merge_perm; cbn in *; lia|]. apply Forall_app. split; [|exact Hfb].
      apply cmp_gt in Hc. constructor; [lia|]. eapply Forall_impl; [|exact Hfa]. intros z Hz. cbn in Hz. eapply cmp_trans; [|exact Hz]. lia.
Qed.

Lemma filter_none {A} (f : A -> bool) l : Forall (fun x => f x = false) l -> filter f l = [].
Proof. induction 1 as [|x l Hx _ IH]; [reflexivity|]. cbn. rewrite Hx. exact IH. Qed.

Lemma merge_stable n : forall a b, (List.length a + List.length b <= n)%nat -> ordered cmp a -> ordered cmp b ->
  same_order_of_equals cmp (a ++ b) (merge n a b).
Proof.
  induction n as [|n IH]; intros a b H Ha Hb v; [destruct a, b; cbn in H; try lia; reflexivity|].
  destruct a as [|x a], b as [|y b]; cbn [merge app]; [reflexivity|..].
  - inversion Hb; subst. cbn [filter]. specialize (IH [] b). cbn [app] in IH. rewrite (IH ltac:(cbn in *; lia) ltac:(constructor) ltac:(assumption) v). reflexivity.
  - inversion Ha; subst. cbn [filter]. rewrite (IH a [] ltac:(cbn in *; lia) ltac:(assumption) ltac:(constructor) v). reflexivity.
  - inversion Ha as [|? ? Hsa Hfa]; subst. inversion Hb as [|? ? Hsb Hfb]; subst. destruct (Z.leb_spec (cmp x y) 0) as [Hc|Hc].
    + cbn [filter]. rewrite (IH a (y :: b) ltac:(cbn in *; lia) Hsa Hb v). reflexivity.
    + specialize (IH (x :: a) b ltac:(cbn in *; lia) Ha Hsb v).
      change (x :: a ++ y :: b) with ((x :: a) ++ y :: b). remember (x :: a) as xa eqn:Exa.
      rewrite filter_app in *. cbn [filter]. rewrite <- IH. destruct (Z.eqb_spec (cmp v y) 0) as [E|E]; [|reflexivity].
      (* [y] passes the left run, none of which is in its class *)
      assert (Hnone : filter (fun z => cmp v z =? 0) xa = []).
      { apply filter_none. apply cmp_gt in Hc. subst xa.
        assert (Hlt : forall z, cmp y z < 0 -> (cmp v z =? 0) = false). { intros z Hz. apply Z.eqb_neq. intros E2. pose proof (cmp_eq_class v y z E E2). lia. }
        constructor; [apply Hlt, Hc|]. eapply Forall_impl; [|exact Hfa]. intros z Hz. apply Hlt. eapply cmp_lt_trans; [exact Hc|exact Hz]. }
      rewrite Hnone. reflexivity.
Qed.

(** ** The merging loop of the model *)

Lemma run_split (src : list T) A AE : 0 <= A -> A < AE -> AE <= zlen src ->
  exists x, src = ztake A src ++ x :: zskip (A + 1) src /\ zskip A (ztake AE src) = x :: zskip (A + 1) (ztake AE src).
Proof.
  intros H0 H1 H2. destruct (zskip A (ztake AE src)) as [|x r] eqn:E.
  { exfalso. apply (f_equal zlen) in E. rewrite zlen_skip, zlen_take in E by (rewrite ?zlen_take; lia). change (zlen (@nil T)) with 0 in E. lia. }
  exists x. assert (Hr : r = zskip (A + 1) (ztake AE src)).
  { replace (A + 1) with (1 + A) by lia. rewrite <- zskip_zskip by lia. rewrite E. reflexivity. }
  rewrite <- Hr. split; [|reflexivity].
  assert (Hs : zskip A src = x :: (r ++ zskip AE src)).
  { transitivity (zskip A (ztake AE src ++ zskip AE src)); [rewrite ztake_zskip; reflexivity|].
    rewrite zskip_app_le by (rewrite zlen_take; lia). rewrite E. reflexivity. }
  rewrite <- (ztake_zskip A src) at 1. rewrite Hs. f_equal. f_equal.
  replace (A + 1) with (1 + A) by lia. rewrite <- zskip_zskip by lia. rewrite Hs. reflexivity.
Qed.

Lemma merge_loop_ok src AE BE : AE <= zlen src -> BE <= zlen src -> forall fuel A B done rest,
  0 <= A <= AE -> 0 <= B <= BE -> (AE - A) + (BE - B) <= zlen rest -> (Z.to_nat ((AE - A) + (BE - B)) < fuel)%nat ->
  let out := merge (Z.to_nat ((AE - A) + (BE - B))) (zskip A (ztake AE src)) (zskip B (ztake BE src)) in
  merge_loop cmp fuel src (done ++ rest) A AE B BE (zlen done) =
  rret (done ++ out ++ zskip ((AE - A) + (BE - B)) rest, zlen done + (AE - A) + (BE - B)).
Proof.
  intros HAE HBE. induction fuel as [|k IH]; intros A B done rest HA HB Hrest Hf out; [lia|].
  assert (Hput : forall x, 0 < (AE - A) + (BE - B) -> exists y rest', rest = y :: rest' /\
      put (done ++ rest) (zlen done) x = rret ((done ++ [x]) ++ rest') /\ zlen rest' = zlen rest - 1).
  { intros x Hpos. destruct rest as [|y rest']; [change (zlen (@nil T)) with 0 in Hrest; lia|]. exists y, rest'. split; [reflexivity|].
    rewrite put_app by reflexivity. rewrite <- app_assoc. split; [reflexivity|]. rewrite zlen_cons. lia. }
  assert (Hdone : forall x, zlen done + 1 = zlen (done ++ [x])) by (intros x; rewrite zlen_app, zlen_cons; change (zlen (@nil T)) with 0; lia).
  assert (Hskip : forall n (y : T) r, 0 < n -> zskip n (y :: r) = zskip (n - 1) r).
  { intros n y r Hn. unfold zskip. replace (Z.to_nat n) with (S (Z.to_nat (n - 1))) by lia. reflexivity. }
  cbn [merge_loop]. destruct (Z.ltb_spec A AE) as [H1|H1].
  - destruct (run_split src A AE ltac:(lia) H1 HAE) as (a & Ea & Eta).
    assert (Hata : at_ src A = rret a) by (rewrite Ea; apply at_app; rewrite zlen_take; lia).
    rewrite Hata. rb.
    destruct (Z.ltb_spec B BE) as [H2|H2].
    + destruct (run_split src B BE ltac:(lia) H2 HBE) as (b & Eb & Etb).
      assert (Hatb : at_ src B = rret b) by (rewrite Eb; apply at_app; rewrite zlen_take; lia).
      rewrite Hatb. rb.
      subst out. replace (Z.to_nat (AE - A + (BE - B))) with (S (Z.to_nat (AE - A + (BE - B) - 1))) by lia. rewrite Eta, Etb. cbn [merge]. destruct (cmp a b <=? 0).
      * destruct (Hput a ltac:(lia)) as (y & r & -> & -> & Hl). rb. rewrite (Hdone a).
        rewrite IH by (try lia; rewrite zlen_cons in *; lia). rewrite <- Etb.
        replace (AE - (A + 1) + (BE - B)) with (AE - A + (BE - B) - 1) by lia. rewrite <- (Hdone a), (Hskip _ y r) by lia.
        rewrite <- !app_assoc. cbn [app]. apply (f_equal2 (fun (p : list T) (q : Z) => rret (p, q))); [reflexivity|lia].
      * destruct (Hput b ltac:(lia)) as (y & r & -> & -> & Hl). rb. rewrite (Hdone b).
        rewrite IH by (try lia; rewrite zlen_cons in *; lia). rewrite <- Eta.
        replace (AE - A + (BE - (B + 1))) with (AE - A + (BE - B) - 1) by lia. rewrite <- (Hdone b), (Hskip _ y r) by lia.
        rewrite <- !app_assoc. cbn [app]. apply (f_equal2 (fun (p : list T) (q : Z) => rret (p, q))); [reflexivity|lia].
    + assert (B = BE) by lia. subst B. assert (Hn : zskip BE (ztake BE src) = []) by (apply zskip_all; rewrite zlen_take; lia).
      subst out. replace (Z.to_nat (AE - A + (BE - BE))) with (S (Z.to_nat (AE - A + (BE - BE) - 1))) by lia. rewrite Eta, Hn. cbn [merge].
      destruct (Hput a ltac:(lia)) as (y & r & -> & -> & Hl). rb. rewrite (Hdone a).
      rewrite IH by (try lia; rewrite zlen_cons in *; lia). rewrite Hn.
      replace (AE - (A + 1) + (BE - BE)) with (AE - A + (BE - BE) - 1) by lia. rewrite <- (Hdone a), (Hskip _ y r) by lia.
      rewrite <- !app_assoc. cbn [app]. apply (f_equal2 (fun (p : list T) (q : Z) => rret (p, q))); [reflexivity|lia].
  - assert (A = AE) by lia. subst A. assert (Hn : zskip AE (ztake AE src) = []) by (apply zskip_all; rewrite zlen_take; lia).
    destruct (Z.ltb_spec B BE) as [H2|H2].
    + destruct (run_split src B BE ltac:(lia) H2 HBE) as (b & Eb & Etb).
      assert (Hatb : at_ src B = rret b) by (rewrite Eb; apply at_app; rewrite zlen_take; lia).
      rewrite Hatb. rb.
      subst out. replace (Z.to_nat (AE - AE + (BE - B))) with (S (Z.to_nat (AE - AE + (BE - B) - 1))) by lia. rewrite Hn, Etb. cbn [merge].
      destruct (Hput b ltac:(lia)) as (y & r & -> & -> & Hl). rb. rewrite (Hdone b).
      rewrite IH by (try lia; rewrite zlen_cons in *; lia). rewrite Hn.
      replace (AE - AE + (BE - (B + 1))) with (AE - AE + (BE - B) - 1) by lia. rewrite <- (Hdone b), (Hskip _ y r) by lia.
      rewrite <- !app_assoc. cbn [app]. apply (f_equal2 (fun (p : list T) (q : Z) => rret (p, q))); [reflexivity|lia].
    + assert (B = BE) by lia. subst B. subst out. replace (AE - AE + (BE - BE)) with 0 by lia.
      rewrite zskip_0. cbn [merge app Z.to_nat]. apply (f_equal2 (fun (p : list T) (q : Z) => rret (p, q))); [reflexivity|lia].
Qed.

(** ** One pass *)

(** All aligned runs of length [m] are ordered. *)
Definition runs (m : Z) (l : list T) : Prop := forall k, 0 <= k -> ordered cmp (ztake m (zskip (k * m) l)).

Lemma ordered_app_r a b : ordered cmp (a ++ b) -> ordered cmp b.
Proof. induction a as [|x a IH]; [auto|]. intros H. inversion H; auto. Qed.
Lemma ordered_app_l a b : ordered cmp (a ++ b) -> ordered cmp a.
Proof.
  induction a as [|x a IH]; intros H; [constructor|]. inversion H as [|? ? Hs Hf]; subst. constructor; [apply IH, Hs|].
  apply Forall_app in Hf. apply Hf.
Qed.

(** What a pass makes of the part of the array from a run boundary on. *)
Record pass_result (m : Z) (input output : list T) : Prop := {
  pr_perm : Permutation input output;
  pr_stable : same_order_of_equals cmp input output;
  pr_runs : runs (2 * m) output
}.

Lemma int_ok_small x : int32 x -> int_ok x = rret x.
Proof. intros H. unfold int_ok. assert (int32b x = true) as -> by (unfold int32, int32b, INT_MIN, INT_MAX in *; lia). reflexivity. Qed.

Lemma pass_loop_ok src m : 0 < m -> m <= 2 ^ 29 -> zlen src <= 2 ^ 30 -> m < zlen src -> runs m src ->
  forall fuel start done rest, 0 <= start -> (exists j, 0 <= j /\ start = 2 * m * j) -> start < zlen src + 2 * m ->
  zlen done = Z.min start (zlen src) -> zlen rest = zlen src - zlen done ->
  (Z.to_nat (zlen src - start) < fuel)%nat ->
  exists out, pass_loop cmp fuel (zlen src) m src (done ++ rest) (zlen done) start = rret (done ++ out) /\
    pass_result m (zskip start src) out.
Proof.
  intros Hm Hm2 Hn Hmn Hruns. change (2 ^ 30) with 1073741824 in *. change (2 ^ 29) with 536870912 in *. induction fuel as [|k IH]; intros start done rest H0 (j & Hj & Hstart) Hlt Hdone Hrest Hf; [lia|].
  cbn [pass_loop]. destruct (Z.ltb_spec start (zlen src)) as [H1|H1].
  2: { assert (Hr : rest = []). { destruct rest; [reflexivity|]. rewrite zlen_cons in Hrest. pose proof (zlen_nonneg rest). lia. }
       subst rest. exists []. split; [reflexivity|]. rewrite zskip_all by lia. split; [constructor|intros x; reflexivity|].
       intros i Hi. unfold zskip, ztake. rewrite skipn_nil, firstn_nil. constructor. }
  rewrite int_ok_small by (unfold int32; lia). rb.
  set (AE := if zlen src <? start + m then zlen src else start + m).
  assert (HAE : AE = Z.min (start + m) (zlen src)) by (unfold AE; destruct (Z.ltb_spec (zlen src) (start + m)); lia).
  rewrite int_ok_small by (unfold int32; lia). rb.
  set (BE := if zlen src <? AE + m then zlen src else AE + m).
  assert (HBE : BE = Z.min (AE + m) (zlen src)) by (unfold BE; destruct (Z.ltb_spec (zlen src) (AE + m)); lia).
  replace (Z.min start (zlen src)) with start in Hdone by lia.
  rewrite (merge_loop_ok src AE BE ltac:(lia) ltac:(lia)) by (try lia; unfold zlen in *; lia). rb.
  set (n1 := Z.to_nat (AE - start + (BE - AE))).
  set (ra := zskip start (ztake AE src)). set (rb := zskip AE (ztake BE src)).
  assert (Hra : ra = ztake m (zskip start src)).
  { unfold ra, zskip, ztake. rewrite HAE. rewrite firstn_skipn_comm. destruct (Z.le_gt_cases (start + m) (zlen src)).
    - replace (Z.to_nat (Z.min (start + m) (zlen src))) with (Z.to_nat start + Z.to_nat m)%nat by lia. reflexivity.
    - rewrite !firstn_all2; [reflexivity|unfold zlen in *; lia|unfold zlen in *; lia]. }
  assert (Hrb : rb = ztake m (zskip (start + m) src)).
  { unfold rb. rewrite HBE, HAE. destruct (Z.le_gt_cases (start + m) (zlen src)).
    - rewrite (Z.min_l (start + m)) by lia. unfold zskip, ztake. rewrite firstn_skipn_comm. destruct (Z.le_gt_cases (start + m + m) (zlen src)).
      + rewrite Z.min_l by lia. replace (Z.to_nat (start + m + m)) with (Z.to_nat (start + m) + Z.to_nat m)%nat by lia. reflexivity.
      + rewrite Z.min_r by lia. rewrite !firstn_all2; [reflexivity|unfold zlen in *; lia|unfold zlen in *; lia].
    - rewrite (Z.min_r (start + m)) by lia. rewrite (zskip_all (zlen src)) by (rewrite zlen_take; lia). rewrite (zskip_all (start + m)) by lia.
      unfold ztake. rewrite firstn_nil. reflexivity. }
  assert (Oa : ordered cmp ra). { rewrite Hra. replace start with (2 * j * m) by lia. apply Hruns. lia. }
  assert (Ob : ordered cmp rb). { rewrite Hrb. replace (start + m) with ((2 * j + 1) * m) by lia. apply Hruns. lia. }
  assert (La : zlen ra = AE - start) by (unfold ra; rewrite zlen_skip, zlen_take by (rewrite ?zlen_take; lia); lia).
  assert (Lb : zlen rb = BE - AE) by (unfold rb; rewrite zlen_skip, zlen_take by (rewrite ?zlen_take; lia); lia).
  assert (Hn1 : (List.length ra + List.length rb <= n1)%nat) by (unfold n1, zlen in *; lia).
  rewrite int_ok_small by (unfold int32; lia). rb. rewrite int_ok_small by (unfold int32; lia). rb.
  assert (Lm : zlen (merge n1 ra rb) = BE - start) by (rewrite merge_length by exact Hn1; lia).
  rewrite app_assoc. replace (zlen done + (AE - start) + (BE - AE)) with (zlen (done ++ merge n1 ra rb)) by (rewrite zlen_app; lia).
  replace (AE - start + (BE - AE)) with (BE - start) by lia.
  destruct (IH (start + m * 2) (done ++ merge n1 ra rb) (zskip (BE - start) rest)) as (out & Hout & [Pp Ps Pr]).
  { lia. } { exists (j + 1). lia. } { lia. } { rewrite zlen_app, Lm. lia. } { rewrite zlen_app, zlen_skip, Lm by lia. lia. } { lia. }
  rewrite Hout. exists (merge n1 ra rb ++ out). split; [rewrite app_assoc; reflexivity|].
  assert (Hsplit : zskip start src = (ra ++ rb) ++ zskip (start + m * 2) src).
  { rewrite Hra, Hrb. rewrite <- app_assoc. rewrite <- (ztake_zskip m (zskip start src)) at 1. f_equal.
    rewrite zskip_zskip by lia. replace (m + start) with (start + m) by lia.
    rewrite <- (ztake_zskip m (zskip (start + m) src)) at 1. f_equal. rewrite zskip_zskip by lia. f_equal. lia. }
  split.
  - rewrite Hsplit. apply Permutation_app; [apply merge_perm, Hn1|exact Pp].
  - intros x. rewrite Hsplit. rewrite !filter_app. rewrite <- (Ps x), <- (merge_stable n1 ra rb Hn1 Oa Ob x). rewrite filter_app. reflexivity.
  - intros i Hi.
    assert (Lo : zlen out = Z.max 0 (zlen src - (start + m * 2))).
    { unfold zlen at 1. rewrite <- (Permutation_length Pp). change (Z.of_nat (List.length (zskip (start + m * 2) src))) with (zlen (zskip (start + m * 2) src)).
      destruct (Z.le_gt_cases (start + m * 2) (zlen src)); [rewrite zlen_skip by lia; lia|rewrite zskip_all by lia; change (zlen (@nil T)) with 0; lia]. }
    destruct (Z.le_gt_cases (start + 2 * m) (zlen src)) as [Hfull|Hpart].
    + assert (Lm2 : zlen (merge n1 ra rb) = 2 * m) by lia. destruct (Z.eq_dec i 0) as [->|Hi0].
      * rewrite Z.mul_0_l, zskip_0. rewrite ztake_app_len by lia. apply merge_ordered; assumption.
      * rewrite zskip_app_ge by nia. replace (i * (2 * m) - zlen (merge n1 ra rb)) with ((i - 1) * (2 * m)) by lia. apply Pr. lia.
    + assert (Hout0 : out = []). { destruct out; [reflexivity|]. rewrite zlen_cons in Lo. pose proof (zlen_nonneg out). lia. }
      rewrite Hout0, app_nil_r.
      assert (Om : ordered cmp (merge n1 ra rb)) by (apply merge_ordered; assumption).
      rewrite <- (ztake_zskip (i * (2 * m)) (merge n1 ra rb)) in Om. apply ordered_app_r in Om.
      rewrite <- (ztake_zskip (2 * m) (zskip (i * (2 * m)) (merge n1 ra rb))) in Om. apply ordered_app_l in Om. exact Om.
Qed.

Lemma runs_one l : runs 1 l.
Proof.
  intros k Hk. unfold ztake. destruct (zskip (k * 1) l) as [|x r]; [constructor|]. cbn. constructor; constructor.
Qed.
Lemma runs_all m l : zlen l <= m -> runs m l -> ordered cmp l.
Proof. intros H R. specialize (R 0 ltac:(lia)). rewrite Z.mul_0_l, zskip_0, ztake_all in R by assumption. exact R. Qed.

Lemma passes_ok n base : n = zlen base -> n <= 2 ^ 30 -> forall fuel m src dst flag,
  0 < m -> (exists e, 0 <= e /\ m = 2 ^ e) -> zlen src = n -> zlen dst = n -> runs m src ->
  Permutation base src -> same_order_of_equals cmp base src -> (Z.to_nat (n - m) < fuel)%nat ->
  exists src' dst' flag', passes cmp fuel n m src dst flag = rret (src', dst', flag') /\ zlen src' = n /\ zlen dst' = n /\
    stable_sort_of cmp base src'.
Proof.
  intros Hnb Hn. induction fuel as [|k IH]; intros m src dst flag Hm (e & He & Hme) Ls Ld R P S Hf; [lia|].
  cbn [passes]. destruct (Z.ltb_spec m n) as [H|H].
  - assert (Hm29 : m <= 2 ^ 29). { assert (e < 30). { apply Z.pow_lt_mono_r_iff with (a := 2); lia. } subst m. apply Z.pow_le_mono_r; lia. }
    destruct (pass_loop_ok src m Hm Hm29 ltac:(lia) ltac:(lia) R (Datatypes.S (List.length src)) 0 [] dst) as (out & E & [Pp Ps Pr]).
    { lia. } { exists 0. lia. } { lia. } { change (zlen (@nil T)) with 0. lia. } { change (zlen (@nil T)) with 0. lia. } { unfold zlen in *. lia. }
    rewrite Ls in E. change (zlen (@nil T)) with 0 in E. cbn [app] in E. rewrite E. rb.
    change (2 ^ 29) with 536870912 in *. rewrite int_ok_small by (unfold int32; lia). rb. rewrite zskip_0 in *.
    apply IH.
    + lia.
    + exists (e + 1). split; [lia|]. rewrite Z.pow_add_r by lia. lia.
    + rewrite <- Ls. unfold zlen. rewrite (Permutation_length Pp). reflexivity.
    + exact Ls.
    + rewrite Z.mul_comm. exact Pr.
    + etransitivity; eassumption.
    + intros x. rewrite (S x). apply Ps.
    + lia.
  - exists src, dst, flag. split; [reflexivity|]. split; [exact Ls|]. split; [exact Ld|]. split; [apply (runs_all m); [lia|exact R]|]. split; assumption.
Qed.

Lemma mergesort_ok base scratch size : 0 < size -> size * zlen base <= INT_MAX -> zlen base <= 2 ^ 30 -> zlen scratch = zlen base ->
  exists out, mergesort_r2 cmp base scratch size = rret out /\ stable_sort_of cmp base out.
Proof.
  intros Hs Hsz Hn Hl. pose proof (zlen_nonneg base). unfold INT_MAX in Hsz. unfold mergesort_r2. cbv zeta. rewrite int_ok_small by (unfold int32; nia). rb.
  destruct (passes_ok (zlen base) base eq_refl Hn (S (List.length base)) 1 base scratch true) as (src & dst & flag & E & L1 & L2 & St).
  { lia. } { exists 0. split; [lia|reflexivity]. } { reflexivity. } { exact Hl. } { apply runs_one. } { reflexivity. } { intros x; reflexivity. } { unfold zlen. lia. }
  rewrite E. rb. exists src. split; [|exact St]. destruct flag; [reflexivity|].
  rewrite ztake_all, zskip_all, app_nil_r by lia. reflexivity.
Qed.

End MERGE.
