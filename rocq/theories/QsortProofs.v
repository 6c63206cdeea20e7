(** qsort_r2 (C20): it terminates with a permutation and keeps ordered arrays ordered; it does not
    sort every array. *)
From Verif Require Import Base BaseFacts ListFacts Sort SortSpec SortProofs.
From Coq Require Import Permutation Sorted.

Section QSORT.
Context {T : Type} (cmp : T -> T -> Z).
Context (Hrefl : forall x, cmp x x = 0).

Lemma at_in (l : list T) i : 0 <= i < zlen l -> exists x, at_ l i = rret x /\ l = ztake i l ++ x :: zskip (i + 1) l.
Proof.
  intros H. destruct (run_split l i (zlen l) ltac:(lia) ltac:(lia) ltac:(lia)) as (x & E & _). exists x. split; [|exact E].
  rewrite E. apply at_app. rewrite zlen_take; lia.
Qed.

Lemma scan_left_ok l test right : 0 <= test < zlen l -> right < zlen l -> forall fuel left, 0 <= left < zlen l ->
  (Z.to_nat (right - left) < fuel)%nat ->
  exists left', scan_left cmp fuel l test left right = rret left' /\ left <= left' <= Z.max left right /\
    (left <= test -> left' <= test) /\
    (left' < right -> exists x t, at_ l left' = rret x /\ at_ l test = rret t /\ 0 <= cmp x t).
Proof.
  intros Ht Hr. induction fuel as [|k IH]; intros left Hl Hf; [lia|].
  destruct (at_in l left Hl) as (x & Ex & _). destruct (at_in l test Ht) as (t & Et & _).
  assert (Step : scan_left cmp (S k) l test left right = if (cmp x t <? 0) && (left <? right) then scan_left cmp k l test (left + 1) right else rret left).
  { cbn [scan_left]. rewrite Ex, Et. reflexivity. }
  rewrite Step. clear Step.
  destruct ((cmp x t <? 0) && (left <? right)) eqn:E.
  - destruct (IH (left + 1) ltac:(lia) ltac:(lia)) as (left' & -> & Hle & Htest & Hstop). exists left'. split; [reflexivity|]. split; [lia|]. split; [|exact Hstop].
    intros Hlt. apply Htest. destruct (Z.eq_dec left test) as [->|]; [|lia]. exfalso. rewrite Ex in Et. inversion Et; subst t. rewrite Hrefl in E. discriminate.
  - exists left. split; [reflexivity|]. split; [lia|]. split; [auto|]. intros Hlt. exists x, t. repeat split; try assumption. lia.
Qed.

Lemma scan_right_ok l test left : 0 <= test < zlen l -> 0 <= left -> forall fuel right, 0 <= right < zlen l ->
  (Z.to_nat (right - left) < fuel)%nat ->
  exists right', scan_right cmp fuel l test left right = rret right' /\ Z.min left right <= right' <= right /\
    (test <= right -> left <= test -> test <= right') /\
    (left < right' -> exists y t, at_ l right' = rret y /\ at_ l test = rret t /\ cmp y t <= 0).
Proof.
  intros Ht Hl. induction fuel as [|k IH]; intros right Hr Hf; [lia|].
  destruct (at_in l right Hr) as (x & Ex & _). destruct (at_in l test Ht) as (t & Et & _).
  assert (Step : scan_right cmp (S k) l test left right = if (0 <? cmp x t) && (left <? right) then scan_right cmp k l test left (right - 1) else rret right).
  { cbn [scan_right]. rewrite Ex, Et. reflexivity. }
  rewrite Step. clear Step.
  destruct ((0 <? cmp x t) && (left <? right)) eqn:E.
  - destruct (IH (right - 1) ltac:(lia) ltac:(lia)) as (right' & -> & Hle & Htest & Hstop). exists right'. split; [reflexivity|]. split; [lia|]. split; [|exact Hstop].
    intros Hlt Hlt2. apply Htest; [|exact Hlt2]. destruct (Z.eq_dec right test) as [->|]; [|lia]. exfalso. rewrite Ex in Et. inversion Et; subst t. rewrite Hrefl in E. discriminate.
  - exists right. split; [reflexivity|]. split; [lia|]. split; [auto|]. intros Hlt. exists x, t. repeat split; try assumption. lia.
Qed.

Lemma two_split (l : list T) i j : 0 <= i < j -> j < zlen l ->
  exists p x q y r, l = p ++ x :: q ++ y :: r /\ zlen p = i /\ zlen p + 1 + zlen q = j.
Proof.
  intros Hi Hj. destruct (at_in l i ltac:(lia)) as (x & _ & E1).
  destruct (at_in (zskip (i + 1) l) (j - i - 1)) as (y & _ & E2); [rewrite zlen_skip by lia; lia|].
  exists (ztake i l), x, (ztake (j - i - 1) (zskip (i + 1) l)), y, (zskip (j - i - 1 + 1) (zskip (i + 1) l)).
  split; [rewrite <- E2; exact E1|]. rewrite !zlen_take, zlen_skip by lia. lia.
Qed.

(** What the partition loop keeps. *)
Lemma partition_ok (P : list T -> Prop) n test : 0 <= test < n -> 1 <= test ->
  (forall p x q y r t, P (p ++ x :: q ++ y :: r) -> In t (p ++ x :: q ++ y :: r) -> 0 <= cmp x t -> cmp y t <= 0 -> P (p ++ y :: q ++ x :: r)) ->
  forall fuel l left right, zlen l = n -> P l ->
  0 <= right -> left <= right + 1 -> left < n ->
  (0 <= left <= test /\ test <= right <= n - 1 \/ 1 <= left /\ right <= n - 2) ->
  (Z.to_nat (right - left + 1) < fuel)%nat ->
  exists l' left', partition_loop cmp fuel l test left right = rret (l', left') /\ 1 <= left' <= n - 1 /\ Permutation l l' /\ P l'.
Proof.
  intros Ht Ht1 HP. induction fuel as [|k IH]; intros l left right Hl Hp Hr Hlr Hln Hinv Hf; [lia|]. cbn [partition_loop].
  destruct (scan_left_ok l test right ltac:(lia) ltac:(lia) (S (List.length l)) left ltac:(lia) ltac:(unfold zlen in *; lia)) as (left1 & -> & Hle1 & Htest1 & Hstop1). rb.
  destruct (scan_right_ok l test left1 ltac:(lia) ltac:(lia) (S (List.length l)) right ltac:(lia) ltac:(unfold zlen in *; lia)) as (right1 & -> & Hle2 & Htest2 & Hstop2). rb.
  destruct (Z.leb_spec right1 left1) as [Hx|Hx].
  - exists l, left1. split; [reflexivity|]. split; [|split; [reflexivity|exact Hp]].
    destruct Hinv as [(A1 & A2)|(B1 & B2)]; [specialize (Htest1 ltac:(lia)); specialize (Htest2 ltac:(lia) Htest1)|]; lia.
  - destruct (Hstop1 ltac:(lia)) as (x & t & Ex & Et & Hxt). destruct (Hstop2 Hx) as (y & t' & Ey & Et' & Hyt).
    rewrite Et in Et'. inversion Et'; subst t'. rewrite Ex. rb. rewrite Ey. rb.
    destruct (two_split l left1 right1 ltac:(lia) ltac:(lia)) as (p & x' & q & y' & r & E & Lp & Lq).
    assert (x' = x). { rewrite E in Ex. rewrite at_app in Ex by lia. inversion Ex; reflexivity. } subst x'.
    assert (y' = y). { rewrite E in Ey. replace (p ++ x :: q ++ y' :: r) with ((p ++ x :: q) ++ y' :: r) in Ey by (rewrite <- app_assoc; reflexivity).
      rewrite at_app in Ey by (rewrite zlen_app, zlen_cons; lia). inversion Ey; reflexivity. } subst y'.
    assert (E1 : put l left1 y = rret (p ++ y :: q ++ y :: r)) by (rewrite E; apply put_app; lia). rewrite E1. rb.
    assert (E2 : put (p ++ y :: q ++ y :: r) right1 x = rret (p ++ y :: q ++ x :: r)).
    { replace (p ++ y :: q ++ y :: r) with ((p ++ y :: q) ++ y :: r) by (rewrite <- app_assoc; reflexivity).
      rewrite put_app by (rewrite zlen_app, zlen_cons; lia). rewrite <- app_assoc. reflexivity. }
    rewrite E2. rb.
    assert (Hperm : Permutation l (p ++ y :: q ++ x :: r)).
    { rewrite E. apply Permutation_app_head. transitivity (x :: y :: q ++ r); [constructor; symmetry; apply Permutation_middle|].
      transitivity (y :: x :: q ++ r); [constructor|]. constructor. apply Permutation_middle. }
    destruct (IH (p ++ y :: q ++ x :: r) (left1 + 1) (right1 - 1)) as (l' & left' & -> & Hb & Hp' & HP').
    + unfold zlen in *. rewrite <- (Permutation_length Hperm). exact Hl.
    + apply (HP p x q y r t); [rewrite <- E; exact Hp| |exact Hxt|exact Hyt]. rewrite <- E.
      unfold at_ in Et. destruct (test <? 0); [discriminate|]. destruct (nth_error l (Z.to_nat test)) eqn:En; [|discriminate].
      inversion Et; subst. eapply nth_error_In; exact En.
    + lia.
    + lia.
    + lia.
    + right. lia.
    + lia.
    + exists l', left'. split; [reflexivity|]. split; [exact Hb|]. split; [etransitivity; eassumption|exact HP'].
Qed.

Lemma qsort_perm : forall fuel l, (List.length l < fuel)%nat -> exists out, qsort_r2 cmp fuel l = rret out /\ Permutation l out.
Proof.
  induction fuel as [|k IH]; intros l Hf; [lia|]. cbn [qsort_r2]. cbv zeta. destruct (Z.ltb_spec (zlen l) 2) as [H|H]; [exists l; split; reflexivity|].
  destruct (partition_ok (fun _ => True) (zlen l) (zlen l / 2) ltac:(lia) ltac:(lia) ltac:(auto) (S (List.length l)) l 0 (zlen l - 1) eq_refl I)
    as (l' & left & -> & Hb & Hp & _); try lia. { unfold zlen. lia. }
  rb. assert (Hl : zlen l' = zlen l) by (unfold zlen; rewrite (Permutation_length Hp); reflexivity).
  destruct (IH (ztake left l')) as (a & -> & Ha).
  { assert (zlen (ztake left l') < zlen l) by (rewrite zlen_take by lia; lia). unfold zlen in *. lia. }
  destruct (IH (zskip left l')) as (b & -> & Hb').
  { assert (zlen (zskip left l') < zlen l) by (rewrite zlen_skip by lia; lia). unfold zlen in *. lia. }
  rb. exists (a ++ b). split; [reflexivity|]. rewrite Hp. rewrite <- (ztake_zskip left l'). apply Permutation_app; assumption.
Qed.
End QSORT.

Lemma ordered_app {T} (cmp : T -> T -> Z) a b : ordered cmp (a ++ b) <-> ordered cmp a /\ ordered cmp b /\ (forall x y, In x a -> In y b -> cmp x y <= 0).
Proof.
  induction a as [|x a IH]; cbn [app].
  - split; [intros H; split; [constructor|]; split; [exact H|]; intros x y []|intros (_ & H & _); exact H].
  - split.
    + intros H. inversion H as [|? ? Hs Hf]; subst. apply IH in Hs. destruct Hs as (Ha & Hb & Hc). apply Forall_app in Hf. destruct Hf as [Hfa Hfb].
      split; [constructor; assumption|]. split; [exact Hb|]. intros u v [<-|Hu] Hv; [rewrite Forall_forall in Hfb; apply Hfb, Hv|apply Hc; assumption].
    + intros (Ha & Hb & Hc). inversion Ha as [|? ? Hs Hf]; subst. constructor.
      * apply IH. split; [exact Hs|]. split; [exact Hb|]. intros u v Hu Hv. apply Hc; [right|]; assumption.
      * apply Forall_app. split; [exact Hf|]. apply Forall_forall. intros v Hv. apply Hc; [left; reflexivity|exact Hv].
Qed.
Lemma ordered_cons {T} (cmp : T -> T -> Z) x a : ordered cmp (x :: a) <-> ordered cmp a /\ (forall y, In y a -> cmp x y <= 0).
Proof.
  split; [intros H; inversion H as [|? ? Hs Hf]; subst; split; [exact Hs|rewrite Forall_forall in Hf; exact Hf]|].
  intros [Hs Hf]. constructor; [exact Hs|apply Forall_forall; exact Hf].
Qed.

(** Exchanging equal elements keeps the order. *)
Lemma ordered_exchange {T} (cmp : T -> T -> Z) p x q y r : total_preorder cmp -> cmp y x <= 0 ->
  ordered cmp (p ++ x :: q ++ y :: r) -> ordered cmp (p ++ y :: q ++ x :: r).
Proof.
  intros Hpre Hyx H. assert (tr := cmp_trans cmp Hpre).
  repeat (rewrite ordered_app in H || rewrite ordered_cons in H). destruct H as (Hp & ((Hq & (Hr & Hyr) & Hqr) & Hx) & Hpall).
  assert (Hxy : cmp x y <= 0) by (apply Hx, in_or_app; right; left; reflexivity).
  repeat (rewrite ordered_app || rewrite ordered_cons). split; [exact Hp|]. split; [split; [split; [exact Hq|]|]|].
  - split; [split; [exact Hr|]|].
    + intros z Hz. apply (tr x y z); [exact Hxy|apply Hyr, Hz].
    + intros u v Hu [<-|Hv]; [apply (tr u y x); [apply Hqr; [exact Hu|left; reflexivity]|exact Hyx]|apply Hqr; [exact Hu|right; exact Hv]].
  - intros v Hv. apply in_app_or in Hv. destruct Hv as [Hv|[<-|Hv]].
    + apply (tr y x v); [exact Hyx|apply Hx, in_or_app; left; exact Hv].
    + exact Hyx.
    + apply Hyr, Hv.
  - intros u v Hu Hv. apply Hpall; [exact Hu|]. cbn [In] in *. rewrite in_app_iff in *. cbn [In] in *. tauto.
Qed.

Lemma qsort_ordered {T} (cmp : T -> T -> Z) : total_preorder cmp -> forall fuel l, (List.length l < fuel)%nat -> ordered cmp l ->
  exists out, qsort_r2 cmp fuel l = rret out /\ Permutation l out /\ ordered cmp out.
Proof.
  intros Hpre. induction fuel as [|k IH]; intros l Hf Ho; [lia|]. cbn [qsort_r2]. cbv zeta.
  destruct (Z.ltb_spec (zlen l) 2) as [H|H]; [exists l; repeat split; auto|].
  destruct (partition_ok cmp (cmp_refl cmp Hpre) (ordered cmp) (zlen l) (zlen l / 2) ltac:(lia) ltac:(lia)) with (fuel := S (List.length l)) (l := l) (left := 0) (right := zlen l - 1)
    as (l' & left & -> & Hb & Hp & Ho'); try lia; try assumption; try reflexivity.
  { intros p x q y r t Hord Hin Hx Hy. apply ordered_exchange; [assumption| |exact Hord].
    apply (cmp_trans cmp Hpre y t x Hy). destruct Hpre as [Hs _]. specialize (Hs x t). lia. }
  { unfold zlen. lia. }
  rb. assert (Hl : zlen l' = zlen l) by (unfold zlen; rewrite (Permutation_length Hp); reflexivity).
  rewrite <- (ztake_zskip left l') in Ho'. apply ordered_app in Ho'. destruct Ho' as (O1 & O2 & O3).
  destruct (IH (ztake left l')) as (a & -> & Ha & Oa); [|exact O1|].
  { assert (zlen (ztake left l') < zlen l) by (rewrite zlen_take by lia; lia). unfold zlen in *. lia. }
  destruct (IH (zskip left l')) as (b & -> & Hb' & Ob); [|exact O2|].
  { assert (zlen (zskip left l') < zlen l) by (rewrite zlen_skip by lia; lia). unfold zlen in *. lia. }
  rb. exists (a ++ b). split; [reflexivity|]. split.
  - rewrite Hp. rewrite <- (ztake_zskip left l'). apply Permutation_app; assumption.
  - apply ordered_app. split; [exact Oa|]. split; [exact Ob|]. intros x y Hx Hy. apply O3; eapply Permutation_in; try eassumption; symmetry; assumption.
Qed.

(** Bad: the pivot is named by its slot, and the exchange moves another element into the slot. *)
Lemma sub_preorder : total_preorder Z.sub.
Proof. split; intros; lia. Qed.
Lemma qsort_unsorted : exists l out, qsort_r2 Z.sub 10 l = rret out /\ ~ ordered Z.sub out /\ Permutation l out.
Proof.
  exists [5; 6; 7; 1; 2]. eexists. split; [vm_compute; reflexivity|]. split.
  - intros H. repeat match goal with H : ordered _ (_ :: _) |- _ => apply ordered_cons in H; destruct H | H : StronglySorted _ _ |- _ => apply ordered_cons in H; destruct H end.
    repeat match goal with H : forall y, In y _ -> _ |- _ => cbn [In] in H end.
    repeat match goal with H : forall y, _ -> _ |- _ => first [pose proof (H 1 ltac:(tauto)) | pose proof (H 2 ltac:(tauto)) | pose proof (H 5 ltac:(tauto)) | idtac]; clear H end; lia.
  - destruct (qsort_perm Z.sub Z.sub_diag 10 [5; 6; 7; 1; 2] ltac:(cbn; lia)) as (out & E & P). vm_compute in E. inversion E; subst out. exact P.
Qed.
