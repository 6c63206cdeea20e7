(** Rings of links: doubly linked circular lists in a heap of links. *)
From Verif Require Import Base BaseFacts Types ListFacts Sort Xb Bw BwFacts.

Fixpoint links (h : heap) (p : Z) (l : list Z) (n : Z) : Prop :=
  match l with [] => True | x :: r => h x 12 = p /\ h x 8 = hd n r /\ links h x r n end.
Definition ring (h : heap) (l : list Z) : Prop := l <> [] /\ links h (last l 0) l (hd 0 l).

Lemma last_default {A} (l : list A) d d' : l <> [] -> last l d = last l d'.
Proof. induction l as [|x [|y l] IH]; [congruence|reflexivity|]. intros _. cbn [last]. apply IH. discriminate. Qed.
Lemma last_app' {A} (l1 l2 : list A) d : l2 <> [] -> last (l1 ++ l2) d = last l2 d.
Proof.
  intro N. induction l1 as [|x l1 IH]; [reflexivity|]. change ((x :: l1) ++ l2) with (x :: (l1 ++ l2)). destruct (l1 ++ l2) eqn:E; [|exact IH].
  apply app_eq_nil in E as [_ E]. contradiction.
Qed.
Lemma hd_app' {A} (l1 l2 : list A) d : l1 <> [] -> hd d (l1 ++ l2) = hd d l1.
Proof. destruct l1; [congruence|reflexivity]. Qed.
Lemma last_in {A} (l : list A) d : l <> [] -> In (last l d) l.
Proof. induction l as [|x [|y l] IH]; [congruence|left; reflexivity|]. intros _. right. apply IH. discriminate. Qed.
Lemma hd_in {A} (l : list A) d : l <> [] -> In (hd d l) l.
Proof. destruct l; [congruence|left; reflexivity]. Qed.
Lemma last_cons' {A} (x : A) l d : last (x :: l) d = last l x.
Proof. destruct l as [|y l]; [reflexivity|]. change (last (x :: y :: l) d) with (last (y :: l) d). apply last_default. discriminate. Qed.

Lemma links_app h p l1 l2 n : links h p (l1 ++ l2) n <-> links h p l1 (hd n l2) /\ links h (last l1 p) l2 n.
Proof.
  revert p. induction l1 as [|x l1 IH]; intro p; [cbn; tauto|]. cbn [links app]. rewrite IH, last_cons'.
  replace (hd n (l1 ++ l2)) with (hd (hd n l2) l1) by (destruct l1; reflexivity). tauto.
Qed.
Lemma links_ext h h' p l n : (forall e, In e l -> h' e 8 = h e 8 /\ h' e 12 = h e 12) -> links h p l n -> links h' p l n.
Proof.
  revert p. induction l as [|x l IH]; intros p X L; [exact I|]. cbn [links] in *. destruct (X x (or_introl eq_refl)) as [-> ->].
  destruct L as (A & B & C). repeat split; auto. apply IH; auto. intros e I. apply X. right. exact I.
Qed.
Lemma ring_ext h h' l : (forall e, In e l -> h' e 8 = h e 8 /\ h' e 12 = h e 12) -> ring h l -> ring h' l.
Proof. intros X [N L]. split; [exact N|]. eapply links_ext; eauto. Qed.

Lemma ring_rotate h l1 l2 : ring h (l1 ++ l2) -> ring h (l2 ++ l1).
Proof.
  intros [N L]. destruct l1 as [|x l1]; [rewrite app_nil_r; split; auto|]. destruct l2 as [|y l2]; [rewrite app_nil_r in *; split; auto|].
  split; [discriminate|]. apply links_app in L as [L1 L2]. apply links_app. rewrite (last_app' (y :: l2) (x :: l1)) by discriminate.
  rewrite (last_app' (x :: l1) (y :: l2)) in L1 by discriminate. split.
  - cbn [hd app] in *. rewrite (last_default _ 0 (last (y :: l2) 0)) by discriminate. rewrite <- (last_default (x :: l1) (last ((x :: l1) ++ y :: l2) 0)) by discriminate. exact L2.
  - cbn [hd app] in *. rewrite <- (last_default (y :: l2) 0) by discriminate. exact L1.
Qed.

Lemma links_change h h' p p' l n n' : links h p l n -> NoDup l -> l <> [] -> h' (hd 0 l) 12 = p' -> h' (last l 0) 8 = n' ->
  (forall e, In e l -> e <> hd 0 l -> h' e 12 = h e 12) -> (forall e, In e l -> e <> last l 0 -> h' e 8 = h e 8) -> links h' p' l n'.
Proof.
  revert p p'. induction l as [|x l IH]; intros p p' L ND NE P' N' X Y; [congruence|]. destruct L as (A & B & C).
  inversion ND as [|? ? NI ND']; subst. destruct l as [|y l].
  - cbn in *. auto.
  - cbn [hd] in *. change (last (x :: y :: l) 0) with (last (y :: l) 0) in *. cbn [links]. split; [reflexivity|]. split.
    + cbn [hd]. rewrite Y; [exact B|left; reflexivity|]. intro E. apply NI. rewrite E. apply last_in. discriminate.
    + apply (IH x x); auto; try discriminate.
      * cbn [hd]. destruct C as (C1 & _). rewrite <- C1. apply X; [right; left; reflexivity|]. intro E. apply NI. left. exact E.
      * intros e I Ne. apply X; [right; exact I|]. intro E. apply NI. rewrite <- E. exact I.
      * intros e I Ne. apply Y; [right; exact I|exact Ne].
Qed.

Lemma ring_prev h x l : ring h (x :: l) -> h x 12 = last (x :: l) 0.
Proof. intros [_ (A & _)]. exact A. Qed.
Lemma ring_next h x l : ring h (x :: l) -> h x 8 = hd x l.
Proof. intros [_ (_ & B & _)]. exact B. Qed.
Lemma ring_mid h l1 x l2 : ring h (l1 ++ x :: l2) -> h x 8 = hd (hd x l1) l2 /\ h x 12 = last l1 (last (x :: l2) 0).
Proof.
  intro R. apply ring_rotate in R. cbn [app] in R. split.
  - rewrite (ring_next _ _ _ R). destruct l2; reflexivity.
  - rewrite (ring_prev _ _ _ R). change (x :: l2 ++ l1) with ((x :: l2) ++ l1). destruct l1 as [|y l1]; [rewrite app_nil_r; reflexivity|].
    rewrite last_app' by discriminate. apply last_default. discriminate.
Qed.

(** ** The operations on rings *)
Ltac uo := repeat first [rewrite upd_same | rewrite upd_other by first [left; solve [auto | apply not_eq_sym; auto] | right; solve [auto | lia]]].
Lemma nodup_app {A} (l1 l2 : list A) : NoDup (l1 ++ l2) -> NoDup l1 /\ NoDup l2 /\ (forall x, In x l1 -> In x l2 -> False).
Proof.
  induction l1 as [|x l1 IH]; cbn; [intro H; repeat split; auto; constructor|]. intro H. inversion H as [|? ? NI ND]; subst.
  destruct (IH ND) as (A1 & A2 & A3). rewrite in_app_iff in NI. repeat split; auto; [constructor; tauto|]. intros y [->|I] J; [tauto|eauto].
Qed.
Definition join_links (h : heap) (x b : Z) : heap := upd (upd (upd (upd h x 12 (h b 12)) b 12 (h x 12)) (h b 12) 8 x) (h x 12) 8 b.
Lemma join_ring h a A b B : ring h (a :: A) -> ring h (b :: B) -> NoDup ((a :: A) ++ b :: B) -> ring (join_links h a b) ((a :: A) ++ b :: B).
Proof.
  intros RA RB ND. destruct (nodup_app _ _ ND) as (NA & NB & D). pose proof (ring_prev _ _ _ RA) as PA. pose proof (ring_prev _ _ _ RB) as PB.
  assert (LA : In (last (a :: A) 0) (a :: A)) by (apply last_in; discriminate). assert (LB : In (last (b :: B) 0) (b :: B)) by (apply last_in; discriminate).
  assert (Ia : In a (a :: A)) by (left; reflexivity). assert (Ib : In b (b :: B)) by (left; reflexivity).
  destruct RA as [_ RA]. destruct RB as [_ RB]. split; [discriminate|]. apply links_app. rewrite last_app' by discriminate.
  unfold join_links. rewrite PA, PB. set (la := last (a :: A) 0) in *. set (lb := last (b :: B) 0) in *.
  assert (NE : forall u v, In u (a :: A) -> In v (b :: B) -> u <> v) by (intros u v I J E; subst; eauto).
  assert (a <> b) by auto. assert (la <> lb) by auto. split.
  - apply (links_change h _ la _ _ a); auto; try discriminate.
    + cbn [hd]. uo; auto.
    + cbn [hd app]. fold la. uo; auto.
    + intros e I N. cbn [hd] in N. uo; auto.
    + intros e I N. fold la in N. uo; auto.
  - rewrite (last_default _ _ 0) by discriminate. fold la. apply (links_change h _ lb _ _ b); auto; try discriminate.
    + cbn [hd]. uo; auto.
    + cbn [hd app]. fold lb. uo; auto.
    + intros e I N. cbn [hd] in N. uo; auto.
    + intros e I N. fold lb in N. uo; auto.
Qed.
(** Other rings stay. *)
Lemma join_links_other h a b e : e <> a -> e <> b -> e <> h a 12 -> e <> h b 12 -> forall f, join_links h a b e f = h e f.
Proof. intros. unfold join_links. uo; auto. Qed.
Lemma join_links_heads h a b e f : f <> 8 -> f <> 12 -> join_links h a b e f = h e f.
Proof. intros. unfold join_links. uo; auto. Qed.

(** Taking [t] out *)
Definition drop_links (h : heap) (t : Z) : heap := upd (upd (upd (upd h (h t 12) 8 (h t 8)) (h t 8) 12 (h t 12)) t 12 t) t 8 t.
Lemma drop_self h t : ring (drop_links h t) [t].
Proof. split; [discriminate|]. cbn. unfold drop_links. uo. auto. Qed.
Lemma drop_rest h t r : ring h (t :: r) -> NoDup (t :: r) -> r <> [] -> ring (drop_links h t) r.
Proof.
  intros R ND NE. inversion ND as [|? ? NI ND']; subst. pose proof (ring_prev _ _ _ R) as P. pose proof (ring_next _ _ _ R) as N.
  destruct R as [_ (_ & _ & L)]. cbn [hd] in L. split; [exact NE|].
  assert (P' : h t 12 = last r 0) by (rewrite P; destruct r; [congruence|reflexivity]). assert (N' : h t 8 = hd 0 r) by (rewrite N; destruct r; [congruence|reflexivity]).
  assert (LI : In (last r 0) r) by (apply last_in; auto). assert (HI : In (hd 0 r) r) by (apply hd_in; auto).
  assert (NT : forall u, In u r -> u <> t) by (intros u I E; subst; auto).
  unfold drop_links. rewrite P', N'. apply (links_change h _ t _ _ t); auto.
  - uo; auto.
  - uo; auto.
  - intros e I Ne. uo; auto.
  - intros e I Ne. uo; auto.
Qed.
Lemma drop_other h t e : e <> t -> e <> h t 8 -> e <> h t 12 -> forall f, drop_links h t e f = h e f.
Proof. intros. unfold drop_links. uo; auto. Qed.
Lemma drop_heads h t e f : f <> 8 -> f <> 12 -> drop_links h t e f = h e f.
Proof. intros. unfold drop_links. uo; auto. Qed.

(** Putting [new] at the place of [old] *)
Definition swap_links (h : heap) (old new : Z) : heap :=
  upd (upd (upd (upd (upd (upd h new 8 (h old 8)) new 12 (h old 12)) (h old 8) 12 new) (h old 12) 8 new) old 12 old) old 8 old.
Lemma swap_self h old new : ring (swap_links h old new) [old].
Proof. split; [discriminate|]. cbn. unfold swap_links. uo. auto. Qed.
Lemma swap_rest h old new r : ring h (old :: r) -> NoDup (old :: r) -> ~ In new (old :: r) -> r <> [] -> ring (swap_links h old new) (new :: r).
Proof.
  intros R ND NIn NE. inversion ND as [|? ? NI ND']; subst. pose proof (ring_prev _ _ _ R) as P. pose proof (ring_next _ _ _ R) as N.
  destruct R as [_ (_ & _ & L)]. cbn [hd] in L. split; [discriminate|].
  assert (P' : h old 12 = last r 0) by (rewrite P; destruct r; [congruence|reflexivity]). assert (N' : h old 8 = hd 0 r) by (rewrite N; destruct r; [congruence|reflexivity]).
  assert (LI : In (last r 0) r) by (apply last_in; auto). assert (HI : In (hd 0 r) r) by (apply hd_in; auto).
  assert (NO : forall u, In u r -> u <> old) by (intros u I E; subst; auto).
  assert (NN : forall u, In u r -> u <> new) by (intros u I E; subst; apply NIn; right; auto).
  assert (ON : new <> old) by (intro E; apply NIn; left; auto).
  assert (hd 0 r <> new) by auto. assert (last r 0 <> new) by auto.
  unfold swap_links. rewrite P', N'. cbn [links]. split; [|split].
  - uo. destruct r; [congruence|reflexivity].
  - uo. destruct r; [congruence|reflexivity].
  - cbn [hd]. apply (links_change h _ old _ _ old); auto.
    + uo; auto.
    + uo; auto.
    + intros e I Ne. uo; auto.
    + intros e I Ne. uo; auto.
Qed.
Lemma swap_other h old new e : e <> old -> e <> new -> e <> h old 8 -> e <> h old 12 -> forall f, swap_links h old new e f = h e f.
Proof. intros. unfold swap_links. uo; auto. Qed.
Lemma swap_heads h old new e f : f <> 8 -> f <> 12 -> swap_links h old new e f = h e f.
Proof. intros. unfold swap_links. uo; auto. Qed.
