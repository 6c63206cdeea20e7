(** What iterating shows. *)
From Verif Require Import Base BaseFacts Types ListFacts Sort Xb XbSpec XbFacts XbWrite WriteProofs Bw BwFacts BwRing BwSpec BwHist BwAlloc BwProofs.

Lemma shows_bwe m p L o : shows m p L -> bwe m p o = Ok o.
Proof. intros (O & _). unfold bwe. rewrite O. cbn [obind]. f_equal. lia. Qed.
Lemma NextChild_first m p x L : shows m p (x :: L) -> NextChild m p 0 = Ok (Some (x, x)).
Proof.
  intro S. pose proof S as (_ & C & _ & N). destruct (N [] x L eq_refl) as [X _]. unfold NextChild. change (0 =? 0) with true. cbv iota.
  rewrite C. cbn [obind hd]. replace (x =? 0) with false by lia. rewrite (shows_bwe _ _ _ _ S). reflexivity.
Qed.
Lemma NextChild_none m p : shows m p [] -> NextChild m p 0 = Ok None.
Proof. intros (_ & C & _). unfold NextChild. change (0 =? 0) with true. cbv iota. rewrite C. reflexivity. Qed.
Lemma NextChild_next m p l1 e y l2 : shows m p (l1 ++ e :: y :: l2) -> NextChild m p e = Ok (Some (y, y)).
Proof.
  intro S. pose proof S as (_ & C & ND & N). destruct (N l1 e (y :: l2) eq_refl) as [E NX]. unfold NextChild. replace (e =? 0) with false by lia.
  rewrite (shows_bwe _ _ _ _ S). cbn [obind]. rewrite NX, C. cbn [obind hd]. rewrite (shows_bwe _ _ _ _ S). cbn [obind].
  replace (y =? hd 0 (l1 ++ e :: y :: l2)) with false; [reflexivity|]. symmetry. apply Z.eqb_neq. intro Y.
  assert (D : l1 ++ e :: y :: l2 = (l1 ++ [e]) ++ y :: l2) by (rewrite <- app_assoc; reflexivity). rewrite D in ND. destruct (nodup_app _ _ ND) as (_ & _ & A).
  apply (A y); [|left; reflexivity]. rewrite Y. rewrite D. rewrite hd_app' by (destruct l1; discriminate). apply hd_in. destruct l1; discriminate.
Qed.
Lemma NextChild_end m p l1 e : shows m p (l1 ++ [e]) -> NextChild m p e = Ok None.
Proof.
  intro S. pose proof S as (_ & C & ND & N). destruct (N l1 e [] eq_refl) as [E NX]. unfold NextChild. replace (e =? 0) with false by lia.
  rewrite (shows_bwe _ _ _ _ S). cbn [obind]. rewrite NX, C. cbn [obind hd]. rewrite Z.eqb_refl. reflexivity.
Qed.
Lemma forward_S k m x o : forward (S k) m x o = rbind (Some (NextChild m x o)) (fun r => match r with None => rret [] | Some (e, o) => rbind (forward k m x o) (fun l => rret (e :: l)) end).
Proof. reflexivity. Qed.
Lemma backward_S k m x o : backward (S k) m x o = rbind (Some (PrevChild m x o)) (fun r => match r with None => rret [] | Some (e, o) => rbind (backward k m x o) (fun l => rret (e :: l)) end).
Proof. reflexivity. Qed.
Lemma forward_from m p l2 : forall l1 e fuel, shows m p (l1 ++ e :: l2) -> (List.length l2 < fuel)%nat -> forward fuel m p e = Some (Ok l2).
Proof.
  induction l2 as [|y l2 IH]; intros l1 e fuel S F; (destruct fuel as [|k]; [cbn in F; lia|]); rewrite forward_S.
  - rewrite (NextChild_end _ _ _ _ S). reflexivity.
  - rewrite (NextChild_next _ _ _ _ _ _ S). cbn [rbind]. rewrite (IH (l1 ++ [e]) y k); [reflexivity| |cbn in F; lia]. rewrite <- app_assoc. exact S.
Qed.
Lemma forward_ok m p L fuel : shows m p L -> (List.length L < fuel)%nat -> forward fuel m p 0 = Some (Ok L).
Proof.
  intros S F. destruct fuel as [|k]; [lia|]. rewrite forward_S. destruct L as [|x L].
  - rewrite (NextChild_none _ _ S). reflexivity.
  - rewrite (NextChild_first _ _ _ _ S). cbn [rbind]. rewrite (forward_from m p L [] x k); [reflexivity|exact S|cbn in F; lia].
Qed.

(** Backward *)
Definition shows_back m p (L : list Z) : Prop := shows m p L /\ forall l1 e l2, L = l1 ++ e :: l2 -> el_prev m e = Ok (last l1 (last L 0)).
Lemma inv_shows_back kind size m F p L : inv kind size m F -> In p (members F) -> owned F p true L -> shows_back m p L.
Proof.
  intros I Ip O. split; [eapply inv_shows; eauto|]. destruct I as (h & a & P & R & S). intros l1 e l2 E. destruct O as [O|[-> _]]; [|destruct l1; discriminate].
  assert (J : In e L) by (rewrite E; apply in_or_app; right; left; reflexivity). rewrite (rep_prev _ _ _ e R) by (eapply members_in; eauto). f_equal.
  pose proof (sh_ring _ _ S _ _ O) as RL. rewrite E in RL. destruct (ring_mid _ _ _ _ RL) as [_ ->]. rewrite E. rewrite last_app' by discriminate. reflexivity.
Qed.
Lemma backward_from m p l1 : forall e l2 fuel, shows_back m p (l1 ++ e :: l2) -> (List.length l1 < fuel)%nat -> backward fuel m p e = Some (Ok (rev l1)).
Proof.
  induction l1 as [|y l1 IH] using rev_ind; intros e l2 fuel [S B] F; (destruct fuel as [|k]; [cbn in F; lia|]); rewrite backward_S;
    pose proof S as (_ & C & ND & N); unfold PrevChild.
  - destruct (N [] e l2 eq_refl) as [E _]. replace (e =? 0) with false by lia. rewrite C. cbn [obind app hd]. rewrite Z.eqb_refl. reflexivity.
  - destruct (N (l1 ++ [y]) e l2 eq_refl) as [E _]. replace (e =? 0) with false by lia. rewrite C. cbn [obind].
    replace (e =? hd 0 ((l1 ++ [y]) ++ e :: l2)) with false.
    + rewrite (shows_bwe _ _ _ _ S). cbn [obind]. rewrite (B (l1 ++ [y]) e l2 eq_refl), last_last. cbn [obind]. rewrite (shows_bwe _ _ _ _ S). cbn [obind rbind].
      rewrite <- app_assoc in *. cbn [app] in *. rewrite (IH y (e :: l2) k); [|split; auto|rewrite app_length in F; cbn in F; lia]. rewrite rev_app_distr. reflexivity.
    + symmetry. apply Z.eqb_neq. intro X. destruct (nodup_app _ _ ND) as (_ & _ & A). apply (A e); [|left; reflexivity]. rewrite X.
      rewrite hd_app' by (destruct l1; discriminate). apply hd_in. destruct l1; discriminate.
Qed.
Lemma backward_ok m p L fuel : shows_back m p L -> (List.length L < fuel)%nat -> backward fuel m p 0 = Some (Ok (rev L)).
Proof.
  intros [S B] F. destruct fuel as [|k]; [lia|]. rewrite backward_S. unfold PrevChild. change (0 =? 0) with true. cbv iota. pose proof S as (_ & C & ND & N). rewrite C. cbn [obind].
  destruct L as [|x L]; [reflexivity|]. cbn [hd]. destruct (N [] x L eq_refl) as [X _]. replace (x =? 0) with false by lia. rewrite (shows_bwe _ _ _ _ S). cbn [obind].
  rewrite (B [] x L eq_refl). cbn [obind]. change (last [] (last (x :: L) 0)) with (last (x :: L) 0). rewrite (shows_bwe _ _ _ _ S). cbn [obind rbind].
  destruct (exists_last (l := x :: L)) as (l' & y & E); [discriminate|]. rewrite E in *. rewrite last_last. rewrite (backward_from m p l' y [] k); [|split; auto|rewrite app_length in F; cbn in F; lia].
  rewrite rev_app_distr. reflexivity.
Qed.

(** ** While somebody stores *)
(** The memories a reader can meet: up to some read all show [L], from it on all show [L']. *)
Definition turns (s : nat -> list Z) p L L' : Prop := exists t : nat -> bool, (forall i j, (i <= j)%nat -> t i = true -> t j = true) /\
  forall i, (t i <> true -> shows (s i) p L) /\ (t i = true -> shows (s i) p L').
Lemma forward_c_S f s k x o : forward_c (S f) s k x o =
  rbind (Some (NextChild_c s k x o)) (fun r => match r with None => rret [] | Some (e, o) => rbind (forward_c f s (5 + k) x o) (fun l => rret (e :: l)) end).
Proof. reflexivity. Qed.
(** All memories from [k] on agree about the links from [e] on; [c] is the first child. *)
Definition agree (s : nat -> list Z) (k : nat) p c e (l : list Z) : Prop :=
  (forall i, (k <= i)%nat -> el_offset (s i) p = Ok p /\ el_child (s i) p = Ok c) /\ ~ In c l /\
  forall la x lb, e :: l = la ++ x :: lb -> 0 < x /\ forall i, (k <= i)%nat -> el_next (s i) x = Ok (hd c lb).
Lemma agree_step s k p c e l : agree s k p c e l -> NextChild_c s k p e = Ok (match l with [] => None | y :: _ => Some (y, y) end).
Proof.
  intros (A & NC & N). destruct (N [] e l eq_refl) as [E NX]. assert (W : forall i o, (k <= i)%nat -> bwe (s i) p o = Ok o).
  { intros i o I. unfold bwe. rewrite (proj1 (A i I)). cbn [obind]. f_equal. lia. }
  unfold NextChild_c. replace (e =? 0) with false by lia. rewrite W by lia. cbn [obind]. rewrite NX by lia. cbn [obind]. rewrite (proj2 (A (2 + k)%nat ltac:(lia))). cbn [obind].
  destruct l as [|y l]; cbn [hd]; [rewrite Z.eqb_refl; reflexivity|]. replace (y =? c) with false by (symmetry; apply Z.eqb_neq; intro; subst; apply NC; left; reflexivity).
  rewrite NX by lia. cbn [obind hd]. rewrite W by lia. reflexivity.
Qed.
Lemma agree_from p c l : forall s k e fuel, agree s k p c e l -> (List.length l < fuel)%nat -> forward_c fuel s k p e = Some (Ok l).
Proof.
  induction l as [|y l IH]; intros s k e fuel A F; (destruct fuel as [|f]; [cbn in F; lia|]); rewrite forward_c_S, (agree_step _ _ _ _ _ _ A); [reflexivity|].
  cbn [rbind]. rewrite (IH s (5 + k)%nat y f); [reflexivity| |cbn in F; lia]. destruct A as (A & NC & N). split; [intros i I; apply A; lia|].
  split; [intro I; apply NC; right; exact I|]. intros la x lb D. destruct (N (e :: la) x lb) as [X NX]; [cbn [app]; f_equal; exact D|]. split; [exact X|]. intros i I. apply NX. lia.
Qed.
Lemma nodup_first {A} (l1 : list A) x l2 d : NoDup (l1 ++ x :: l2) -> ~ In (hd d (l1 ++ [x])) l2.
Proof.
  intros ND I. assert (D : l1 ++ x :: l2 = (l1 ++ [x]) ++ l2) by (rewrite <- app_assoc; reflexivity). rewrite D in ND. destruct (nodup_app _ _ ND) as (_ & _ & AD).
  eapply AD; [|exact I]. apply hd_in. destruct l1; discriminate.
Qed.
Lemma hd_snoc {A} (l1 : list A) x l2 d : hd d (l1 ++ x :: l2) = hd d (l1 ++ [x]).
Proof. destruct l1; reflexivity. Qed.

(** The list grows in the middle or at the end: [l1 ++ B ++ l2] instead of [l1 ++ l2]. *)
Section Grow.
Variables (p : Z) (B l2 : list Z).
Hypothesis NB : B <> [].
Lemma grow_from lb : forall s k la e fuel, turns s p (la ++ e :: lb ++ l2) (la ++ e :: lb ++ B ++ l2) -> (List.length (lb ++ B ++ l2) < fuel)%nat ->
  forward_c fuel s k p e = Some (Ok (lb ++ l2)) \/ forward_c fuel s k p e = Some (Ok (lb ++ B ++ l2)).
Proof using NB.
  induction lb as [|y lb IH]; intros s k la e fuel (t & MT & T) F.
  all: set (c := hd 0 (la ++ [e])).
  all: 
    assert (C : forall i, el_offset (s i) p = Ok p /\ el_child (s i) p = Ok c) by
     (intro i; destruct (Bool.bool_dec (t i) true) as [A|A]; [destruct (proj2 (T i) A) as (O & C & _)|destruct (proj1 (T i) A) as (O & C & _)]; rewrite hd_snoc in C; auto).
  all: assert (W : forall i o, bwe (s i) p o = Ok o) by (intros i o; unfold bwe; rewrite (proj1 (C i)); cbn [obind]; f_equal; lia).
  - cbn [app] in *.
    (* which state does the read of the link see? *)
    assert (EP : 0 < e). { destruct (Bool.bool_dec (t k) true) as [A|A]; [destruct (proj2 (T k) A) as (_ & _ & _ & N); destruct (N la e (B ++ l2) eq_refl)|destruct (proj1 (T k) A) as (_ & _ & _ & N); destruct (N la e l2 eq_refl)]; auto. }
    destruct (Bool.bool_dec (t (1 + k)%nat) true) as [A|A].
    + (* the new list *)
      right. destruct fuel as [|f]; [lia|]. destruct (proj2 (T (1 + k)%nat) A) as (_ & _ & ND & N). destruct (N la e (B ++ l2) eq_refl) as [_ NX].
      destruct (proj2 (T (3 + k)%nat) (MT (1 + k)%nat (3 + k)%nat ltac:(lia) A)) as (_ & _ & _ & N3). destruct (N3 la e (B ++ l2) eq_refl) as [_ NX3].
      pose proof (nodup_first _ _ _ 0 ND) as NF. fold c in NF. destruct B as [|b B']; [congruence|]. cbn [app hd] in *.
      rewrite forward_c_S. unfold NextChild_c. replace (e =? 0) with false by lia. rewrite !W. cbn [obind]. rewrite NX, (proj2 (C _)). cbn [obind].
      replace (b =? c) with false by (symmetry; apply Z.eqb_neq; intro; subst b; apply NF; left; reflexivity). rewrite NX3. cbn [obind]. rewrite W. cbn [obind rbind].
      rewrite (agree_from p c (B' ++ l2) s (5 + k)%nat b f); [reflexivity| |cbn in F; lia]. split; [intros; apply C|]. split; [intro I; apply NF; right; exact I|].
      intros lx x ly D. destruct (N (la ++ e :: lx) x ly) as [X _]; [rewrite <- app_assoc; cbn [app]; rewrite D; reflexivity|]. split; [exact X|]. intros i I.
      destruct (proj2 (T i) (MT (1 + k)%nat i ltac:(lia) A)) as (_ & _ & _ & Ni). destruct (Ni (la ++ e :: lx) x ly) as [_ Nx]; [rewrite <- app_assoc; cbn [app]; rewrite D; reflexivity|]. rewrite Nx. f_equal.
      rewrite hd_snoc. reflexivity.
    + destruct fuel as [|f]; [lia|]. destruct (proj1 (T (1 + k)%nat) A) as (_ & _ & ND & N). destruct (N la e l2 eq_refl) as [_ NX]. pose proof (nodup_first _ _ _ 0 ND) as NF. fold c in NF.
      rewrite forward_c_S. unfold NextChild_c. replace (e =? 0) with false by lia. rewrite !W. cbn [obind]. rewrite NX, (proj2 (C _)). cbn [obind]. rewrite hd_snoc. fold c.
      destruct l2 as [|y l2'] eqn:EL; cbn [hd].
      * left. rewrite Z.eqb_refl. reflexivity.
      * replace (y =? c) with false by (symmetry; apply Z.eqb_neq; intro; subst y; apply NF; left; reflexivity).
        destruct (Bool.bool_dec (t (3 + k)%nat) true) as [A3|A3].
        -- right. destruct (proj2 (T (3 + k)%nat) A3) as (_ & _ & ND3 & N3). destruct (N3 la e (B ++ y :: l2') eq_refl) as [_ NX3]. pose proof (nodup_first _ _ _ 0 ND3) as NF3. fold c in NF3.
           destruct B as [|b B']; [congruence|]. cbn [app hd] in *. rewrite NX3. cbn [obind]. rewrite W. cbn [obind rbind].
           rewrite (agree_from p c (B' ++ y :: l2') s (5 + k)%nat b f); [reflexivity| |cbn in F; lia]. split; [intros; apply C|]. split; [intro I; apply NF3; right; exact I|].
           intros lx x ly D. destruct (N3 (la ++ e :: lx) x ly) as [X _]; [rewrite <- app_assoc; cbn [app]; rewrite D; reflexivity|]. split; [exact X|]. intros i I.
           destruct (proj2 (T i) (MT (3 + k)%nat i ltac:(lia) A3)) as (_ & _ & _ & Ni). destruct (Ni (la ++ e :: lx) x ly) as [_ Nx]; [rewrite <- app_assoc; cbn [app]; rewrite D; reflexivity|]. rewrite Nx. f_equal.
           rewrite hd_snoc. reflexivity.
        -- left. destruct (proj1 (T (3 + k)%nat) A3) as (_ & _ & _ & N3). destruct (N3 la e (y :: l2') eq_refl) as [_ NX3]. rewrite NX3. cbn [obind hd]. rewrite W. cbn [obind rbind].
           rewrite (agree_from p c l2' s (5 + k)%nat y f); [reflexivity| |rewrite app_length in F; cbn in F; lia]. split; [intros; apply C|]. split; [intro I; apply NF; right; exact I|].
           intros lx x ly D. destruct (N (la ++ e :: lx) x ly) as [X _]; [rewrite <- app_assoc; cbn [app]; rewrite D; reflexivity|]. split; [exact X|]. intros i I.
           destruct (Bool.bool_dec (t i) true) as [Ai|Ai].
           ++ destruct (proj2 (T i) Ai) as (_ & _ & _ & Ni). destruct (Ni (la ++ e :: B ++ lx) x ly) as [_ Nx]; [rewrite <- app_assoc; cbn [app]; rewrite <- app_assoc, D; reflexivity|]. rewrite Nx. f_equal. rewrite hd_snoc. reflexivity.
           ++ destruct (proj1 (T i) Ai) as (_ & _ & _ & Ni). destruct (Ni (la ++ e :: lx) x ly) as [_ Nx]; [rewrite <- app_assoc; cbn [app]; rewrite D; reflexivity|]. rewrite Nx. f_equal. rewrite hd_snoc. reflexivity.
  - destruct fuel as [|f]; [lia|]. cbn [app] in *.
    assert (NX : forall i, 0 < e /\ el_next (s i) e = Ok y). { intro i. destruct (Bool.bool_dec (t i) true) as [A|A]; [destruct (proj2 (T i) A) as (_ & _ & _ & N); exact (N la e (y :: lb ++ B ++ l2) eq_refl)|destruct (proj1 (T i) A) as (_ & _ & _ & N); exact (N la e (y :: lb ++ l2) eq_refl)]. }
    assert (NC : y <> c). { destruct (Bool.bool_dec (t k) true) as [A|A]; [destruct (proj2 (T k) A) as (_ & _ & ND & _)|destruct (proj1 (T k) A) as (_ & _ & ND & _)]; pose proof (nodup_first _ _ _ 0 ND) as NF; fold c in NF; intro; subst y; apply NF; left; reflexivity. }
    rewrite forward_c_S. unfold NextChild_c. destruct (NX k) as [E _]. replace (e =? 0) with false by lia. rewrite !W. cbn [obind]. rewrite (proj2 (NX _)), (proj2 (C _)). cbn [obind].
    replace (y =? c) with false by lia. rewrite (proj2 (NX _)). cbn [obind]. rewrite W. cbn [obind rbind].
    destruct (IH s (5 + k)%nat (la ++ [e]) y f) as [-> | ->]; [|cbn in F; lia|left; reflexivity|right; reflexivity].
    exists t. split; [exact MT|]. intro i. rewrite <- !app_assoc. exact (T i).
Qed.
End Grow.
Lemma grow_ok p l1 B l2 s k fuel : B <> [] -> (l1 = [] -> l2 = []) -> turns s p (l1 ++ l2) (l1 ++ B ++ l2) -> (List.length (l1 ++ B ++ l2) < fuel)%nat ->
  forward_c fuel s k p 0 = Some (Ok (l1 ++ l2)) \/ forward_c fuel s k p 0 = Some (Ok (l1 ++ B ++ l2)).
Proof.
  intros NB E12 T F. destruct fuel as [|f]; [lia|]. rewrite forward_c_S. unfold NextChild_c. change (0 =? 0) with true. cbv iota. destruct l1 as [|x l1].
  - rewrite (E12 eq_refl) in *. rewrite app_nil_r in *. cbn [app] in *. destruct T as (t & MT & T). destruct B as [|b B]; [congruence|].
    destruct (Bool.bool_dec (t k) true) as [A|A].
    + right. assert (S : forall i, (k <= i)%nat -> shows (s i) p (b :: B)) by (intros i I; rewrite <- (app_nil_r (b :: B)); apply (proj2 (T i)), (MT k); auto).
      assert (W : forall i o, (k <= i)%nat -> bwe (s i) p o = Ok o) by (intros i o I; apply (shows_bwe _ _ _ _ (S i I))).
      destruct (S k ltac:(lia)) as (_ & C & ND & N). rewrite C. cbn [obind hd]. destruct (N [] b B eq_refl) as [X _]. replace (b =? 0) with false by lia.
      destruct (S (1 + k)%nat ltac:(lia)) as (_ & C1 & _). rewrite C1. cbn [obind hd]. rewrite W by lia. cbn [obind rbind].
      rewrite (agree_from p b B s (5 + k)%nat b f); [rewrite app_nil_r; reflexivity| |cbn in F; lia]. split; [intros i I; destruct (S i ltac:(lia)) as (O & C2 & _); auto|]. split; [inversion ND; auto|].
      intros la x lb D. destruct (N la x lb D) as [X1 _]. split; [exact X1|]. intros i I. destruct (S i ltac:(lia)) as (_ & _ & _ & Ni). destruct (Ni la x lb D) as [_ Nx]. rewrite Nx. reflexivity.
    + left. destruct (proj1 (T k) A) as (_ & C & _). rewrite C. reflexivity.
  - assert (T' := T). destruct T as (t & MT & T). assert (C : forall i, el_offset (s i) p = Ok p /\ el_child (s i) p = Ok x) by
     (intro i; destruct (Bool.bool_dec (t i) true) as [A|A]; [destruct (proj2 (T i) A) as (O & C & _)|destruct (proj1 (T i) A) as (O & C & _)]; auto).
    assert (X : 0 < x). { destruct (Bool.bool_dec (t k) true) as [A|A]; [destruct (proj2 (T k) A) as (_ & _ & _ & N); destruct (N [] x (l1 ++ B ++ l2) eq_refl)|destruct (proj1 (T k) A) as (_ & _ & _ & N); destruct (N [] x (l1 ++ l2) eq_refl)]; auto. }
    rewrite !(proj2 (C _)). cbn [obind]. replace (x =? 0) with false by lia. unfold bwe. rewrite (proj1 (C _)). cbn [obind rbind]. replace (p - p + x) with x by lia.
    destruct (grow_from p B l2 NB l1 s (5 + k)%nat [] x f T') as [-> | ->]; [cbn in F; lia|left; reflexivity|right; reflexivity].
Qed.
