(** The claims about pools, from the invariant. *)
From Verif Require Import Base BaseFacts Types ListFacts Sort Xb XbSpec XbFacts XbWrite WriteProofs Bw BwFacts BwRing BwSpec BwHist BwAlloc BwProofs BwRead.

(** ** Blocks *)
Definition blocks_ok m (B : list (Z * Z)) a : Prop :=
  pool m a /\ (forall x n, In (x, n) B -> HEADER <= x /\ 0 < n /\ x + n <= a /\ x mod 4 = 0) /\ ForallOrdPairs apart B.
Lemma blocks_more m B a m' a' x n : blocks_ok m B a -> pool m' a' -> a <= x -> 0 < n -> x + n <= a' -> x mod 4 = 0 -> blocks_ok m' ((x, n) :: B) a'.
Proof.
  intros (P & I & O) P' AX N XA X4. pose proof P as (_ & _ & _ & _ & B4 & _). split; [exact P'|]. split.
  - intros y k [E|J]; [injection E as <- <-; lia|]. specialize (I y k J). lia.
  - constructor; [|exact O]. apply Forall_forall. intros [y k] J. right. cbn. specialize (I y k J). lia.
Qed.
Lemma blocks_same m B a m' a' : blocks_ok m B a -> pool m' a' -> a <= a' -> blocks_ok m' B a'.
Proof. intros (P & I & O) P' A. split; [exact P'|]. split; [|exact O]. intros y k J. specialize (I y k J). lia. Qed.
Lemma size_pos ty n k : XBT_Size2 ty n = Ok k -> 0 <= k -> 0 < 24 + k.
Proof. lia. Qed.
Lemma allocs_ok m B : allocs m B -> exists a, blocks_ok m B a.
Proof.
  induction 1 as [m a P|m B n x m' _ [a I] E|m B n x m' _ [a I] E|m B disk ty n k x m' _ [a I] E K|m B n m' _ [a I] E|m B n m' _ [a I] E|m B disk ty n m' _ [a I] E|m B disk n ok m' _ [a I] E|m B x n q bs m' _ [a I] J Q1 Q2 W];
    try pose proof I as (P & BI & _); try pose proof P as (_ & _ & _ & _ & B4 & A4 & _).
  - exists a. split; [exact P|]. split; [contradiction|constructor].
  - apply (allocate_ok _ a) in E; [|exact P]. destruct E as (N & -> & P' & _). exists (a + align_up 4 n). pose proof (align4_ge n). eapply blocks_more; eauto; lia.
  - apply (allocate8_ok _ a) in E; [|exact P]. destruct E as (N & -> & P' & _). exists (align_up 8 a + align_up 8 n). pose proof (align8_ge n). pose proof (align8_ge a). eapply blocks_more; eauto; lia.
  - apply (new_element_ok _ _ a) in E; [|exact P]. destruct E as (s2 & a' & K' & S0 & AX & X4 & _ & XA & P' & _). rewrite K in K'. injection K' as <-. exists a'. eapply blocks_more; eauto; lia.
  - apply (allocate_ok _ a) in E; [|exact P]. destruct E as (-> & _). eauto.
  - apply (allocate8_ok _ a) in E; [|exact P]. destruct E as ((a' & P' & L) & _). exists a'. eapply blocks_same; eauto.
  - apply (new_element_ok _ _ a) in E; [|exact P]. destruct E as (a' & P' & L & _). exists a'. eapply blocks_same; eauto.
  - apply (makeSpace_ok _ _ a) in E; [|exact P]. destruct E as (P' & _). exists a. eapply blocks_same; eauto; lia.
  - exists a. eapply blocks_same; [exact I| |lia]. specialize (BI _ _ J). unfold HEADER in *. eapply pool_wr; eauto. lia.
Qed.
Theorem blocks_inside m B : allocs m B -> (forall x n, In (x, n) B -> HEADER <= x /\ 0 < n /\ x + n <= zlen m /\ x mod 4 = 0) /\ ForallOrdPairs apart B.
Proof.
  intros A. destruct (allocs_ok _ _ A) as (a & P & I & O). pose proof P as (_ & _ & _ & _ & B4 & _). split; [|exact O]. intros x n J. specialize (I x n J). lia.
Qed.
Lemma blocks_extend m B a m' : blocks_ok m B a -> extends m a m' -> forall y k, In (y, k) B -> rd m' y k = rd m y k.
Proof. intros (_ & I & _) (_ & X) y k J. specialize (I y k J). unfold HEADER in I. apply X; lia. Qed.
Lemma zero_part m x n N : 0 <= n <= N -> rd m x N = Ok (zrepeat 0 N) -> rd m x n = Ok (zrepeat 0 n).
Proof.
  intros NN R. apply rd_inv in R as (_ & _ & H & _); [|lia]. replace (zrepeat 0 N) with (zrepeat 0 n ++ zrepeat 0 (N - n)) in H.
  - apply has_app in H as [H _]. apply has_rd in H. rewrite zlen_repeat in H by lia. exact H.
  - unfold zrepeat. rewrite <- repeat_app. f_equal. lia.
Qed.
Theorem block_fresh m B n x m' : allocs m B -> allocate m n = Ok (Some x, m') ->
  rd m' x n = Ok (zrepeat 0 n) /\ forall y k, In (y, k) B -> rd m' y k = rd m y k.
Proof.
  intros A E. destruct (allocs_ok _ _ A) as (a & I). pose proof I as (P & _). apply (allocate_ok _ a) in E; [|exact P]. destruct E as (N & -> & P' & X & _ & R).
  split; [|eapply blocks_extend; eauto]. pose proof (align4_ge n). eapply zero_part; [|exact R]. lia.
Qed.
Theorem block8_fresh m B n x m' : allocs m B -> allocate8 m n = Ok (Some x, m') ->
  x mod 8 = 0 /\ rd m' x n = Ok (zrepeat 0 n) /\ forall y k, In (y, k) B -> rd m' y k = rd m y k.
Proof.
  intros A E. destruct (allocs_ok _ _ A) as (a & I). pose proof I as (P & _). apply (allocate8_ok _ a) in E; [|exact P]. destruct E as (N & -> & P' & X & _ & R).
  split; [apply align8_ge|]. split; [|eapply blocks_extend; eauto]. pose proof (align8_ge n). eapply zero_part; [|exact R]. lia.
Qed.
Theorem element_fresh m B disk ty n k x m' : allocs m B -> new_element disk m ty n = Ok (Some x, m') -> XBT_Size2 ty n = Ok k ->
  (XBT_Align ty = 8 -> x mod 8 = 0) /\ (XBT_IS_VARSIZE ty = false -> rd m' (x + 24) k = Ok (zrepeat 0 k)) /\ forall y k, In (y, k) B -> rd m' y k = rd m y k.
Proof.
  intros A E K. destruct (allocs_ok _ _ A) as (a & I). pose proof I as (P & _). apply (new_element_ok _ _ a) in E; [|exact P].
  destruct E as (s2 & a' & K' & _ & _ & _ & X8 & _ & _ & X & ZR). rewrite K in K'. injection K' as <-. split; [exact X8|]. split; [exact ZR|eapply blocks_extend; eauto].
Qed.

(** ** Space *)
Lemma wr_ok m p bs : 0 <= p -> p + zlen bs <= zlen m -> exists m', wr m p bs = Ok m' /\ zlen m' = zlen m.
Proof. intros P B. destruct (wr_some m p bs) as (m' & W); [lia|lia|]. exists m'. split; [exact W|]. apply wr_kept in W as (_ & _ & [L _] & _). exact L. Qed.
Theorem space_allocate m B disk n m' : allocs m B -> makeSpace disk m n = Ok (true, m') -> 0 < n ->
  (exists x m'', allocate m' n = Ok (Some x, m'')) /\ (n mod 8 = 0 -> exists x m'', allocate8 m' n = Ok (Some x, m'')) /\
  (exists s M, p_file_size m' = Ok s /\ s = zlen m' /\ p_mmap_size m' = Ok M /\ s <= M) /\ forall y k, In (y, k) B -> rd m' y k = rd m y k.
Proof.
  intros A E N. destruct (allocs_ok _ _ A) as (a & I). pose proof I as (P & _). apply (makeSpace_ok _ _ a) in E; [|exact P]. destruct E as (P' & X & S). specialize (S eq_refl).
  pose proof (pool_len _ _ P') as [IL _]. pose proof P' as (PA & PL & PF & (M & PM & MM) & B4 & A4 & PG). unfold HEADER, int32 in *.
  pose proof (align4_ge n). pose proof (align8_ge n). pose proof (align8_ge a).
  split; [|split; [|split; [exists (zlen m'), M; auto|eapply blocks_extend; eauto]]].
  - unfold allocate. replace (n <=? 0) with false by lia. unfold int_, int32b at 1. replace (-2147483648 <=? n + 3) with true by lia. replace (n + 3 <=? 2147483647) with true by lia. cbn [andb].
    rewrite PA, PL. cbn [obind]. assert (a + align_up 4 n <= zlen m') by lia. unfold int32b. replace (-2147483648 <=? a + align_up 4 n) with true by lia. replace (a + align_up 4 n <=? 2147483647) with true by lia. cbn [andb].
    replace (zlen m' <? a + align_up 4 n) with false by lia. unfold wr32. destruct (wr_ok m' 52 (le 4 (a + align_up 4 n))) as (m1 & W1 & L1); [lia|rewrite zlen_le4; lia|]. rewrite W1. cbn [obind].
    destruct (wr_ok m1 a (zrepeat 0 (align_up 4 n))) as (m2 & W2 & _); [lia|rewrite zlen_repeat by lia; lia|]. rewrite W2. cbn [obind]. eauto.
  - intro N8. assert (align_up 8 a + align_up 8 n <= zlen m') by lia. unfold allocate8. replace (n <=? 0) with false by lia. rewrite PA. cbn [obind].
    unfold int_ at 1, int32b at 1. replace (-2147483648 <=? a + 7) with true by lia. replace (a + 7 <=? 2147483647) with true by lia. cbn [andb]. unfold wr32.
    destruct (wr_ok m' 52 (le 4 (align_up 8 a))) as (m1 & W1 & L1); [lia|rewrite zlen_le4; lia|]. rewrite W1. cbn [obind].
    unfold int_ at 1, int32b at 1. replace (-2147483648 <=? n + 7) with true by lia. replace (n + 7 <=? 2147483647) with true by lia. cbn [andb].
    destruct (wr_kept _ _ _ _ W1) as (_ & _ & K1 & _). rewrite zlen_le4 in K1. unfold p_limit in *. rewrite (kept_s32 _ _ _ _ _ K1) by lia. rewrite PL. cbn [obind].
    unfold int_, int32b. replace (-2147483648 <=? align_up 8 a + align_up 8 n) with true by lia. replace (align_up 8 a + align_up 8 n <=? 2147483647) with true by lia. cbn [andb].
    replace (zlen m' <? align_up 8 a + align_up 8 n) with false by lia.
    destruct (wr_ok m1 52 (le 4 (align_up 8 a + align_up 8 n))) as (m2 & W2 & L2); [lia|rewrite zlen_le4; lia|]. rewrite W2. cbn [obind].
    destruct (wr_ok m2 (align_up 8 a) (zrepeat 0 (align_up 8 n))) as (m3 & W3 & _); [lia|rewrite zlen_repeat by lia; lia|]. rewrite W3. cbn [obind]. eauto.
Qed.

(** ** Lists *)
Section Lists.
Variable kind : Z -> bool.
Variable size : Z -> Z.
Theorem list_iterates m F p L n : built kind size m F -> In p (members F) -> owned F p true L -> (List.length L < n)%nat ->
  forward n m p 0 = rret L /\ backward n m p 0 = rret (rev L).
Proof.
  intros B I O N. apply built_inv in B. split; [apply forward_ok; [eapply inv_shows; eauto|exact N]|]. apply backward_ok; [eapply inv_shows_back; eauto|exact N].
Qed.
Lemma final_snoc m pre m' : final m (pre ++ [m']) = m'.
Proof. apply last_last. Qed.
Theorem add_works m F p t F' : built kind size m F -> In p (members F) -> adds kind p t F F' ->
  exists tr, add m p t = Ok (true, tr) /\ built kind size (final m tr) F' /\ only_links (members F) m (final m tr).
Proof.
  intros B I A. destruct (inv_add kind size _ _ _ _ _ (built_inv _ _ _ _ B) I A) as (pre & m' & E & IV & _ & O). exists (pre ++ [m']). split; [exact E|].
  split; [eapply built_add; eauto|rewrite final_snoc; exact O].
Qed.
Theorem join_works m F a b F' : built kind size m F -> joins a b F F' ->
  exists tr, join m a b = Ok (true, tr) /\ built kind size (final m tr) F' /\ only_links (members F) m (final m tr).
Proof.
  intros B A. destruct (inv_join kind size _ _ _ _ _ (built_inv _ _ _ _ B) A) as (m1 & m2 & m3 & m4 & E & IV & _ & O). exists [m1; m2; m3; m4]. split; [exact E|].
  split; [eapply built_join; eauto|exact O].
Qed.
Theorem remove_works m F p t F' : built kind size m F -> removes kind p t F F' ->
  exists tr, remove m p t = Ok (true, tr) /\ built kind size (final m tr) F' /\ only_links (members F) m (final m tr).
Proof.
  intros B A. destruct (inv_remove kind size _ _ _ _ _ (built_inv _ _ _ _ B) A) as (tr & E & _ & O). exists tr. split; [exact E|]. split; [eapply built_remove; eauto|exact O].
Qed.
Theorem replace_works m F p old new child F' : built kind size m F -> replaces p old new child F F' -> ~ In (Some (p, child), [old]) F ->
  exists tr, replace m p old new = Ok (true, tr) /\ built kind size (final m tr) F' /\ only_links (members F) m (final m tr).
Proof.
  intros B A N. destruct (inv_replace kind size _ _ _ _ _ _ _ (built_inv _ _ _ _ B) A N) as (tr & E & _ & O). exists tr. split; [exact E|]. split; [eapply built_replace; eauto|exact O].
Qed.

(** ** Lists while they change *)
Lemma owner_one F p k L L' : NoDup (owners F) -> owned F p k L -> owned F p k L' -> L = L'.
Proof.
  intros ND [O|[-> U]] [O'|[-> U']]; auto; [|exfalso; eapply U'; eauto|exfalso; eapply U; eauto].
  revert ND O O'. induction F as [|[o X] F IH]; [contradiction|]. intros ND [E|J] [E'|J'].
  - congruence.
  - injection E as -> ->. cbn in ND. inversion ND; subst. exfalso. apply owners_in in J'. auto.
  - injection E' as -> ->. cbn in ND. inversion ND; subst. exfalso. apply owners_in in J. auto.
  - apply IH; auto. destruct o; cbn in ND; [inversion ND; auto|exact ND].
Qed.
(** [L'] is [L] with something put in behind the first element. *)
Definition grows (L L' : list Z) : Prop := exists l1 B l2, B <> [] /\ (l1 = [] -> l2 = []) /\ L = l1 ++ l2 /\ L' = l1 ++ B ++ l2.
Lemma owned_tail F p k L : forall o X, o <> Some (p, k) -> owned ((o, X) :: F) p k L -> owned F p k L.
Proof.
  intros o X N [[E|J]|[-> U]]; [injection E as -> ->; congruence|left; exact J|right]. split; [reflexivity|]. intros L' J. apply (U L'). right. exact J.
Qed.
Lemma owned_head F p k L X : NoDup (owners ((Some (p, k), X) :: F)) -> owned ((Some (p, k), X) :: F) p k L -> L = X.
Proof. intros ND O. eapply owner_one; [exact ND|exact O|left; left; reflexivity]. Qed.
Lemma grown F F' p L L' o X Y N R : NoDup (owners F) -> NoDup (owners F') -> Permutation F ((o, X) :: (None, Y) :: R) -> F' = (o, N) :: R ->
  owned F p true L -> owned F' p true L' -> grows X N -> L = L' \/ grows L L'.
Proof.
  intros ND ND' P -> O O' G. apply (owned_perm _ _ _ _ _ P) in O. apply (Permutation_NoDup (owners_perm _ _ P)) in ND.
  destruct o as [[p0 k0]|].
  - destruct (Z.eq_dec p0 p) as [->|NE]; [destruct k0|].
    + right. apply owned_head in O; [|exact ND]. apply owned_head in O'; [|exact ND']. subst. exact G.
    + left. apply owned_tail in O; [|congruence]. apply owned_tail in O; [|congruence]. apply owned_tail in O'; [|congruence]. cbn in ND'. inversion ND'; subst. eapply owner_one; eauto.
    + left. apply owned_tail in O; [|congruence]. apply owned_tail in O; [|congruence]. apply owned_tail in O'; [|congruence]. cbn in ND'. inversion ND'; subst. eapply owner_one; eauto.
  - left. apply owned_tail in O; [|congruence]. apply owned_tail in O; [|congruence]. apply owned_tail in O'; [|congruence]. cbn in ND'. eapply owner_one; eauto.
Qed.
Lemma inv_owners m F : inv kind size m F -> NoDup (owners F).
Proof. intros (h & a & _ & _ & S). apply S. Qed.
Lemma joins_grow m m' F a b F' p L L' : inv kind size m F -> inv kind size m' F' -> joins a b F F' -> owned F p true L -> owned F' p true L' -> L = L' \/ grows L L'.
Proof.
  intros I I' J O O'. apply inv_owners in I, I'. inversion J; subst.
  - eapply (grown F _ p L L' o (a :: A) (B1 ++ b :: B2)); eauto. exists (a :: A), ((b :: B2) ++ B1), []. split; [discriminate|]. rewrite !app_nil_r. repeat split; try discriminate.
  - eapply (grown F _ p L L' o (A1 ++ a :: A2) (B1 ++ b :: B2)); eauto. exists A1, ((b :: B2) ++ B1), (a :: A2). split; [discriminate|]. split; [congruence|]. split; reflexivity.
Qed.
Lemma adds_grow m m' F q t F' p L L' : inv kind size m F -> inv kind size m' F' -> adds kind q t F F' -> owned F p true L -> owned F' p true L' -> L = L' \/ grows L L'.
Proof.
  intros I I' J O O'. apply inv_owners in I, I'. inversion J as [F0 B1 B2 R P U|F0 B1 B2 X R P]; subst.
  - apply (owned_perm _ _ _ _ _ P) in O. apply owned_tail in O; [|discriminate]. destruct (Z.eq_dec q p) as [->|NE]; [destruct (kind t) eqn:K|].
    + right. apply owned_head in O'; [|exact I']. subst L'. destruct O as [O|[-> _]]; [exfalso; eapply U; eauto|]. exists [], ((t :: B2) ++ B1), []. rewrite !app_nil_r. split; [discriminate|]. split; [auto|]. split; reflexivity.
    + left. apply owned_tail in O'; [|congruence]. cbn in I'. inversion I'; subst. eapply owner_one; eauto.
    + left. apply owned_tail in O'; [|congruence]. cbn in I'. inversion I'; subst. eapply owner_one; eauto.
  - assert (P' : Permutation F ((Some (q, kind t), X) :: (None, B1 ++ t :: B2) :: R)) by (eapply Permutation_trans; [exact P|apply perm_swap]).
    eapply (grown F _ p L L' (Some (q, kind t)) X (B1 ++ t :: B2)); eauto. exists X, ((t :: B2) ++ B1), []. rewrite !app_nil_r. split; [discriminate|]. split; [auto|]. split; reflexivity.
Qed.
(** A reader among the stores *)
Lemma met_turns m pre m' s p L L' : meets m (pre ++ [m']) s -> shows m p L -> (forall mi, In mi pre -> shows mi p L) -> shows m' p L' -> turns s p L L'.
Proof.
  intros (at_ & M & N) S0 S1 S2. set (n := S (List.length pre)). exists (fun i => Nat.eqb (at_ i) n). assert (B : forall i, (at_ i <= n)%nat).
  { intro i. assert (at_ i < List.length (m :: pre ++ [m']))%nat. { apply nth_error_Some. rewrite N. discriminate. } cbn in H. rewrite app_length in H. cbn in H. unfold n. lia. }
  split; [intros i j I E; apply Nat.eqb_eq in E; apply Nat.eqb_eq; specialize (M i j I); specialize (B j); lia|]. intro i. split; intro E.
  - assert (NE : at_ i <> n) by (intro X; apply E, Nat.eqb_eq, X). specialize (N i). specialize (B i). change (m :: pre ++ [m']) with ((m :: pre) ++ [m']) in N.
    rewrite nth_error_app1 in N by (cbn; unfold n in *; lia). apply nth_error_In in N as [<-|J]; auto.
  - apply Nat.eqb_eq in E. specialize (N i). rewrite E in N. change (m :: pre ++ [m']) with ((m :: pre) ++ [m']) in N.
    rewrite nth_error_app2 in N by (cbn; unfold n; lia). cbn [List.length] in N. unfold n in N. rewrite Nat.sub_diag in N. cbn in N. injection N as <-. exact S2.
Qed.
Lemma same_ok p L s n : turns s p L L -> (List.length L < n)%nat -> forward_c n s 0 p 0 = rret L.
Proof.
  intros (t & _ & T) F. assert (S : forall i, shows (s i) p L) by (intro i; destruct (Bool.bool_dec (t i) true) as [A|A]; [apply (proj2 (T i) A)|apply (proj1 (T i) A)]).
  destruct n as [|f]; [lia|]. rewrite forward_c_S. unfold NextChild_c. change (0 =? 0) with true. cbv iota. destruct (S 0%nat) as (_ & C & ND & N). rewrite C. cbn [obind]. destruct L as [|x L]; [reflexivity|].
  destruct (N [] x L eq_refl) as [X _]. cbn [hd]. replace (x =? 0) with false by lia. destruct (S (1 + 0)%nat) as (_ & C1 & _). rewrite C1. cbn [obind hd]. rewrite (shows_bwe _ _ _ _ (S _)). cbn [obind rbind].
  rewrite (agree_from p x L s (5 + 0)%nat x f); [reflexivity| |cbn in F; lia]. split; [intros i _; destruct (S i) as (O & C2 & _); auto|]. split; [inversion ND; auto|].
  intros la y lb D. split; [apply (N la y lb D)|]. intros i _. destruct (S i) as (_ & _ & _ & Ni). exact (proj2 (Ni la y lb D)).
Qed.
Lemma turns_read s p L L' n : turns s p L L' -> L = L' \/ grows L L' -> (List.length L' < n)%nat -> forward_c n s 0 p 0 = rret L \/ forward_c n s 0 p 0 = rret L'.
Proof.
  intros T [<-|(l1 & B & l2 & NB & E & -> & ->)] F; [left; apply same_ok; auto|]. apply (grow_ok p l1 B l2 s 0 n); auto.
Qed.
Lemma stored_read m tr p L L' n mi : (exists pre m', tr = pre ++ [m'] /\ (forall mi, In mi pre -> shows mi p L) /\ shows m' p L') -> shows m p L -> In mi (m :: tr) ->
  (List.length L < n)%nat -> (List.length L' < n)%nat -> forward n mi p 0 = rret L \/ forward n mi p 0 = rret L'.
Proof.
  intros (pre & m' & -> & S1 & S2) S0 [<-|J] N N'; [left; apply forward_ok; auto|]. apply in_app_or in J as [J|[<-|[]]]; [left; apply forward_ok; auto|right; apply forward_ok; auto].
Qed.
Theorem add_atomic m F q t F' p L L' n tr ok : built kind size m F -> In q (members F) -> adds kind q t F F' -> add m q t = Ok (ok, tr) ->
  In p (members F) -> owned F p true L -> owned F' p true L' -> (List.length L < n)%nat -> (List.length L' < n)%nat ->
  (forall mi, In mi (m :: tr) -> forward n mi p 0 = rret L \/ forward n mi p 0 = rret L') /\
  (forall s, meets m tr s -> forward_c n s 0 p 0 = rret L \/ forward_c n s 0 p 0 = rret L').
Proof.
  intros B Iq A E Ip O O' N N'. assert (I := built_inv _ _ _ _ B). destruct (inv_add kind size _ _ _ _ _ I Iq A) as (pre & m' & E' & I' & SP & _). rewrite E' in E. injection E as _ <-.
  assert (Ip' : In p (members F')). { inversion A as [F0 B1 B2 R P U|F0 B1 B2 X R P]; subst; apply (Permutation_in _ (members_perm _ _ P)) in Ip; cbn in Ip |- *; rewrite ?in_app_iff in *; cbn in *; rewrite ?in_app_iff in *; cbn in *; tauto. }
  assert (S0 : shows m p L) by (eapply inv_shows; eauto). assert (S2 : shows m' p L') by (eapply inv_shows; eauto). assert (S1 : forall mi, In mi pre -> shows mi p L) by (intros; eapply SP; eauto).
  split.
  - intros mi J. eapply stored_read; eauto.
  - intros s M. eapply turns_read; [eapply met_turns; eauto|eapply adds_grow; [exact I|exact I'| | |]; eauto|exact N'].
Qed.
Theorem join_atomic m F a b F' p L L' n tr ok : built kind size m F -> joins a b F F' -> join m a b = Ok (ok, tr) ->
  In p (members F) -> owned F p true L -> owned F' p true L' -> (List.length L < n)%nat -> (List.length L' < n)%nat ->
  (forall mi, In mi (m :: tr) -> forward n mi p 0 = rret L \/ forward n mi p 0 = rret L') /\
  (forall s, meets m tr s -> forward_c n s 0 p 0 = rret L \/ forward_c n s 0 p 0 = rret L').
Proof.
  intros B A E Ip O O' N N'. assert (I := built_inv _ _ _ _ B). destruct (inv_join kind size _ _ _ _ _ I A) as (m1 & m2 & m3 & m4 & E' & I' & SP & _). rewrite E' in E. injection E as _ <-.
  assert (Ip' : In p (members F')). { inversion A; subst; match goal with P : Permutation F _ |- _ => apply (Permutation_in _ (members_perm _ _ P)) in Ip end; cbn in Ip |- *; rewrite ?in_app_iff in *; cbn in *; rewrite ?in_app_iff in *; cbn in *; rewrite ?in_app_iff in *; tauto. }
  assert (S0 : shows m p L) by (eapply inv_shows; eauto). assert (S2 : shows m4 p L') by (eapply inv_shows; eauto). assert (S1 : forall mi, In mi [m1; m2; m3] -> shows mi p L) by (intros; eapply SP; eauto).
  split.
  - intros mi J. eapply stored_read; eauto.
  - intros s M. eapply turns_read; [eapply (met_turns m [m1; m2; m3] m4); eauto|eapply joins_grow; [exact I|exact I'| | |]; eauto|exact N'].
Qed.
End Lists.
