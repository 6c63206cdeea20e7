(** Traversals of documents. *)
From Coq Require Import Relations Permutation.
From Verif Require Import Base BaseFacts Types ListFacts Sort Symtab SymtabSpec SymtabProofs Xb XbSpec XbFacts XbSymProofs XbWrite DocSpec NavSpec WriteProofs FillProofs InitProofs OpenProofs ReadProofs NavProofs CheckSpec Bw BwAlloc BwFileProofs Walk WalkSpec.

Lemma itree_ind' (P : itree -> Prop) : (forall x kids, Forall P kids -> P (At x kids)) -> forall t, P t.
Proof. intros H. fix IH 1. intros [x kids]. apply H. induction kids as [|k kids IHk]; constructor; auto. Qed.
Lemma rbind_int {B} d (f : Z -> run B) : int32 d -> rbind (int_ok d) f = f d.
Proof. intros I. unfold int_ok, int32b. unfold int32, INT_MIN, INT_MAX in *. replace ((_ <=? d) && (d <=? _)) with true by lia. reflexivity. Qed.
Lemma kid_ok m x kids i t : it_childcount m x = Ok (zlen kids) -> nth_error kids i = Some t -> getChildByIndex m (Some x) (Z.of_nat i) = Ok (Some (place t)) -> kid_at m x (Z.of_nat i) = Ok (place t).
Proof.
  intros C N G. assert (Hi : (i < List.length kids)%nat) by (apply nth_error_Some; congruence). unfold getChildByIndex in G. rewrite C in G. cbn [obind] in G.
  replace ((Z.of_nat i <? 0) || (zlen kids <=? Z.of_nat i)) with false in G by (unfold zlen; lia). unfold kid_at. apply obind_inv in G as (c & -> & G). cbn [obind]. apply obind_inv in G as (r & -> & G). cbn [obind]. congruence.
Qed.
Lemma each_ok {A} m x kids0 (f : Z -> run (list A)) (g : itree -> list A) : it_childcount m x = Ok (zlen kids0) -> (forall i t, nth_error kids0 i = Some t -> getChildByIndex m (Some x) (Z.of_nat i) = Ok (Some (place t))) ->
  (forall t, In t kids0 -> f (place t) = rret (g t)) -> forall kids i, (forall j, nth_error kids j = nth_error kids0 (i + j)) -> each_kid (List.length kids) (Z.of_nat i) m x f = rret (flat_map g kids).
Proof.
  intros C G F. induction kids as [|t kids IH]; intros i N; [reflexivity|]. cbn [List.length each_kid flat_map]. pose proof (N 0%nat) as N0. rewrite Nat.add_0_r in N0. cbn [nth_error] in N0. symmetry in N0.
  rewrite (kid_ok m x kids0 i t C N0 (G _ _ N0)), rbind_ok, (F t (nth_error_In _ _ N0)), rbind_rret. replace (Z.of_nat i + 1) with (Z.of_nat (S i)) by lia. rewrite (IH (S i)), rbind_rret; [reflexivity|].
  intros j. specialize (N (S j)). cbn [nth_error] in N. rewrite N. f_equal. lia.
Qed.
Lemma level_kid t kids : In t kids -> (levels t <= fold_right Nat.max O (map levels kids))%nat.
Proof. induction kids as [|k kids IH]; [intros []|]. intros [->|J]; cbn; [|specialize (IH J)]; lia. Qed.
Lemma forallP {A} (P : A -> Prop) l : Forall P l -> forall x, In x l -> P x.
Proof. rewrite Forall_forall. auto. Qed.
Theorem visited m : forall t fuel deep, laid m t -> (levels t <= fuel)%nat -> 0 <= deep -> deep + Z.of_nat (levels t) <= INT_MAX -> ForAllChildrenRecursively fuel m (Some (place t)) deep = rret (parents_first deep t).
Proof.
  unfold ForAllChildrenRecursively. induction t as [x kids IH] using itree_ind'. intros fuel deep L LV D0 DB. cbn [place levels parents_first] in *. destruct fuel as [|k]; [lia|]. cbn [visit]. inversion L as [? ? C G FL]; subst. rewrite C, rbind_ok. unfold zlen at 1. rewrite Nat2Z.id.
  apply (each_ok m x kids _ (fun k => (place k, deep) :: parents_first (deep + 1) k) C G) with (i := 0%nat); [|auto]. intros t J. pose proof (level_kid t kids J). unfold INT_MAX in *. rewrite rbind_int by (unfold int32, INT_MIN, INT_MAX; lia).
  rewrite (forallP _ _ IH t J k (deep + 1) (forallP _ _ FL t J)) by lia. rewrite rbind_rret. reflexivity.
Qed.
Theorem visited_post m : forall t fuel deep, laid m t -> (levels t <= fuel)%nat -> 0 <= deep -> deep + Z.of_nat (levels t) <= INT_MAX -> ForAllChildrenRecursively_PostOrder fuel m (Some (place t)) deep = rret (children_first deep t).
Proof.
  unfold ForAllChildrenRecursively_PostOrder. induction t as [x kids IH] using itree_ind'. intros fuel deep L LV D0 DB. cbn [place levels children_first] in *. destruct fuel as [|k]; [lia|]. cbn [visit_post]. inversion L as [? ? C G FL]; subst. rewrite C, rbind_ok. unfold zlen at 1. rewrite Nat2Z.id.
  apply (each_ok m x kids _ (fun k => children_first (deep + 1) k ++ [(place k, deep)]) C G) with (i := 0%nat); [|auto]. intros t J. pose proof (level_kid t kids J). unfold INT_MAX in *. rewrite rbind_int by (unfold int32, INT_MIN, INT_MAX; lia).
  rewrite (forallP _ _ IH t J k (deep + 1) (forallP _ _ FL t J)) by lia. rewrite rbind_rret. reflexivity.
Qed.

(** ** Nothing is left out, nothing else is visited *)
Lemma laid_reach m : forall t, laid m t -> forall y, (In y (map fst (parents_first 0 t)) <-> exists z, child m (place t) z /\ reach m z y) /\ forall deep, map fst (parents_first deep t) = map fst (parents_first 0 t).
Proof.
  induction t as [x kids IH] using itree_ind'. intros L y. inversion L as [? ? C G FL]; subst. cbn [place parents_first].
  assert (SD : forall d d', map fst (flat_map (fun k => (place k, d) :: parents_first (d + 1) k) kids) = map fst (flat_map (fun k => (place k, d') :: parents_first (d' + 1) k) kids)).
  { intros d d'. clear - IH FL. induction kids as [|k kids IHk]; [reflexivity|]. cbn [flat_map]. rewrite !map_app. inversion IH as [|? ? H1 H2]; subst. inversion FL as [|? ? F1 F2]; subst. rewrite (IHk H2 F2). f_equal. cbn [map fst]. f_equal.
    rewrite (proj2 (H1 F1 0) (d + 1)), (proj2 (H1 F1 0) (d' + 1)). reflexivity. }
  split; [|intros; apply SD]. split.
  - intros J. apply in_map_iff in J as ((y' & d) & <- & J). apply in_flat_map in J as (k & JK & J). exists (place k). apply In_nth_error in JK as (i & N). split; [exists (Z.of_nat i); apply G, N|]. cbn [fst]. destruct J as [J|J]; [injection J as <- _; constructor|].
    pose proof (forallP _ _ IH k (nth_error_In _ _ N) (forallP _ _ FL k (nth_error_In _ _ N)) y') as [[H _] H2]. destruct H as (z & CH & RE); [|econstructor; eassumption]. rewrite <- (H2 (0 + 1)). apply (in_map fst) in J. exact J.
  - intros (z & (i & CI) & RE). pose proof CI as CI0. unfold getChildByIndex in CI. rewrite C in CI. cbn [obind] in CI. destruct ((i <? 0) || (zlen kids <=? i)) eqn:B; [discriminate|].
    destruct (nth_error kids (Z.to_nat i)) as [k|] eqn:N; [|apply nth_error_None in N; unfold zlen in B; lia]. pose proof (G _ _ N) as GN. rewrite Z2Nat.id in GN by lia. rewrite GN in CI0. injection CI0 as <-. clear CI.
    pose proof (nth_error_In _ _ N) as JK. rewrite flat_map_concat_map, concat_map, map_map. apply in_concat. exists (map fst ((place k, 0) :: parents_first (0 + 1) k)). split; [apply in_map_iff; exists k; auto|]. cbn [map fst].
    inversion RE as [|? z' ? CH RE']; subst; [left; reflexivity|]. right. pose proof (forallP _ _ IH k JK (forallP _ _ FL k JK) y) as [[_ HH] H2]. rewrite H2. apply HH. eauto.
Qed.
Theorem visited_all m t deep y : laid m t -> (In y (map fst (parents_first deep t)) <-> exists z, child m (place t) z /\ reach m z y).
Proof. intros L. destruct (laid_reach m t L y) as [H1 H2]. rewrite H2. exact H1. Qed.
Theorem same_visits t : forall deep, Permutation (parents_first deep t) (children_first deep t).
Proof.
  induction t as [x kids IH] using itree_ind'. intros deep. cbn [parents_first children_first]. induction IH as [|k kids Hk _ IHk]; [constructor|]. cbn [flat_map]. apply Permutation_app; [|exact IHk].
  rewrite <- Permutation_cons_append. constructor. apply Hk.
Qed.

(** ** With the array *)
Lemma way_prefix deep0 R a b : lists_way deep0 R (a ++ b) -> lists_way deep0 R a.
Proof. intros [L H]. split; [exact L|]. intros i p N. apply H. rewrite nth_error_app1; [exact N|]. apply nth_error_Some. congruence. Qed.
Lemma nth_put (R : list Z) d x j : 0 <= d < zlen R -> nth_error (ztake d R ++ [x] ++ zskip (d + 1) R) j = if Z.of_nat j =? d then Some x else nth_error R j.
Proof.
  intros D. unfold ztake, zskip, zlen in *. assert (L1 : List.length (firstn (Z.to_nat d) R) = Z.to_nat d) by (rewrite firstn_length; lia). destruct (Z.eqb_spec (Z.of_nat j) d) as [E|E].
  - subst d. rewrite Nat2Z.id in *. rewrite nth_error_app2 by lia. rewrite L1, Nat.sub_diag. reflexivity.
  - destruct (Nat.lt_ge_cases j (Z.to_nat d)) as [LT|GE].
    + rewrite nth_error_app1 by lia. rewrite <- (firstn_skipn (Z.to_nat d) R) at 2. rewrite nth_error_app1 by lia. reflexivity.
    + rewrite nth_error_app2 by lia. rewrite L1. cbn [app]. destruct (j - Z.to_nat d)%nat as [|k] eqn:K; [lia|]. cbn [nth_error]. rewrite <- (firstn_skipn (Z.to_nat (d + 1)) R) at 2. assert (L2 : List.length (firstn (Z.to_nat (d + 1)) R) = Z.to_nat (d + 1)) by (rewrite firstn_length; lia). rewrite nth_error_app2 by lia. f_equal. lia.
Qed.
Lemma note_ok deep0 R up x : 0 <= deep0 -> lists_way deep0 R up -> exists R', note (Some R) (deep0 + zlen up) x = rret (Some R') /\ lists_way deep0 R' (up ++ [x]).
Proof.
  intros D0 [L H]. unfold note, XML_MAX_DEEP. pose proof (zlen_nonneg up). destruct (Z.ltb_spec (deep0 + zlen up) 1024) as [B|B].
  - unfold put. replace ((deep0 + zlen up <? 0) || (zlen R <=? deep0 + zlen up)) with false by lia. rewrite rbind_rret. eexists. split; [reflexivity|]. split.
    + rewrite !zlen_app, zlen_take by lia. change (zlen [x]) with 1. rewrite zlen_skip by lia. lia.
    + intros i p N I1. rewrite nth_put by lia. rewrite Z2Nat.id by lia. destruct (Z.eqb_spec (deep0 + Z.of_nat i) (deep0 + zlen up)) as [E|E].
      * rewrite nth_error_app2 in N by (unfold zlen in E; lia). replace (i - List.length up)%nat with 0%nat in N by (unfold zlen in E; lia). exact N.
      * apply H; [|exact I1]. assert (i < List.length (up ++ [x]))%nat by (apply nth_error_Some; congruence). rewrite app_length in *. cbn in *. rewrite nth_error_app1 in N by (unfold zlen in E; lia). exact N.
  - exists R. split; [reflexivity|]. split; [exact L|]. intros i p N I1. apply H; [|exact I1]. rewrite nth_error_app1 in N by (unfold zlen in B; lia). exact N.
Qed.
Lemma each_a_ok {A B} m x kids0 (f : option (list Z) -> Z -> run (list A * option (list Z))) (g : itree -> list B) (Q : A -> B -> Prop) (I : list Z -> Prop) :
  it_childcount m x = Ok (zlen kids0) -> (forall i t, nth_error kids0 i = Some t -> getChildByIndex m (Some x) (Z.of_nat i) = Ok (Some (place t))) ->
  (forall t R, In t kids0 -> I R -> exists l R', f (Some R) (place t) = rret (l, Some R') /\ I R' /\ Forall2 Q l (g t)) ->
  forall kids i R, I R -> (forall j, nth_error kids j = nth_error kids0 (i + j)) -> exists l R', each_kid_a (List.length kids) (Z.of_nat i) m x f (Some R) = rret (l, Some R') /\ I R' /\ Forall2 Q l (flat_map g kids).
Proof.
  intros C G F. induction kids as [|t kids IH]; intros i R IR N; [exists [], R; split; [reflexivity|split; [exact IR|constructor]]|]. cbn [List.length each_kid_a flat_map]. pose proof (N 0%nat) as N0. rewrite Nat.add_0_r in N0. cbn [nth_error] in N0. symmetry in N0.
  rewrite (kid_ok m x kids0 i t C N0 (G _ _ N0)), rbind_ok. destruct (F t R (nth_error_In _ _ N0) IR) as (l & R1 & -> & IR1 & F1). rewrite rbind_rret. replace (Z.of_nat i + 1) with (Z.of_nat (S i)) by lia.
  destruct (IH (S i) R1 IR1) as (l2 & R2 & -> & IR2 & F2); [intros j; specialize (N (S j)); cbn [nth_error] in N; rewrite N; f_equal; lia|]. rewrite rbind_rret. exists (l ++ l2), R2. split; [reflexivity|]. split; [exact IR2|]. apply Forall2_app; assumption.
Qed.
Lemma visit_way m deep0 : 0 <= deep0 -> forall t fuel up R, laid m t -> (levels t <= fuel)%nat -> deep0 + zlen up + Z.of_nat (levels t) <= INT_MAX -> lists_way deep0 R up ->
  exists l R', visit_post_a fuel m (place t) (deep0 + zlen up) (Some R) = rret (l, Some R') /\ lists_way deep0 R' (up ++ [place t]) /\ Forall2 (with_way deep0) l (ways (up ++ [place t]) t).
Proof.
  intros D0. induction t as [x kids IH] using itree_ind'. intros fuel up R L LV DB W. cbn [place levels ways] in *. destruct fuel as [|k]; [lia|]. cbn [visit_post_a]. inversion L as [? ? C G FL]; subst.
  destruct (note_ok deep0 R up x D0 W) as (R1 & -> & W1). rewrite rbind_rret, C, rbind_ok. unfold zlen at 1. rewrite Nat2Z.id. pose proof (zlen_nonneg up).
  apply (each_a_ok m x kids _ (fun k => ways ((up ++ [x]) ++ [place k]) k ++ [(place k, (up ++ [x]) ++ [place k])]) (with_way deep0) (fun R => lists_way deep0 R (up ++ [x])) C G) with (i := 0%nat); [|exact W1|auto].
  intros t Rt J IR. pose proof (level_kid t kids J). unfold INT_MAX in *. rewrite rbind_int by (unfold int32, INT_MIN, INT_MAX; lia).
  assert (LE : zlen (up ++ [x]) = zlen up + 1) by (rewrite zlen_app; reflexivity).
  destruct (forallP _ _ IH t J k (up ++ [x]) Rt (forallP _ _ FL t J)) as (l & R' & E & W' & F); [lia|rewrite LE; lia|exact IR|]. rewrite LE, Z.add_assoc in E. rewrite E, rbind_rret. exists (l ++ [(place t, deep0 + zlen up, Some R')]), R'.
  split; [reflexivity|]. split; [eapply way_prefix; exact W'|]. apply Forall2_app; [exact F|]. constructor; [|constructor]. cbn [with_way fst snd]. split; [reflexivity|]. split; [rewrite zlen_app, LE; change (zlen [place t]) with 1; lia|]. eauto.
Qed.
Theorem visited_ways m t fuel deep R : laid m t -> (levels t <= fuel)%nat -> 0 <= deep -> deep + Z.of_nat (levels t) <= INT_MAX -> zlen R = 1024 ->
  exists l R', ForAllChildrenRecursively_PostOrderA fuel m (Some (place t)) deep (Some R) = rret (l, Some R') /\ Forall2 (with_way deep) l (ways [place t] t).
Proof.
  intros L LV D0 DB ZR. unfold ForAllChildrenRecursively_PostOrderA. destruct (visit_way m deep D0 t fuel [] R L LV) as (l & R' & E & _ & F); [change (zlen (@nil Z)) with 0; lia|split; [exact ZR|intros [|?]; discriminate]|].
  change (zlen (@nil Z)) with 0 in E. rewrite Z.add_0_r in E. eauto.
Qed.
(** The ways belong to the items in the order of [children_first]. *)
Theorem ways_order t : forall deep up, map (fun w => (fst w, deep + zlen (snd w) - zlen up - 1)) (ways up t) = children_first deep t.
Proof.
  induction t as [x kids IH] using itree_ind'. intros deep up. cbn [ways children_first]. induction IH as [|k kids Hk _ IHk]; [reflexivity|]. cbn [flat_map]. rewrite map_app, IHk. f_equal. rewrite map_app. cbn [map fst snd]. f_equal.
  - rewrite <- (Hk (deep + 1) (up ++ [place k])). apply map_ext. intros [y w]. cbn [fst snd]. f_equal. rewrite zlen_app. change (zlen [place k]) with 1. lia.
  - do 2 f_equal. rewrite zlen_app. change (zlen [place k]) with 1. lia.
Qed.

(** ** Converted documents *)
Lemma forall2_nth {A B} (Q : A -> B -> Prop) l : forall l', List.length l = List.length l' -> (forall i a b, nth_error l i = Some a -> nth_error l' i = Some b -> Q a b) -> Forall2 Q l l'.
Proof. induction l as [|a l IH]; intros [|b l'] L H; try discriminate; constructor; [apply (H 0%nat); reflexivity|]. apply IH; [cbn in L; lia|]. intros i. apply (H (S i)). Qed.
Lemma node_laid fl cr m limit root sy : zlen m <= INT_MAX -> made root cr -> table_names m sy (names (cr_tags cr)) -> forall t x e, (forall u, In u (elements t) -> In (name_of u) (names (cr_tags cr))) ->
  node_at fl cr m limit x e t -> e <= zlen m -> exists it, place it = x /\ laid m it /\ same_items m sy it t.
Proof.
  intros Hm M TN. induction t as [n v a k IH] using node_ind'. intros x e NA N He. destruct (node_open fl cr m limit Hm _ x e N He) as ((P & C & _ & X0 & _) & _ & (id & NI & FI) & e1 & e2 & V & A & K & LL). cbn [attrs_of kids_of name_of] in *.
  assert (Mv := proj1 V). pose proof (zlen_nonneg a). pose proof (zlen_nonneg k).
  assert (H1 : forall i t, nth_error k i = Some t -> exists it, getChildByIndex m (Some x) (Z.of_nat i) = Ok (Some (place it)) /\ laid m it /\ same_items m sy it t).
  { intros i t NT. destruct (kids_nth fl cr m limit Hm x k i _ _ _ t K X0 ltac:(lia) He NT) as (y & e3 & R & N' & Le). pose proof (nth_error_In _ _ NT) as J.
    destruct (forallP _ _ IH t J y e3) as (it & PI & LI & SI); [intros u Ju; apply NA; eapply elements_kids; eassumption|exact N'|lia|]. exists it. split; [|auto]. unfold getChildByIndex, children_pos. rewrite C, P. cbn [obind].
    assert (Hi : (i < List.length k)%nat) by (apply nth_error_Some; congruence). replace ((Z.of_nat i <? 0) || (zlen k <=? Z.of_nat i)) with false by (unfold zlen; lia). rewrite R. cbn [obind]. rewrite PI. do 2 f_equal. lia. }
  assert (H2 : exists its, List.length its = List.length k /\ forall i it t, nth_error its i = Some it -> nth_error k i = Some t -> getChildByIndex m (Some x) (Z.of_nat i) = Ok (Some (place it)) /\ laid m it /\ same_items m sy it t).
  { clear - H1. enough (forall n, exists its, List.length its = Nat.min n (List.length k) /\ forall i it t, nth_error its i = Some it -> nth_error k i = Some t -> getChildByIndex m (Some x) (Z.of_nat i) = Ok (Some (place it)) /\ laid m it /\ same_items m sy it t) as H.
    { destruct (H (List.length k)) as (its & L & H'). rewrite Nat.min_id in L. eauto. }
    induction n as [|n (its & L & H)]; [exists []; split; [reflexivity|intros [|?]; discriminate]|]. destruct (nth_error k n) as [t|] eqn:N.
    - assert (n < List.length k)%nat by (apply nth_error_Some; congruence). destruct (H1 n t N) as (it & HI). exists (its ++ [it]). split; [rewrite app_length; change (List.length [it]) with 1%nat; lia|]. intros i it' t' N1 N2. destruct (Nat.eq_dec i n) as [->|NE].
      + rewrite nth_error_app2 in N1 by lia. replace (n - List.length its)%nat with 0%nat in N1 by lia. injection N1 as <-. rewrite N in N2. injection N2 as <-. exact HI.
      + apply H; [|exact N2]. assert (i < List.length (its ++ [it]))%nat by (apply nth_error_Some; congruence). rewrite app_length in *. cbn in *. rewrite nth_error_app1 in N1 by lia. exact N1.
    - apply nth_error_None in N. exists its. split; [lia|exact H]. }
  destruct H2 as (its & LE & H2). exists (At x its). split; [reflexivity|]. assert (EX : forall i it, nth_error its i = Some it -> exists t, nth_error k i = Some t).
  { intros i it Ni. destruct (nth_error k i) eqn:E; [eauto|]. apply nth_error_None in E. assert (i < List.length its)%nat by (apply nth_error_Some; congruence). lia. }
  split.
  - constructor; [rewrite C; unfold zlen; rewrite LE; reflexivity|intros i it Ni; destruct (EX i it Ni) as (t & Nt); apply (H2 i it t Ni Nt)|]. apply Forall_forall. intros it J. apply In_nth_error in J as (i & Ni). destruct (EX i it Ni) as (t & Nt). apply (H2 i it t Ni Nt).
  - pose proof M as (A1 & _). destruct (find_symbol m sy (cr_tags cr) n id A1 TN (or_introl (NA _ (or_introl eq_refl))) FI) as [IR GS].
    assert (IL : zlen (cr_tags cr) <= 32768) by apply A1. apply same_here with (id := s16 id); [exact NI|replace (s16 id) with id by (unfold s16; lia); exact GS|].
    apply forall2_nth; [exact LE|]. intros i it t Ni Nt. apply (H2 i it t Ni Nt).
Qed.
Lemma items_depth m sy : forall it t, same_items m sy it t -> levels it = depth t.
Proof.
  induction it as [x kids IH] using itree_ind'. intros t S. inversion S as [? ? name v a ks id _ _ F]; subst. cbn [levels depth]. f_equal. clear S. revert ks F. induction IH as [|k kids Hk _ IHk]; intros ks F; inversion F; subst; [reflexivity|]. cbn [map fold_right]. rewrite (Hk _ H1), (IHk _ H3). reflexivity.
Qed.
Lemma items_names m sy : forall it t deep, same_items m sy it t -> Forall2 (fun e u => named m sy (fst e) (name_of u)) ((place it, deep) :: parents_first (deep + 1) it) (elements t).
Proof.
  induction it as [x kids IH] using itree_ind'. intros t deep S. inversion S as [? ? name v a ks id N G F]; subst. cbn [elements parents_first place]. constructor; [exists id; auto|]. clear S N G. revert ks F. induction IH as [|k kids Hk _ IHk]; intros ks F; inversion F; subst; [constructor|].
  cbn [flat_map]. apply Forall2_app; [apply Hk; assumption|apply IHk; assumption].
Qed.
Theorem converted_items fl m filename modified root img k : zlen m <= INT_MAX -> cstring filename -> document_fits root -> no_hex root -> Make_xb fl m filename modified root = rret img ->
  exists R it, Initialize (S k) img = rret R /\ rd_root R = Some (place it) /\ laid img it /\ levels it = depth root /\ same_items img (rd_tags R) it root.
Proof.
  intros Hm Hf F S H. destruct (reached fl m filename modified root img k [] root Hm Hf F S H eq_refl) as (cr & R & x & y & e & M & E & Ex & W & N & Le & Hi & T1 & T2). cbn [walk] in W. injection W as <-.
  pose proof M as (_ & _ & _ & _ & A5 & _). destruct (node_laid fl cr img (zlen m) root (rd_tags R) Hi M T1 root x e) as (it & P & L & SI); [intros u J; apply A5, J|exact N|exact Le|].
  exists R, it. split; [exact E|]. split; [rewrite P; exact Ex|]. split; [exact L|]. split; [eapply items_depth; exact SI|exact SI].
Qed.
Theorem converted_visits fl m filename modified root img k fuel : zlen m <= INT_MAX -> cstring filename -> document_fits root -> no_hex root -> Make_xb fl m filename modified root = rret img -> (depth root <= fuel)%nat -> Z.of_nat (depth root) <= INT_MAX ->
  exists R l, Initialize (S k) img = rret R /\ ForAllChildrenRecursively fuel img (rd_root R) 0 = rret l /\ Forall2 (fun e u => named img (rd_tags R) (fst e) (name_of u)) l (tl (elements root)).
Proof.
  intros Hm Hf F S H FU DB. destruct (converted_items fl m filename modified root img k Hm Hf F S H) as (R & it & E & Ex & L & LV & SI). exists R, (parents_first 0 it). split; [exact E|]. rewrite Ex. split; [apply visited; [exact L|lia|lia|lia]|].
  pose proof (items_names _ _ _ _ (-1) SI) as X. change (-1 + 1) with 0 in X. inversion X; subst. assumption.
Qed.
