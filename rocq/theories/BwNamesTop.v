(** The theorems about the names of a pool. *)
From Verif Require Import Base BaseFacts Types ListFacts Sort Xb XbSpec XbFacts XbWrite WriteProofs Bw BwFacts BwSpec BwHist BwAlloc BwSym BwReg BwFileSpec BwFileProofs BwNamesSpec BwNamesFacts BwNamesInv BwNamesReg BwNamesOps BwNamesIndex BwNamesProofs BwExamples BwFileExamples JsonSource.

Lemma inv_known m t u L K B a : inv m t u L K B a -> known m t L /\ zlen L <= 128.
Proof.
  intros (n & x & n' & x' & PO & T1 & T2 & SP). pose proof T1 as (_ & _ & _ & _ & L1 & _ & ND & _). split; [|exact L1]. split; [exact ND|]. intros fuel FU. split.
  - intros i s ty NI. eapply table_lookup; eauto.
  - intros s PS NI. eapply table_unknown; eauto.
Qed.
Lemma dicts_known m T P B : dicts m T P B -> known m TAGS T /\ zlen T <= 128 /\ known m PARAMS P /\ zlen P <= 128.
Proof. intro D. apply dicts_inv in D as (a & I). destruct (inv_known _ _ _ _ _ _ _ I). apply inv_swap in I. destruct (inv_known _ _ _ _ _ _ _ I). tauto. Qed.
Lemma dicts_register m T P B fuel s ty id m' : dicts m T P B -> proper s -> 0 <= ty < 256 -> place s T <> None \/ zlen T < 128 -> registerTag fuel m s ty = rret (id, m') ->
  (id = -1 \/ id = id_of s T) /\ forall x n, In (x, n) B -> rd m' x n = rd m x n.
Proof. intros D PS TY RM E. apply dicts_inv in D as (a & I). destruct (inv_register _ _ _ _ _ _ _ _ _ _ _ _ tags_first I PS TY RM E) as (ID & BB & _). auto. Qed.
Lemma dicts_register_param m T P B fuel s ty id m' : dicts m T P B -> proper s -> 0 <= ty < 256 -> place s P <> None \/ zlen P < 128 -> registerParam fuel m s ty = rret (id, m') ->
  (id = -1 \/ id = id_of s P) /\ forall x n, In (x, n) B -> rd m' x n = rd m x n.
Proof. intros D PS TY RM E. apply dicts_inv in D as (a & I). apply inv_swap in I. destruct (inv_register _ _ _ _ _ _ _ _ _ _ _ _ (two_swap _ _ tags_first) I PS TY RM E) as (ID & BB & _). auto. Qed.
Lemma one_size s ty : names_size [(s, ty)] = esize s.
Proof. unfold names_size, esize, align_up. cbn [fold_right fst]. lia. Qed.
Lemma dicts_room m T P B a s ty fuel : dicts m T P B -> proper s -> p_allocator m = Ok a -> (2 * List.length T < fuel)%nat -> place s T <> None \/ (T <> [] \/ t_names m TAGS = Ok 0) /\ a + names_size T + names_size [(s, ty)] <= zlen m ->
  exists m', registerTag fuel m s ty = rret (id_of s T, m').
Proof.
  intros D PS AL FU RM. apply dicts_inv in D as (a0 & n & x & n' & x' & PO & T1 & T2 & SP). pose proof PO as (A & _). rewrite AL in A. injection A as ->. rewrite one_size, (size_names T 0) in RM. pose proof (zlen_nonneg (stored 0 T)).
  apply (register_some m a0 TAGS PARAMS n x T (regions n' x' P ++ B)); auto; [exact tags_first|discriminate|]. destruct RM as [RM|[[RM|RM] R2]]; [auto|right; right; left; auto|right; left]. pose proof T1 as (_ & N & _). rewrite N in RM. injection RM as ->. split; [reflexivity|lia].
Qed.
Lemma dicts_room_param m T P B a s ty fuel : dicts m T P B -> proper s -> XBT_NULL <= ty < XBT_LAST -> T <> [] -> p_allocator m = Ok a -> (2 * List.length P < fuel)%nat -> place s P <> None \/ (P <> [] \/ t_names m PARAMS = Ok 0) /\ a + names_size P + names_size [(s, ty)] <= zlen m ->
  exists m', registerParam fuel m s ty = rret (id_of s P, m').
Proof.
  intros D PS TY NE AL FU RM. apply dicts_inv in D as (a0 & I). pose proof I as (nt & xt & np & xp & PO & T1 & _ & SP0). pose proof PO as (A & _). rewrite AL in A. injection A as ->. assert (TN : exists k, t_names m TAGS = Ok k /\ k <> 0). { exists nt. split; [apply T1|]. pose proof (table_bound _ _ _ _ _ _ _ PO T1 SP0 NE). unfold HEADER in *. lia. } clear SP0 T1.
  apply inv_swap in I as (n & x & n' & x' & _ & T1 & T2 & SP). rewrite one_size, (size_names P 0) in RM. pose proof (zlen_nonneg (stored 0 P)).
  apply (register_some m a0 PARAMS TAGS n x P (regions n' x' T ++ B)); auto; [exact (two_swap _ _ tags_first)|]. destruct RM as [RM|[[RM|RM] R2]]; [auto|right; right; left; auto|right; left]. pose proof T1 as (_ & N & _). rewrite N in RM. injection RM as ->. split; [reflexivity|lia].
Qed.
Lemma dicts_clear_ok m T P B a fuel m' : dicts m T P B -> p_allocator m = Ok a -> Clear fuel m = rret (true, m') ->
  known m' TAGS T /\ known m' PARAMS P /\ p_root m' = Ok 0 /\ exists a', p_allocator m' = Ok a' /\ a' = HEADER + names_size T + names_size P + index_size T + index_size P /\ forall q, a' <= q < a -> rd m' q 1 = Ok [0].
Proof.
  intros D AL E. apply dicts_inv in D as (a0 & I). pose proof I as (nt & xt & np & xp & PO & _). pose proof PO as (A & _). rewrite AL in A. injection A as ->. destruct (clear_ok _ _ _ _ _ _ _ I E) as (a' & I' & RT & EA & ZZ). split; [apply (inv_known _ _ _ _ _ _ _ I')|]. split; [apply inv_swap in I'; apply (inv_known _ _ _ _ _ _ _ I')|]. split; [exact RT|]. exists a'. split; [|auto]. destruct I' as (? & ? & ? & ? & PO' & _). apply PO'.
Qed.

(** ** A pool with 128 names *)
Definition nm (k : nat) : names := map (fun i => ([97; 1 + Z.of_nat i], 0)) (seq 0 k).
Lemma nm_S k : nm (S k) = nm k ++ [([97; 1 + Z.of_nat k], 0)].
Proof. unfold nm. rewrite seq_S, map_app. reflexivity. Qed.
Lemma nm_len k : List.length (nm k) = k.
Proof. unfold nm. rewrite map_length, seq_length. reflexivity. Qed.
Lemma nm_zlen k : zlen (nm k) = Z.of_nat k.
Proof. unfold zlen. rewrite nm_len. reflexivity. Qed.
Lemma nm_in s k : In s (map fst (nm k)) -> exists i, (i < k)%nat /\ s = [97; 1 + Z.of_nat i].
Proof. intro I. unfold nm in I. rewrite map_map in I. apply in_map_iff in I as (i & <- & I). apply in_seq in I. exists i. split; [lia|reflexivity]. Qed.
Lemma not_place s L : ~ In s (map fst L) -> place s L = None.
Proof. intro NI. destruct (place s L) as [j|] eqn:E; [|reflexivity]. exfalso. apply NI. destruct (place_nth _ _ _ E) as (ty & E2). change s with (fst (s, ty)). apply in_map, (nth_error_In _ _ E2). Qed.
Lemma nm_new k : place [97; 1 + Z.of_nat k] (nm k) = None.
Proof. apply not_place. intro I. apply nm_in in I as (i & L & E). injection E as E. lia. Qed.
Lemma two_size c d : esize [c; d] = 8.
Proof. reflexivity. Qed.
Lemma nm_size k : zlen (stored 0 (nm k)) = 8 * Z.of_nat k.
Proof. induction k as [|k IH]; [reflexivity|]. rewrite nm_S, stored_app, zlen_app, IH. cbn [stored]. rewrite app_nil_r, entry_len, two_size. lia. Qed.
Lemma nm_proper k : (k < 128)%nat -> proper [97; 1 + Z.of_nat k].
Proof. intro K. split; [|discriminate]. repeat constructor; unfold is_cchar; lia. Qed.
Lemma s0_start : dicts s0 [] [] [].
Proof. apply (dicts_start s0 92 s0_pool). intros t [-> | ->]; vm_compute; repeat split. Qed.
Lemma pool_128 k : (k <= 128)%nat -> exists m n R, dicts m (nm k) [] [] /\ pool m (92 + 8 * Z.of_nat k) /\ 4096 <= zlen m /\ table m TAGS n 0 (nm k) /\ spread (regions n 0 (nm k) ++ R) (92 + 8 * Z.of_nat k) /\ (n = 0 \/ n + zlen (stored 0 (nm k)) = 92 + 8 * Z.of_nat k).
Proof.
  induction k as [|k IH]; intro K.
  - exists s0, 0, []. split; [exact s0_start|]. split; [exact s0_pool|]. split; [vm_compute; discriminate|]. split; [|split; [split; [constructor|intros y k []]|auto]]. change (nm 0) with (@nil (list Z * Z)). unfold tablef. repeat (split; [solve [vm_compute; reflexivity|constructor|vm_compute; discriminate]|]). split; [congruence|lia].
  - destruct (IH ltac:(lia)) as (m & n & R & D & PO & ZL & TB & SP & TOP). set (a := 92 + 8 * Z.of_nat k) in *. set (s := [97; 1 + Z.of_nat k]) in *.
    pose proof (nm_new k) as NP. fold s in NP. assert (PS : proper s) by (apply nm_proper; lia). assert (TOP2 : n = 0 /\ a + esize s <= zlen m \/ nm k <> [] /\ a + zlen (stored 0 (nm k)) + esize s <= zlen m \/ 0 = 0 /\ n + zlen (stored 0 (nm k)) = a /\ a + esize s <= zlen m).
    { change (esize s) with 8. unfold a. destruct TOP as [TOP|TOP]; [left; lia|right; right; unfold a in *; lia]. }
    destruct (register_some m a TAGS PARAMS n 0 (nm k) R s 0 (S (2 * k)) PO tags_first TB SP PS) as (m' & E); [rewrite nm_len; lia|discriminate|right; exact TOP2|].
    assert (ID : id_of s (nm k) = Z.of_nat k) by (unfold id_of; rewrite NP; apply nm_zlen).
    destruct (register_ok m a TAGS PARAMS n 0 (nm k) R s 0 _ _ m' PO tags_first TB SP PS ltac:(lia) ltac:(right; rewrite nm_zlen; lia) E) as (_ & (ZL' & _) & n' & x' & a' & AA & PO' & (TB' & SP') & NEW). rewrite ID in *. replace (Z.of_nat k =? -1) with false in * by lia. rewrite noted_new in * by exact NP. rewrite <- nm_S in *.
    destruct (NEW NP ltac:(lia)) as (-> & TOP' & UP). specialize (UP eq_refl TOP). change (esize s) with 8 in UP. assert (EA : a' = 92 + 8 * Z.of_nat (S k)) by (unfold a in *; lia). rewrite <- EA. exists m', n', R. split; [|split; [exact PO'|split; [lia|split; [exact TB'|split; [exact SP'|auto]]]]].
    replace (nm (S k)) with (if Z.of_nat k =? -1 then nm k else noted s 0 (nm k)) by (replace (Z.of_nat k =? -1) with false by lia; rewrite noted_new by exact NP; symmetry; apply nm_S). apply (dicts_tag m (nm k) [] [] (S (2 * k)) s 0 (Z.of_nat k) m'); auto; [lia|right; rewrite nm_zlen; lia].
Qed.
Lemma nm_even k : even (nm k).
Proof. apply Forall_forall. intros e I. unfold nm in I. apply in_map_iff in I as (i & <- & _). cbn. discriminate. Qed.
Lemma same_ids : exists m T P B s1 s2 fuel m1 m2 id, dicts m T P B /\ proper s1 /\ proper s2 /\ s1 <> s2 /\ ~ In s1 (map fst T) /\ ~ In s2 (map fst T) /\
  registerTag fuel m s1 XBT_NULL = rret (id, m1) /\ registerTag fuel m1 s2 XBT_NULL = rret (id, m2) /\ id <> -1.
Proof.
  destruct (pool_128 128 (Nat.le_refl _)) as (m & n & R & D & PO & ZL & TB & SP & TOP). assert (NB : n <> 0). { destruct (table_bound m TAGS n 0 (nm 128) _ R PO TB SP ltac:(discriminate)). unfold HEADER in *. lia. } destruct TOP as [TOP|TOP]; [congruence|].
  assert (N1 : ~ In [98; 98] (map fst (nm 128))) by (intro I; apply nm_in in I as (i & _ & E); discriminate). assert (N2 : ~ In [99; 99] (map fst (nm 128))) by (intro I; apply nm_in in I as (i & _ & E); discriminate).
  assert (P1 : proper [98; 98]) by (split; [repeat constructor; unfold is_cchar; lia|discriminate]). assert (P2 : proper [99; 99]) by (split; [repeat constructor; unfold is_cchar; lia|discriminate]).
  destruct (lost m _ n (nm 128) R [98; 98] 0 [99; 99] 0 0 PO TB SP ltac:(rewrite nm_zlen; lia) TOP (nm_even _) P1 P2 ltac:(discriminate) ltac:(vm_compute; discriminate) ltac:(lia) ltac:(lia) (not_place _ _ N1) (not_place _ _ N2)) as (m1 & m2 & E1 & E2).
  { rewrite nm_size, !two_size. lia. }
  exists m, (nm 128), [], [], [98; 98], [99; 99], 258%nat, m1, m2, 128. repeat (split; [solve [assumption|discriminate]|]). discriminate.
Qed.
