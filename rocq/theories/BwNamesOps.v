(** What registering and indexing does to the names of a pool. *)
From Verif Require Import Base BaseFacts Types ListFacts Sort Xb XbSpec XbFacts XbWrite WriteProofs Bw BwFacts BwSpec BwHist BwAlloc BwSym BwReg BwFileSpec BwFileProofs BwNamesSpec BwNamesFacts BwNamesInv BwNamesReg BwRegProofs JsonSource.

Lemma has_read m m' p bs : has m p bs -> rd m' p (zlen bs) = rd m p (zlen bs) -> has m' p bs.
Proof. intros H E. rewrite (has_rd _ _ _ H) in E. apply rd_inv in E; [apply E|apply zlen_nonneg]. Qed.
Lemma spread_in R a y k : spread R a -> In (y, k) R -> HEADER <= y /\ 0 < k /\ y + k <= a.
Proof. intros [_ S] I. apply S, I. Qed.
Lemma has_range_rd m p bs : rd m p (zlen bs) = Ok bs -> has m p bs.
Proof. intro E. apply rd_inv in E; [apply E|apply zlen_nonneg]. Qed.
Lemma kept_flags m m' p n t : kept m m' p n -> t + 16 <= p \/ p + n <= t + 12 -> t_flags m' t = t_flags m t.
Proof. intros [_ K] D. apply flags_rd, K; lia. Qed.

Lemma some_inj {A} (x : outcome A) (v : A) : Some x = rret v -> x = Ok v.
Proof. intro E. injection E as E. exact E. Qed.
Lemma rret_bool (b c : bool) (m m' : list Z) : rret (b, m) = rret (c, m') -> b = c /\ m = m'.
Proof. intro E. apply rret_inj in E. injection E as -> ->. auto. Qed.
Ltac run_in E H := let v := fresh "v" in apply rbind_inv in E as (v & H & E).

Lemma rd_none m p : 0 <= p <= zlen m -> rd m p 0 = Ok [].
Proof. intro P. destruct (rd_some m p 0) as (b & E); [lia|lia|]. rewrite E. apply rd_inv in E as (_ & _ & _ & E); [|lia]. destruct b; [reflexivity|rewrite zlen_cons in E; pose proof (zlen_nonneg b); lia]. Qed.

(** Open *)
Lemma open_ok {fl} m a t n x L R fuel ok m' : pool m a -> istab t -> tablef fl m t n x L -> spread (regions n x L ++ R) a -> Open fuel m t = rret (ok, m') ->
  (ok = false /\ m' = m) \/
  (ok = true /\ exists n' a', a <= a' /\ pool m' a' /\ step m m' a t /\ tablef fl m' t n' 0 L /\ spread (regions n' 0 L ++ R) a' /\ n' + zlen (stored 0 L) = a' /\ (x = 0 -> n + zlen (stored 0 L) = a -> a' = a) /\ a' <= a + zlen (stored 0 L)).
Proof.
  intros PO IT TB SP E. unfold Open in E. apply rbind_inv in E as ([s m0] & SZ & E). destruct (size_ok _ _ _ _ _ _ _ _ _ _ PO TB SP SZ) as [-> ->]. pose proof PO as (A & _ & _ & _ & B & A4 & _). pose proof TB as (MX & N & X & F & L1 & G & ND & N4 & H & IX). pose proof (pool_len _ _ PO) as [IZ IA].
  rewrite X, rbind_ok, N, rbind_ok, A, rbind_ok in E. destruct ((x =? 0) && (n + zlen (stored 0 L) =? a)) eqn:C.
  { apply rret_bool in E as [<- <-]. right. split; [reflexivity|]. exists n, a. assert (x = 0) by lia. subst x. split; [lia|]. split; [exact PO|]. split; [apply step_refl|]. split; [exact TB|]. split; [exact SP|]. pose proof (zlen_nonneg (stored 0 L)). lia. } apply rbind_inv in E as ([y m1] & AL & E). apply some_inj in AL. apply (allocate_ok _ a) in AL; [|exact PO]. destruct y as [y|].
  2:{ destruct AL as [-> _]. apply rret_bool in E as [<- <-]. left. auto. }
  destruct AL as (S0 & -> & PO1 & EX & L2 & Z0).
  assert (NE : L <> []) by (intros ->; change (zlen (stored 0 [])) with 0 in S0; lia). destruct (table_bound _ _ _ _ _ _ _ PO TB SP NE) as [N1 N2]. specialize (H NE). set (z := zlen (stored 0 L)) in *.
  assert (Z4 : align_up 4 z = z) by (pose proof (stored_mod L 0); unfold align_up; unfold z; lia). rewrite Z4 in *.
  pose proof PO1 as (_ & _ & _ & _ & B1 & _). pose proof (pool_len _ _ PO1) as [IZ1 IA1]. unfold HEADER, istab, TAGS, PARAMS in *.
  assert (R1 : rd m1 n z = Ok (stored 0 L)). { destruct EX as [_ EX]. rewrite EX by lia. apply has_rd, H. }
  apply rbind_inv in E as (m4 & W & E). apply some_inj in W. unfold copy in W. rewrite R1 in W. cbn [obind] in W. apply obind_inv in W as (m2 & W1 & W). apply obind_inv in W as (m3 & W2 & W3). apply rret_bool in E as [<- <-].
  destruct (wr_kept _ _ _ _ W1) as (_ & _ & K1 & G1). apply wr32_kept in W2 as (_ & _ & K2 & G2); [|unfold int32; lia]. apply wr32_kept in W3 as (_ & _ & K3 & G3); [|exact IA]. fold z in K1, G1.
  assert (KL : zlen m4 = zlen m1) by (destruct K1, K2, K3; lia).
  right. split; [reflexivity|]. exists a, (a + z). split; [lia|].
  split. { unfold pool, p_allocator, p_limit, p_file_size, p_mmap_size in *. rewrite !(kept_s32 _ _ _ _ _ K3) by lia. rewrite !(kept_s32 _ _ _ _ _ K2) by lia. rewrite !(kept_s32 _ _ _ _ _ K1) by lia. rewrite KL. exact PO1. }
  split. { apply (step_trans _ m1 _ a a); [apply step_ext, EX| |lia]. apply (step_trans _ m2 _ a a); [eapply step_hi; [exact K1|lia|lia]| |lia]. apply (step_trans _ m3 _ a a); [eapply step_tab; [exact K2|exact IT|lia|lia]|eapply step_tab; [exact K3|exact IT|lia|lia]|lia]. }
  split.
  - unfold tablef, t_max_id, t_names, t_index. split. { rewrite (kept_s32 _ _ _ _ _ K3), (kept_s32 _ _ _ _ _ K2), (kept_s32 _ _ _ _ _ K1) by lia. unfold rd_s32. destruct EX as [_ EX]. rewrite EX by lia. exact MX. }
    split; [exact G3|]. split; [rewrite (kept_s32 _ _ _ _ _ K3) by lia; exact G2|]. split. { rewrite (kept_flags _ _ _ _ _ K3), (kept_flags _ _ _ _ _ K2), (kept_flags _ _ _ _ _ K1) by lia. rewrite <- F. apply flags_rd. destruct EX as [_ EX]. apply EX; lia. }
    split; [exact L1|]. split; [exact G|]. split; [exact ND|]. split; [exact A4|]. split; [|lia]. intros _. apply has_range_rd. destruct K2 as [_ K2], K3 as [_ K3]. fold z. rewrite K3, K2 by lia. exact G1.
  - split; [|split; [lia|split; [intros; exfalso; subst x; unfold z in *; lia|lia]]]. assert (SPR : spread R a) by (apply spread_app in SP; apply SP). unfold regions, index_at, names_at. destruct L; [congruence|]. cbn [app Z.eqb]. fold z. apply (spread_more _ a); auto; unfold HEADER; lia.
Qed.

(** What is stored, when there are more names than a table takes too *)
Definition raw_tablef fl m t n (L : names) : Prop := t_max_id m t = Ok (zlen L - 1) /\ t_names m t = Ok n /\ t_index m t = Ok 0 /\ t_flags m t = Ok fl /\ has m n (stored 0 L).
(** A new name *)
Lemma register_new_ok {fl} m a t u n x L R s ty fuel id m' : pool m a -> two t u -> tablef fl m t n x L -> spread (regions n x L ++ R) a -> proper s -> 0 <= ty < 256 -> place s L = None ->
  register_new fuel m t s ty = rret (id, m') ->
  exists n' x' a', a <= a' /\ pool m' a' /\ step m m' a t /\
    ((id = -1 /\ tablef fl m' t n' x' L /\ spread (regions n' x' L ++ R) a') \/ (id = zlen L /\ raw_tablef fl m' t n' (L ++ [(s, ty)]) /\ ((zlen L < 128 -> tablef fl m' t n' x' (L ++ [(s, ty)])) /\ spread (regions n' x' (L ++ [(s, ty)]) ++ R) a') /\ x' = 0 /\ n' + zlen (stored 0 (L ++ [(s, ty)])) = a' /\ (x = 0 -> n + zlen (stored 0 L) = a -> a' = a + esize s))).
Proof.
  intros PO TW TB SP PS TY NW E. pose proof (two_tab _ _ TW) as [IT IU]. unfold register_new in E. run_in E TG. destruct (_ && _).
  { apply rret_inj in E. injection E as <- <-. exists n, x, a. split; [lia|]. split; [exact PO|]. split; [apply step_refl|]. left. auto. }
  clear TG v. apply rbind_inv in E as ([ok m1] & OP & E). destruct (open_ok _ _ _ _ _ _ _ _ _ _ PO IT TB SP OP) as [[-> ->]|(-> & n' & a1 & A1 & PO1 & ST1 & TB1 & SP1 & NA & TOP & _)].
  { cbn [negb] in E. apply rret_inj in E. injection E as <- <-. exists n, x, a. split; [lia|]. split; [exact PO|]. split; [apply step_refl|]. left. auto. }
  cbn [negb] in E. clear OP TB SP. apply rbind_inv in E as ([y m2] & AL & E). apply some_inj in AL. apply (allocate_ok _ a1) in AL; [|exact PO1]. destruct y as [y|].
  2:{ destruct AL as [-> _]. apply rret_inj in E. injection E as <- <-. exists n', 0, a1. split; [lia|]. split; [exact PO1|]. split; [exact ST1|]. left. auto. }
  destruct AL as (S0 & -> & PO2 & EX & L2 & Z0). pose proof PO1 as (_ & _ & _ & _ & B1 & A14 & _). pose proof PO2 as (_ & _ & _ & _ & B2 & A24 & _). pose proof (pool_len _ _ PO2) as [IZ2 IA2]. pose proof TB1 as (MX & N & X & F & L1 & G & ND & N4 & H & IX).
  unfold HEADER, istab, TAGS, PARAMS in *. replace (4 + zlen s) with (zlen s + 4) in * by lia. change (align_up 4 (zlen s + 4)) with (esize s) in *. pose proof (esize_ge s) as [ES E4]. pose proof (zlen_nonneg s) as SL. pose proof (zlen_nonneg L) as LL.
  assert (MX2 : t_max_id m2 t = Ok (zlen L - 1)). { unfold t_max_id, rd_s32 in *. destruct EX as [_ EX]. rewrite EX by lia. exact MX. }
  rewrite MX2, rbind_ok in E. apply rbind_inv in E as ([i m6] & W & E). apply some_inj in W. apply rret_inj in E. injection E as -> ->. apply int_inv in W as [_ W]. replace (zlen L - 1 + 1) with (zlen L) in W by lia.
  apply obind_inv in W as (m3 & W1 & W). apply obind_inv in W as (m4 & W2 & W). apply obind_inv in W as (m5 & W3 & W). apply obind_inv in W as (m6 & W4 & W). injection W as <- ->.
  apply wr32_kept in W1 as (_ & _ & K1 & G1); [|unfold int32; lia]. destruct (wr_kept _ _ _ _ W2) as (_ & _ & K2 & G2). destruct (wr_kept _ _ _ _ W3) as (_ & _ & K3 & G3). destruct (wr_kept _ _ _ _ W4) as (_ & _ & K4 & G4).
  rewrite le_zlen in K2, G2. change (Z.of_nat 2) with 2 in K2, G2. change (zlen [ty]) with 1 in K3, G3. rewrite zlen_app in K4, G4. change (zlen [0]) with 1 in K4, G4.
  assert (KL : zlen m' = zlen m2) by (destruct K1, K2, K3, K4; lia). clear W2 W3 W4.
  exists n', 0, (a1 + esize s). split; [lia|].
  split. { unfold pool, p_allocator, p_limit, p_file_size, p_mmap_size in *. rewrite !(kept_s32 _ _ _ _ _ K4), !(kept_s32 _ _ _ _ _ K3), !(kept_s32 _ _ _ _ _ K2), !(kept_s32 _ _ _ _ _ K1) by lia. rewrite KL. exact PO2. }
  split. { apply (step_trans _ m1 _ a a1); [exact ST1| |lia]. apply (step_trans _ m2 _ a1 a1); [apply step_ext, EX| |lia]. apply (step_trans _ m3 _ a1 a1); [eapply step_tab; [exact K1|exact IT|lia|lia]| |lia].
    apply (step_trans _ m4 _ a1 a1); [eapply step_hi; [exact K2|lia|lia]| |lia]. apply (step_trans _ m5 _ a1 a1); [eapply step_hi; [exact K3|lia|lia]|eapply step_hi; [exact K4|lia|lia]|lia]. }
  right. split; [reflexivity|].
  assert (LA : zlen (L ++ [(s, ty)]) = zlen L + 1) by (rewrite zlen_app; reflexivity).
  assert (SA : stored 0 (L ++ [(s, ty)]) = stored 0 L ++ entry (zlen L) s ty). { rewrite stored_app. cbn [stored]. rewrite app_nil_r. reflexivity. }
  destruct EX as [_ EX]. destruct K1 as [_ K1], K2 as [_ K2], K3 as [_ K3], K4 as [_ K4].
  assert (HE : has m' a1 (entry (zlen L) s ty)).
  { apply has_range_rd. rewrite entry_len. unfold entry. replace (esize s) with (2 + (1 + ((zlen s + 1) + (esize s - (zlen s + 4))))) at 1 by lia. rewrite (rd_split m' a1 2) by lia. rewrite (rd_split m' (a1 + 2) 1) by lia. rewrite (rd_split m' (a1 + 2 + 1) (zlen s + 1)) by lia.
    replace (a1 + 2 + 1) with (a1 + 3) by lia. rewrite (K4 a1 2) by lia. rewrite (K3 a1 2) by lia. rewrite G2. cbn [obind]. rewrite (K4 (a1 + 2) 1) by lia. rewrite G3. cbn [obind]. rewrite G4. cbn [obind].
    rewrite K4, K3, K2, K1 by lia. rewrite (zeros_part m2 a1 (a1 + 3 + (zlen s + 1)) (esize s - (zlen s + 4)) (esize s) Z0) by lia. cbn [obind]. do 3 f_equal. rewrite <- !app_assoc. reflexivity. }
  assert (RAW : raw_tablef fl m' t n' (L ++ [(s, ty)])).
  { unfold raw_tablef, t_max_id, t_names, t_index. rewrite LA. split. { unfold rd_s32 in *. rewrite K4, K3, K2 by lia. rewrite G1. f_equal. lia. }
    split. { unfold t_names, rd_s32 in *. rewrite K4, K3, K2, K1, EX by lia. exact N. } split. { unfold t_index, rd_s32 in *. rewrite K4, K3, K2, K1, EX by lia. exact X. }
    split. { rewrite <- F. apply flags_rd. rewrite K4, K3, K2, K1, EX by lia. reflexivity. }
    rewrite SA. apply has_range_rd. rewrite zlen_app, rd_split by apply zlen_nonneg. rewrite NA, (has_rd _ _ _ HE). destruct L as [|e L].
    + cbn [stored]. change (zlen (@nil Z)) with 0. change (zlen (stored 0 [])) with 0 in NA. rewrite rd_none by lia. reflexivity.
    + set (L0 := e :: L) in *. destruct (table_bound _ _ _ _ _ _ _ PO1 TB1 SP1 ltac:(discriminate)) as [N1 N2]. unfold HEADER in N1. pose proof (zlen_nonneg (stored 0 L0)). rewrite K4, K3, K2, K1, EX by lia. rewrite (has_rd _ _ _ (H ltac:(discriminate))). reflexivity. }
  split; [exact RAW|]. split; [split|split; [reflexivity|split; [rewrite SA, zlen_app, entry_len; lia|intros X0 N0; rewrite (TOP X0 N0); reflexivity]]].
  - intro LT. destruct RAW as (R1 & R2 & R3 & R4 & R5). unfold tablef. do 4 (split; [assumption|]).
    split; [lia|]. split. { apply Forall_app. split; [exact G|]. constructor; [|constructor]. auto. }
    split. { rewrite map_app. cbn [map fst]. apply NoDup_snoc; [exact ND|apply place_none, NW]. }
    split; [exact N4|]. split; [auto|lia].
  - assert (RG : regions n' 0 (L ++ [(s, ty)]) = [(n', zlen (stored 0 L) + esize s)]). { unfold regions, index_at, names_at. cbn [Z.eqb]. rewrite app_nil_r. rewrite SA, zlen_app, entry_len. destruct L; reflexivity. }
    rewrite RG. cbn [app]. pose proof (zlen_nonneg (stored 0 L)). destruct (spread_app _ _ _ SP1) as (_ & [O2 I2] & AP). assert (HN : 92 <= n'). { destruct L; [change (zlen (stored 0 [])) with 0 in NA; lia|]. apply (table_bound _ _ _ _ _ _ _ PO1 TB1 SP1); discriminate. }
    split.
    + constructor; [|exact O2]. apply Forall_forall. intros [y k] I. destruct (I2 y k I) as (Y1 & Y2 & Y3). right. cbn. destruct L as [|e L]; [change (zlen (stored 0 [])) with 0 in *; lia|]. specialize (AP (n', zlen (stored 0 (e :: L))) (y, k) (region_names n' 0 (e :: L) ltac:(discriminate)) I). unfold apart in AP. cbn [fst snd] in AP. lia.
    + intros y k [I|I]; [injection I as <- <-; unfold HEADER; lia|]. specialize (I2 y k I). lia.
Qed.

(** The type of a name that is there *)
Lemma has_two m p b c : has m p b -> has m (p + zlen b) c -> has m p (b ++ c).
Proof. intros H1 H2. apply has_range_rd. pose proof (zlen_nonneg b). pose proof (zlen_nonneg c). rewrite zlen_app, rd_split by assumption. rewrite (has_rd _ _ _ H1), (has_rd _ _ _ H2). reflexivity. Qed.
Lemma off_mid l1 (e : list Z * Z) l2 : off (l1 ++ e :: l2) (List.length l1) = zlen (stored 0 l1).
Proof. unfold off. rewrite firstn_app, firstn_all, Nat.sub_diag. cbn [firstn]. rewrite app_nil_r. reflexivity. Qed.
Lemma stored_same l1 s old new l2 i : zlen (stored i (l1 ++ (s, new) :: l2)) = zlen (stored i (l1 ++ (s, old) :: l2)).
Proof. rewrite !stored_app, !zlen_app. cbn [stored]. rewrite !zlen_app, !entry_len. reflexivity. Qed.
Lemma retype m m' n l1 s old new l2 : has m n (stored 0 (l1 ++ (s, old) :: l2)) -> wr m (n + zlen (stored 0 l1) + 2) [new] = Ok m' -> has m' n (stored 0 (l1 ++ (s, new) :: l2)).
Proof.
  intros H W. rewrite stored_app in *. cbn [stored] in *. destruct (wr_kept _ _ _ _ W) as (_ & _ & [_ K] & G). change (zlen [new]) with 1 in *. set (c := stored (0 + zlen l1 + 1) l2) in *. set (b := stored 0 l1) in *. unfold entry in *. set (z := zrepeat 0 (esize s - (zlen s + 4))) in *.
  apply has_app in H as [H1 H]. apply has_app in H as [H2 H5]. apply has_app in H2 as [H2 H3]. apply has_app in H3 as [H3 H4]. rewrite le_zlen in *. change (Z.of_nat 2) with 2 in *. change (zlen [old]) with 1 in *. pose proof (zlen_nonneg b).
  assert (EQ : zlen (le 2 (0 + zlen l1) ++ [old] ++ s ++ [0] ++ z) = zlen (le 2 (0 + zlen l1) ++ [new] ++ s ++ [0] ++ z)) by (rewrite !zlen_app; reflexivity). rewrite EQ in H5.
  assert (KE : forall q d, has m q d -> q + zlen d <= n + zlen b + 2 \/ n + zlen b + 3 <= q -> has m' q d). { intros q d HD D. apply (has_read m); [exact HD|]. apply K; [apply zlen_nonneg|lia]. }
  assert (GT : zlen (le 2 (0 + zlen l1) ++ [new] ++ s ++ [0] ++ z) >= 3). { rewrite zlen_app, zlen_app, le_zlen. change (zlen [new]) with 1. pose proof (zlen_nonneg (s ++ [0] ++ z)). lia. }
  apply has_two; [apply KE; [exact H1|lia]|]. apply has_two; [|apply KE; [exact H5|lia]]. apply has_two; [apply KE; [exact H2|rewrite le_zlen; change (Z.of_nat 2) with 2; lia]|]. rewrite le_zlen. change (Z.of_nat 2) with 2.
  apply has_two; [apply has_range_rd; exact G|]. change (zlen [new]) with 1. apply KE; [exact H4|lia].
Qed.

(** What an operation of the table [t] leaves of the title, of the other table and of the blocks *)
Definition others m m' u (R : list (Z * Z)) : Prop := zlen m <= zlen m' /\ rd m' 4 28 = rd m 4 28 /\ rd m' u 16 = rd m u 16 /\ forall y k, In (y, k) R -> rd m' y k = rd m y k.
Lemma others_step m m' a t u R : two t u -> HEADER <= a -> step m m' a t -> spread R a -> others m m' u R.
Proof.
  intros T HA [LE S] [_ I]. unfold two, TAGS, PARAMS, HEADER in *. split; [exact LE|]. split; [apply S; lia|]. split; [apply S; lia|]. intros y k J. specialize (I y k J). unfold HEADER in I. apply S; lia.
Qed.
Lemma others_table {fl} m m' u n x K R R' a : others m m' u (R ++ regions n x K ++ R') -> 0 <= u -> u + 16 <= zlen m -> a <= zlen m -> tablef fl m u n x K -> spread (regions n x K) a -> tablef fl m' u n x K.
Proof. intros (LE & _ & U & O) U0 UL AL TB SP. apply (table_frame m m' u n x K a); auto. intros y k I. apply O. apply in_or_app. right. apply in_or_app. left. exact I. Qed.
Lemma others_trans m1 m2 m3 u R : others m1 m2 u R -> others m2 m3 u R -> others m1 m3 u R.
Proof. intros (L1 & H1 & U1 & O1) (L2 & H2 & U2 & O2). split; [lia|]. split; [congruence|]. split; [congruence|]. intros y k I. rewrite O2, O1 by exact I. reflexivity. Qed.

(** registerTag(name), registerParam *)
Lemma register_ok m a t u n x L R s ty fuel id m' : pool m a -> two t u -> table m t n x L -> spread (regions n x L ++ R) a -> proper s -> 0 <= ty < 256 -> place s L <> None \/ zlen L < 128 ->
  register fuel m t s ty = rret (id, m') ->
  (id = -1 \/ id = id_of s L) /\ others m m' u R /\
  exists n' x' a', a <= a' /\ pool m' a' /\ let L' := if id =? -1 then L else noted s ty L in (table m' t n' x' L' /\ spread (regions n' x' L' ++ R) a') /\
    (place s L = None -> id <> -1 -> x' = 0 /\ n' + zlen (stored 0 L') = a' /\ (x = 0 -> n = 0 \/ n + zlen (stored 0 L) = a -> a' = a + esize s)).
Proof.
  intros PO TW TB SP PS TY RM E. pose proof (two_tab _ _ TW) as [IT IU]. pose proof PO as (A & _ & _ & _ & B & A4 & _). pose proof (pool_len _ _ PO) as [IZ IA]. pose proof (spread_drop _ _ _ SP) as SPR.
  unfold register in E. destruct (_ && negb _).
  { apply rret_inj in E. injection E as <- <-. split; [auto|]. split; [split; [lia|auto]|]. exists n, x, a. cbn. split; [lia|]. split; [exact PO|]. split; [auto|]. lia. }
  apply rbind_inv in E as (m1 & W & E). apply some_inj in W.
  assert (PRE : exists n1, pool m1 a /\ step m m1 a t /\ table m1 t n1 x L /\ spread (regions n1 x L ++ R) a /\ (x = 0 -> n = 0 \/ n + zlen (stored 0 L) = a -> n1 + zlen (stored 0 L) = a)).
  { pose proof TB as (MX & N & X & F & L1 & G & ND & N4 & H & IX). rewrite N in W. cbn [obind] in W. destruct (Z.eqb_spec n 0) as [->|N0].
    2:{ injection W as <-. exists n. split; [exact PO|]. split; [apply step_refl|]. split; [exact TB|]. split; [exact SP|]. lia. }
    rewrite A in W. cbn [obind] in W. assert (LE : L = []). { destruct L; [reflexivity|]. destruct (table_bound _ _ _ _ _ _ _ PO TB SP ltac:(discriminate)). unfold HEADER in *. lia. } subst L. assert (x = 0) by (destruct (Z.eq_dec x 0) as [|D]; [assumption|]; destruct (IX D) as [D2 _]; congruence). subst x.
    pose proof (wr_len _ _ _ _ W) as WL. pose proof W as W0. apply wr32_kept in W as (_ & _ & K & G1); [|exact IA]. unfold istab, TAGS, PARAMS, HEADER in *. exists a. split; [apply (pool_wr _ _ _ _ _ PO W0); lia|]. split; [eapply step_tab; [exact K|exact IT|lia|lia]|]. split; [|split; [exact SP|intros _ _; change (zlen (stored 0 [])) with 0; lia]].
    unfold tablef, t_max_id, t_names, t_index in *. rewrite (kept_s32 _ _ _ _ t K), (kept_s32 _ _ _ _ (t + 8) K) by lia. rewrite (kept_flags _ _ _ _ _ K) by lia. repeat (split; [assumption|]). split; [congruence|lia]. }
  destruct PRE as (n1 & PO1 & ST1 & TB1 & SP1 & TOP1). assert (OT1 : others m m1 u R) by (apply (others_step m m1 a t); auto; lia). clear W SP TB.
  pose proof TB1 as (MX & N & X & F & L1 & G & ND & N4 & H & IX). rewrite F, rbind_ok in E. change (Z.land 0 FAST_REG =? 0) with true in E. cbv iota in E. apply rbind_inv in E as (r & GN & E). apply (getByName_ok m1 a t n1 x L R) in GN; auto. subst r. unfold found in E.
  destruct (place s L) as [k|] eqn:PL.
  - unfold id_of. rewrite PL. replace (0 <=? Z.of_nat k) with true in E by lia. apply rbind_inv in E as (m2 & W & E). apply some_inj in W. apply rret_inj in E. injection E as <- <-. split; [auto|]. replace (Z.of_nat k =? -1) with false by lia. cbv zeta.
    destruct (noted_old s ty L k PL) as (l1 & l2 & old & EL & LK & EN). assert (NT : nth k L (s, 0) = (s, old)). { rewrite EL, <- LK. rewrite app_nth2 by lia. rewrite Nat.sub_diag. reflexivity. } rewrite NT in W. cbn [snd] in W. rewrite EN. unfold joined.
    destruct (Z.eqb_spec old ty) as [QT|DT]; cbn [negb] in W.
    + injection W as <-. rewrite <- EL. split; [exact OT1|]. exists n1, x, a. split; [lia|]. split; [exact PO1|]. split; [auto|discriminate].
    + assert (NE : L <> []) by (rewrite EL; destruct l1; discriminate). destruct (table_bound _ _ _ _ _ _ _ PO1 TB1 SP1 NE) as [B1 B2]. set (new := XBT_JoinTypes ty old) in *. assert (OF : off L k = zlen (stored 0 l1)) by (rewrite EL, <- LK; apply off_mid). rewrite OF in W.
      assert (LZ : zlen (stored 0 (l1 ++ (s, new) :: l2)) = zlen (stored 0 L)) by (rewrite EL; apply stored_same). assert (LL : zlen (l1 ++ (s, new) :: l2) = zlen L) by (rewrite EL, !zlen_app; reflexivity).
      assert (BO : zlen (stored 0 l1) + 4 <= zlen (stored 0 L)). { rewrite EL, stored_app, zlen_app. cbn [stored]. rewrite zlen_app, entry_len. pose proof (esize_ge s). pose proof (zlen_nonneg s). pose proof (zlen_nonneg (stored (0 + zlen l1 + 1) l2)). lia. }
      pose proof (zlen_nonneg (stored 0 l1)). unfold HEADER, istab, TAGS, PARAMS in *. destruct (wr_kept _ _ _ _ W) as (_ & _ & K & _). change (zlen [new]) with 1 in K. pose proof K as [KL KK].
      destruct (spread_app _ _ _ SP1) as (SPL & [_ SI] & AP).
      assert (OT2 : others m1 m2 u R). { split; [lia|]. split; [apply KK; lia|]. split; [apply KK; lia|]. intros y j I. specialize (AP _ _ (region_names n1 x L NE) I). unfold apart in AP. cbn [fst snd] in AP. specialize (SI y j I). apply KK; lia. }
      split; [exact (others_trans _ _ _ _ _ OT1 OT2)|]. exists n1, x, a. split; [lia|]. split; [apply (pool_wr _ _ _ _ _ PO1 W); lia|].
      assert (RG : regions n1 x (l1 ++ (s, new) :: l2) = regions n1 x L). { unfold regions, index_at. rewrite LL. f_equal. unfold names_at. rewrite <- LZ. destruct L; [congruence|]. destruct l1; reflexivity. }
      rewrite RG. split; [|discriminate]. split; [|exact SP1]. unfold tablef, t_max_id, t_names, t_index in *. rewrite !(kept_s32 _ _ _ _ _ K) by lia. rewrite (kept_flags _ _ _ _ _ K) by lia. rewrite LL. do 5 (split; [assumption|]).
      split. { rewrite EL in G. apply Forall_app in G as [Ga Gb]. inversion Gb as [|? ? [G1 G2] G3]; subst. apply Forall_app. split; [exact Ga|]. constructor; [|exact G3]. cbn [fst snd] in *. split; [exact G1|]. apply join_range; assumption. }
      split. { rewrite map_app. cbn [map fst]. rewrite EL, map_app in ND. exact ND. } split; [exact N4|]. split; [intros _; apply (retype m1 _ _ _ _ old); [rewrite <- EL; auto|exact W]|].
      intro X0. destruct (IX X0) as [_ II]. split; [destruct l1; discriminate|]. intros i e NI.
      assert (IL : (i < List.length L)%nat). { assert (nth_error (l1 ++ (s, new) :: l2) i <> None) by congruence. apply nth_error_Some in H1. rewrite app_length in H1. rewrite EL, app_length. exact H1. }
      destruct (nth_error L i) as [e0|] eqn:NI0; [|apply nth_error_Some in IL; congruence]. specialize (II i e0 NI0).
      assert (OO : off (l1 ++ (s, new) :: l2) i = off L i). { rewrite EL. unfold off. rewrite !firstn_app. destruct (i - List.length l1)%nat; [reflexivity|]. cbn [firstn]. apply stored_same. }
      rewrite OO, <- II. unfold rd_s32. rewrite KK; [reflexivity|lia|]. destruct (spread_in _ _ _ _ SPL (region_index n1 x L X0)) as (J1 & J2 & J3).
      assert (APX : apart (n1, zlen (stored 0 L)) (x, 4 * zlen L)). { destruct SPL as [O _]. unfold regions, names_at, index_at in O. destruct L; [congruence|]. destruct (Z.eqb_spec x 0); [congruence|]. cbn [app] in O. inversion O as [|? ? FO _]; subst. inversion FO; subst. assumption. }
      unfold apart in APX. cbn [fst snd] in APX. unfold zlen in *. lia.
  - destruct RM as [RM|RM]; [congruence|]. destruct (register_new_ok m1 a t u n1 x L R s ty fuel id m' PO1 TW TB1 SP1 PS TY PL E) as (n' & x' & a' & AA & PO' & ST & D).
    unfold id_of. rewrite PL. assert (OT2 : others m1 m' u R) by (apply (others_step m1 m' a t); auto; unfold HEADER in *; lia). pose proof (zlen_nonneg L).
    split; [tauto|]. split; [exact (others_trans _ _ _ _ _ OT1 OT2)|]. exists n', x', a'. split; [exact AA|]. split; [exact PO'|]. destruct D as [(-> & D1 & D2)|(-> & _ & [D0 D1] & D2 & D3 & D4)]; [split; [exact (conj D1 D2)|congruence]|]. replace (zlen L =? -1) with false by lia. rewrite noted_new by exact PL. split; [exact (conj (D0 RM) D1)|]. intros _ _. split; [exact D2|]. split; [exact D3|]. intros X0 N0. apply D4; auto.
Qed.
