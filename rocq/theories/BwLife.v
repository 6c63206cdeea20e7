(** Every history keeps the names and the lists. *)
From Verif Require Import Base BaseFacts Types ListFacts Sort Xb XbSpec XbFacts XbWrite WriteProofs Bw BwFacts BwRing BwSpec BwHist BwAlloc BwProofs BwRead BwTop BwSym BwReg BwFileSpec BwFileProofs BwNamesSpec BwNamesFacts BwNamesInv BwNamesReg BwNamesOps BwNamesIndex BwNamesProofs BwImport BwAlter BwLifeSpec BwImportProofs BwDetach JsonSource.

(** ** Reads *)
Lemma app_inj_len {A} (a a' b b' : list A) : zlen a = zlen a' -> a ++ b = a' ++ b' -> a = a' /\ b = b'.
Proof. revert a'. induction a as [|x a IH]; destruct a' as [|y a']; unfold zlen in *; cbn [List.length app]; intros L E; try lia; [auto|]. injection E as -> E. destruct (IH a' ltac:(lia) E) as [-> ->]. auto. Qed.
Lemma rd_halves m m' p j k : 0 <= j -> 0 <= k -> 0 <= p -> p + (j + k) <= zlen m -> rd m' p (j + k) = rd m p (j + k) -> rd m' p j = rd m p j /\ rd m' (p + j) k = rd m (p + j) k.
Proof.
  intros J K P B E. destruct (rd_some m p j) as [b1 R1]; [lia..|]. destruct (rd_some m (p + j) k) as [b2 R2]; [lia..|]. rewrite !rd_split, R1, R2 in E by lia. cbn [obind] in E. apply obind_inv in E as (c1 & C1 & E). apply obind_inv in E as (c2 & C2 & E). injection E as E.
  rewrite C1, C2, R1, R2. apply rd_inv in R1 as (_ & _ & _ & R1), C1 as (_ & _ & _ & C1); auto. apply app_inj_len in E as [<- <-]; [auto|lia].
Qed.
Lemma rd_within m m' p n q k : rd m' p n = rd m p n -> 0 <= k -> p <= q -> q + k <= p + n -> 0 <= p -> p + n <= zlen m -> rd m' q k = rd m q k.
Proof.
  intros E K Q1 Q2 P PB. replace n with ((q - p) + (k + (p + n - q - k))) in E by lia. apply rd_halves in E as [_ E]; try lia. apply rd_halves in E as [E _]; try lia. replace (p + (q - p)) with q in E by lia. exact E.
Qed.

(** ** Both invariants *)
Lemma names_keep m m' T P B a : BwNamesInv.inv m TAGS PARAMS T P B a -> zlen m' = zlen m -> (forall q n, 0 <= n -> (forall y k, In (y, k) B -> q + n <= y \/ y + k <= q) -> rd m' q n = rd m q n) ->
  BwNamesInv.inv m' TAGS PARAMS T P B a.
Proof.
  intros (n1 & x1 & n2 & x2 & PO & T1 & T2 & SP) ZL KK. pose proof PO as (_ & _ & _ & _ & BB & _). destruct (spread_app _ _ _ SP) as (SPL & SPR & AP1). destruct (spread_app _ _ _ SPR) as (SPK & SPB & AP2).
  assert (HK : forall q n, 0 <= n -> q + n <= HEADER -> rd m' q n = rd m q n) by (intros q n N Q; apply KK; [exact N|]; intros y k I; pose proof (spread_in _ _ _ _ SPB I); lia). unfold HEADER, TAGS, PARAMS in *.
  exists n1, x1, n2, x2. split. { unfold pool, p_allocator, p_limit, p_file_size, p_mmap_size, rd_s32 in *. rewrite !HK, ZL by lia. exact PO. }
  split; [|split; [|exact SP]].
  - apply (table_frame m m' 60 n1 x1 T a T1); try lia; [apply HK; lia|exact SPL|]. intros y k I. pose proof (spread_in _ _ _ _ SPL I). apply KK; [lia|]. intros z j J. specialize (AP1 (y, k) (z, j) I (in_or_app _ _ _ (or_intror J))). unfold apart in AP1. cbn [fst snd] in AP1. lia.
  - apply (table_frame m m' 76 n2 x2 P a T2); try lia; [apply HK; lia|exact SPK|]. intros y k I. pose proof (spread_in _ _ _ _ SPK I). apply KK; [lia|]. intros z j J. specialize (AP2 (y, k) (z, j) I J). unfold apart in AP2. cbn [fst snd] in AP2. lia.
Qed.
Lemma names_pool m t u T P B a : BwNamesInv.inv m t u T P B a -> pool m a /\ forall y k, In (y, k) B -> HEADER <= y /\ 0 < k /\ y + k <= a.
Proof. intros (n1 & x1 & n2 & x2 & PO & _ & _ & SP). split; [exact PO|]. intros y k I. apply (spread_in _ _ _ _ SP), in_or_app. right. apply in_or_app. right. exact I. Qed.
Lemma pool_one m a b : pool m a -> pool m b -> a = b.
Proof. intros (A & _) (B & _). congruence. Qed.
Lemma elements_keep k s m m' F a a' : BwProofs.inv k s m F -> pool m a -> pool m' a' -> a <= a' -> (forall e, In e (members F) -> rd m' e (s e) = rd m e (s e)) -> BwProofs.inv k s m' F.
Proof.
  intros (h & b & PL & R & S) PO PO' AA KK. assert (b = a) as -> by (eapply pool_one; [apply PL|exact PO]). pose proof PO as (_ & _ & _ & _ & BB & _). unfold HEADER in BB.
  assert (KS : forall e q n, In e (members F) -> 0 <= n -> e <= q -> q + n <= e + 24 -> rd m' q n = rd m q n). { intros e q n I N Q1 Q2. destruct (pl_in _ _ _ _ _ PL e I) as (? & ? & ?). unfold HEADER in *. apply (rd_within m m' e (s e)); auto; lia. }
  exists h, a'. split; [|split; [|exact S]].
  - constructor; auto; try apply PL.
    + intros e I. destruct (pl_in _ _ _ _ _ PL e I). lia.
    + intros e I. destruct (pl_kind _ _ _ _ _ PL e I) as (f & Ef & K). exists f. split; [|exact K]. unfold el_flags, rd_u8 in *. rewrite (KS e) by (auto; lia). exact Ef.
  - constructor.
    + intros e I. destruct (pl_in _ _ _ _ _ PL e I) as (? & ? & ?). unfold HEADER in *. destruct PO' as (_ & _ & _ & _ & B' & _). lia.
    + apply R.
    + intros e I. unfold el_offset, rd_s32. rewrite (KS e) by (auto; lia). apply (rep_off _ _ _ R e I).
    + intros e f I L. unfold rd_s32. rewrite (KS e) by (auto; unfold link in L; lia). apply (rep_link _ _ _ R e f I L).
Qed.
Definition sized s m e : Prop := exists ty n z, el_type m e = Ok ty /\ 0 <= ty < 256 /\ XBT_Size2 ty n = Ok z /\ 0 <= z /\ 24 + z <= s e /\ e mod 4 = 0 /\ (XBT_Align ty = 8 -> e mod 8 = 0).
Definition whole k s m T P F : Prop := exists B a, BwNamesInv.inv m TAGS PARAMS T P B a /\ BwProofs.inv k s m F /\ (forall e, In e (members F) -> In (e, s e) B) /\ forall e, In e (members F) -> sized s m e.

(** An operation on names *)
Lemma sized_keep s m m' e : rd m' (e + 7) 1 = rd m (e + 7) 1 -> sized s m e -> sized s m' e.
Proof. intros E (ty & n & z & TY & H). exists ty, n, z. split; [|exact H]. unfold el_type, rd_u8 in *. rewrite E. exact TY. Qed.
Lemma inv_in k s m F a e : BwProofs.inv k s m F -> pool m a -> In e (members F) -> HEADER <= e /\ 24 <= s e /\ e + s e <= a.
Proof. intros (h & b & PL & _) PO I. assert (b = a) as -> by (eapply pool_one; [apply PL|exact PO]). apply PL, I. Qed.
Lemma inv_apart k s m F e e' : BwProofs.inv k s m F -> In e (members F) -> In e' (members F) -> e <> e' -> e + s e <= e' \/ e' + s e' <= e.
Proof. intros (h & b & PL & _) I I' N. apply (pl_apart _ _ _ _ _ PL); auto. Qed.
Lemma whole_names k s m m' T P T' P' F B a a' : BwNamesInv.inv m TAGS PARAMS T P B a -> BwProofs.inv k s m F -> (forall e, In e (members F) -> In (e, s e) B) -> (forall e, In e (members F) -> sized s m e) ->
  BwNamesInv.inv m' TAGS PARAMS T' P' B a' -> a <= a' -> (forall y k, In (y, k) B -> rd m' y k = rd m y k) -> whole k s m' T' P' F.
Proof.
  intros I E IB SZ I' AA KK. destruct (names_pool _ _ _ _ _ _ _ I) as [PO BI]. destruct (names_pool _ _ _ _ _ _ _ I') as [PO' _]. exists B, a'. split; [exact I'|]. split; [apply (elements_keep k s m m' F a a' E PO PO' AA); auto|]. split; [exact IB|].
  intros e J. apply (sized_keep s m m'); [|auto]. destruct (inv_in _ _ _ _ _ _ E PO J) as (? & ? & ?). pose proof PO as (_ & _ & _ & _ & BB & _). unfold HEADER in *. apply (rd_within m m' e (s e)); auto; lia.
Qed.
(** An operation on elements *)
Lemma whole_links k s m m' T P F F' : whole k s m T P F -> BwProofs.inv k s m' F' -> Permutation (members F) (members F') -> only_links (members F) m m' -> whole k s m' T P F'.
Proof.
  intros (B & a & I & E & IB & SZ) E' PM [ZL OL]. assert (SUB : forall e, In e (members F') -> In e (members F)) by (intros e J; apply (Permutation_in _ (Permutation_sym PM)), J). destruct (names_pool _ _ _ _ _ _ _ I) as [PO BI].
  exists B, a. split. { apply (names_keep m m' T P B a I ZL). intros q n N D. apply OL; [exact N|]. intros e J. specialize (D e (s e) (IB e J)). destruct (inv_in _ _ _ _ _ _ E PO J). lia. }
  split; [exact E'|]. split; [auto|]. intros e J. apply (sized_keep s m m'); [|auto]. apply OL; [lia|]. intros e' J'. destruct (Z.eq_dec e' e) as [->|N]; [lia|]. destruct (inv_apart _ _ _ _ _ _ E J' (SUB e J) N); destruct (inv_in _ _ _ _ _ _ E PO J'); destruct (inv_in _ _ _ _ _ _ E PO (SUB e J)); lia.
Qed.
(** Space is taken *)
Lemma whole_extends k s m m' T P F : whole k s m T P F -> (forall a, pool m a -> exists a', pool m' a' /\ a <= a' /\ extends m a m') -> whole k s m' T P F.
Proof.
  intros (B & a & I & E & IB & SZ) X. destruct (names_pool _ _ _ _ _ _ _ I) as [PO BI]. destruct (X a PO) as (a' & PO' & AA & EX). apply (whole_names k s m m' T P T P F B a a' I E IB SZ); [apply (inv_extends m m' _ _ _ _ _ a); auto; exact tags_first|exact AA|].
  intros y j J. specialize (BI y j J). unfold HEADER in BI. apply EX; lia.
Qed.
Lemma adds_members k p t F F' : adds k p t F F' -> Permutation (members F) (members F').
Proof.
  intros [F0 B1 B2 R PM U|F0 B1 B2 L R PM]; apply members_perm in PM; rewrite PM, !members_cons.
  - apply Permutation_app_tail, perm_mid.
  - rewrite !app_assoc. apply Permutation_app_tail. rewrite perm_mid. rewrite <- (app_assoc L). apply Permutation_app_comm.
Qed.
Lemma joins_members a b F F' : joins a b F F' -> Permutation (members F) (members F').
Proof.
  intros [F0 o A B1 B2 R PM|F0 o A1 A2 B1 B2 R NE PM]; apply members_perm in PM; rewrite PM, !members_cons, !app_assoc; apply Permutation_app_tail.
  - rewrite <- !app_assoc. apply Permutation_app_head. apply perm_mid.
  - rewrite <- !app_assoc. apply Permutation_app_head. rewrite perm_mid. rewrite (app_assoc (b :: B2)). apply Permutation_app_comm.
Qed.
Lemma removes_members k p t F F' : removes k p t F F' -> Permutation (members F) (members F').
Proof.
  intros [F0 R PM|F0 L1 L2 R NE PM]; apply members_perm in PM; rewrite PM, !members_cons; [reflexivity|]. cbn [app]. rewrite app_comm_cons. apply Permutation_app_tail. symmetry. apply Permutation_middle.
Qed.
Lemma replaces_members p old new c F F' : replaces p old new c F F' -> Permutation (members F) (members F').
Proof.
  intros [F0 L1 L2 R PM]; apply members_perm in PM; rewrite PM, !members_cons, !app_assoc. apply Permutation_app_tail. rewrite <- !app_assoc. apply Permutation_app_head. cbn [app]. rewrite <- Permutation_cons_append. rewrite perm_swap. apply perm_skip. apply Permutation_cons_append.
Qed.

(** New functions for the same elements *)
Lemma inv_same k s k' s' m F : (forall e, In e (members F) -> k' e = k e /\ s' e = s e) -> BwProofs.inv k s m F -> BwProofs.inv k' s' m F.
Proof.
  intros EQ (h & a & PL & R & S). exists h, a. split; [|auto]. constructor; try apply PL.
  - intros e I. destruct (EQ e I) as [_ ->]. apply PL, I.
  - intros e e' I I' N. destruct (EQ e I) as [_ ->], (EQ e' I') as [_ ->]. apply (pl_apart _ _ _ _ _ PL); auto.
  - intros e I. destruct (EQ e I) as [-> _]. apply PL, I.
Qed.
Lemma set_same {A} (f : Z -> A) x v : set f x v x = v.
Proof. unfold set. rewrite Z.eqb_refl. reflexivity. Qed.
Lemma set_other {A} (f : Z -> A) x v y : y <> x -> set f x v y = f y.
Proof. unfold set. destruct (Z.eqb_spec y x); congruence. Qed.
Lemma whole_new k s m T P F disk id ty n z flags x m' : whole k s m T P F -> 0 <= flags < 256 -> 0 <= ty < 256 -> fresh disk m id ty n flags = Ok (Some x, m') -> XBT_Size2 ty n = Ok z ->
  whole (set k x (is_element flags)) (set s x (24 + (z + 3) / 4 * 4)) m' T P ((None, [x]) :: F) /\ ~ In x (members F) /\ forall e, In e (members F) -> rd m' e (s e) = rd m e (s e).
Proof.
  intros (B & a & I & E & IB & SZ) FL TY FR ZZ. destruct (names_pool _ _ _ _ _ _ _ I) as [PO BI]. pose proof FR as FR2. apply (fresh_ok _ _ a) in FR2; [|exact PO]. destruct FR2 as (s2 & a' & S2 & S0 & AX & X4 & X8 & XA & PO' & EX & _ & HD). rewrite S2 in ZZ. injection ZZ as <-.
  assert (A4 : a' mod 4 = 0) by (destruct PO' as (_ & _ & _ & _ & _ & A4 & _); exact A4). pose proof PO as (_ & _ & _ & _ & BB & _).
  assert (NI : ~ In x (members F)). { intro J. destruct (inv_in _ _ _ _ _ _ E PO J) as (? & ? & ?). lia. }
  assert (KK : forall e, In e (members F) -> rd m' e (s e) = rd m e (s e)). { intros e J. destruct (inv_in _ _ _ _ _ _ E PO J) as (? & ? & ?). unfold HEADER in *. apply EX; lia. }
  assert (OTH : forall e, In e (members F) -> e <> x) by (intros e J ->; auto).
  split; [|auto]. exists ((x, 24 + (s2 + 3) / 4 * 4) :: B), a'. split; [apply (inv_new m m' _ _ _ _ _ a); auto; [exact tags_first|lia|lia]|]. split.
  - apply (BwProofs.inv_new (set k x (is_element flags)) (set s x (24 + (s2 + 3) / 4 * 4)) m F x m' disk id ty n flags); auto; [|rewrite set_same; reflexivity|].
    + apply (inv_same k s); [|exact E]. intros e J. rewrite !set_other by auto. auto.
    + exists s2. split; [exact S2|]. rewrite set_same. unfold align_up. lia.
  - rewrite members_cons. split.
    + intros e [<-|J]; [left; rewrite set_same; reflexivity|right]. rewrite set_other by auto. auto.
    + intros e [<-|J].
      * exists ty, n, s2. split; [|split; [exact TY|split; [exact S2|split; [exact S0|split; [rewrite set_same; lia|split; [exact X4|exact X8]]]]]]. assert (IX : int32 x). { destruct (pool_len _ _ PO') as [_ IA]. unfold HEADER, int32 in *. lia. } destruct (header_fields _ _ _ _ _ HD IX FL) as (_ & _ & HT & _). auto.
      * specialize (SZ e J). assert (SZ' : sized s m' e). { apply (sized_keep s m); [|exact SZ]. destruct (inv_in _ _ _ _ _ _ E PO J) as (? & ? & ?). unfold HEADER in *. apply (rd_within m m' e (s e)); auto; lia. } destruct SZ' as (t & n' & z' & Q). exists t, n', z'. rewrite set_other by auto. exact Q.
Qed.
Lemma whole_put k s m T P F id ty n z flags N x m1 m' : whole k s m T P F -> 0 <= flags < 256 -> 0 <= ty < 256 -> allocate8 m N = Ok (Some x, m1) -> init m1 x id ty flags = Ok m' ->
  XBT_Size2 ty n = Ok z -> 0 <= z -> 24 + z <= align_up 8 N ->
  whole (set k x (is_element flags)) (set s x (24 + (z + 3) / 4 * 4)) m' T P ((None, [x]) :: F) /\ ~ In x (members F) /\ forall e, In e (members F) -> rd m' e (s e) = rd m e (s e).
Proof.
  intros (B & a & I & E & IB & SZ) FL TY AL IN S2 S0 SN. destruct (names_pool _ _ _ _ _ _ _ I) as [PO BI]. destruct (put_ok _ a _ _ _ _ _ _ _ PO AL IN ltac:(lia)) as (AX & X8 & PO' & EX & _ & HD & _). set (a' := x + align_up 8 N) in *.
  assert (A8 : align_up 8 N mod 8 = 0) by (apply align8_ge).
  pose proof PO as (_ & _ & _ & _ & BB & _). assert (XA : x + (24 + (z + 3) / 4 * 4) <= a') by (unfold a'; lia).
  assert (NI : ~ In x (members F)). { intro J. destruct (inv_in _ _ _ _ _ _ E PO J) as (? & ? & ?). lia. }
  assert (KK : forall e, In e (members F) -> rd m' e (s e) = rd m e (s e)). { intros e J. destruct (inv_in _ _ _ _ _ _ E PO J) as (? & ? & ?). unfold HEADER in *. apply EX; lia. }
  assert (OTH : forall e, In e (members F) -> e <> x) by (intros e J ->; auto).
  split; [|auto]. exists ((x, 24 + (z + 3) / 4 * 4) :: B), a'. split; [apply (inv_new m m' _ _ _ _ _ a); auto; [exact tags_first|lia]|]. split.
  - apply (BwProofs.inv_made (set k x (is_element flags)) (set s x (24 + (z + 3) / 4 * 4)) m F x m' a a' id ty flags); auto; rewrite ?set_same; try lia; [|reflexivity].
    apply (inv_same k s); [|exact E]. intros e J. rewrite !set_other by auto. auto.
  - rewrite members_cons. split.
    + intros e [<-|J]; [left; rewrite set_same; reflexivity|right]. rewrite set_other by auto. auto.
    + intros e [<-|J].
      * exists ty, n, z. split; [|split; [exact TY|split; [exact S2|split; [exact S0|split; [rewrite set_same; lia|split; [lia|auto]]]]]]. assert (IX : int32 x). { destruct (pool_len _ _ PO') as [_ IA]. unfold HEADER, int32 in *. lia. } destruct (header_fields _ _ _ _ _ HD IX FL) as (_ & _ & HT & _). auto.
      * specialize (SZ e J). assert (SZ' : sized s m' e). { apply (sized_keep s m); [|exact SZ]. destruct (inv_in _ _ _ _ _ _ E PO J) as (? & ? & ?). unfold HEADER in *. apply (rd_within m m' e (s e)); auto; lia. } destruct SZ' as (t & n' & z' & Q). exists t, n', z'. rewrite set_other by auto. exact Q.
Qed.
Lemma whole_write k s m T P F e q bs m' : whole k s m T P F -> In e (members F) -> e + 24 <= q -> q + zlen bs <= e + s e -> wr m q bs = Ok m' -> whole k s m' T P F.
Proof.
  intros (B & a & I & E & IB & SZ) J Q1 Q2 W. destruct (names_pool _ _ _ _ _ _ _ I) as [PO BI]. exists B, a. split; [apply (inv_write m m' _ _ _ _ _ _ e (s e) q bs); auto; [exact tags_first|lia]|]. split; [apply (BwProofs.inv_write k s m F e q bs); auto|]. split; [exact IB|].
  intros e' J'. apply (sized_keep s m m'); [|auto]. destruct (wr_kept _ _ _ _ W) as (_ & _ & [_ KE] & _). apply KE; [lia|]. destruct (Z.eq_dec e' e) as [->|N]; [lia|]. destruct (inv_apart _ _ _ _ _ _ E J' J N); destruct (inv_in _ _ _ _ _ _ E PO J'); lia.
Qed.
(** The root *)
Lemma root_keeps m a x m' : pool m a -> setRoot m x = Ok m' -> pool m' a /\ zlen m' = zlen m /\ forall q k, 0 <= k -> q + k <= 44 \/ 48 <= q -> rd m' q k = rd m q k.
Proof.
  intros PO E. unfold setRoot in E. apply obind_inv in E as (r & _ & E). destruct (negb _); [injection E as <-; auto|]. apply obind_inv in E as (o & _ & E). apply obind_inv in E as (b & _ & E). destruct (_ && _); [|injection E as <-; auto].
  unfold wr32 in E. destruct (wr_kept _ _ _ _ E) as (_ & _ & K & _). change (zlen (le 4 o)) with 4 in K. split; [|split; [apply (kept_len _ _ _ _ K)|apply K]]. unfold pool, p_allocator, p_limit, p_file_size, p_mmap_size in *.
  rewrite !(kept_s32 _ _ _ _ _ K) by lia. rewrite (kept_len _ _ _ _ K). exact PO.
Qed.
Lemma whole_root k s m T P F x m' : whole k s m T P F -> setRoot m x = Ok m' -> whole k s m' T P F.
Proof.
  intros (B & a & I & E & IB & SZ) R. pose proof I as (n1 & x1 & n2 & x2 & PO & T1 & T2 & SP). destruct (root_keeps _ _ _ _ PO R) as (PO' & ZL & KK). pose proof PO as (_ & _ & _ & _ & BB & _). destruct (spread_app _ _ _ SP) as (SPL & SPR & _). destruct (spread_app _ _ _ SPR) as (SPK & SPB & _). unfold HEADER, TAGS, PARAMS in *.
  apply (whole_names k s m m' T P T P F B a a I E IB SZ); [|lia|intros y j J; pose proof (spread_in _ _ _ _ SPB J); unfold HEADER in *; apply KK; lia].
  exists n1, x1, n2, x2. split; [exact PO'|]. split; [|split; [|exact SP]].
  - apply (table_frame m m' 60 n1 x1 T a T1); try lia; [apply KK; lia|exact SPL|]. intros y j J. pose proof (spread_in _ _ _ _ SPL J). unfold HEADER in *. apply KK; lia.
  - apply (table_frame m m' 76 n2 x2 P a T2); try lia; [apply KK; lia|exact SPK|]. intros y j J. pose proof (spread_in _ _ _ _ SPK J). unfold HEADER in *. apply KK; lia.
Qed.
(** The type of an element *)
Lemma retype_ok m e ty ok m' : retype m e ty = Ok (ok, m') -> exists old, el_type m e = Ok old /\
  ok = (old =? ty) || (XBT_IS_4 ty && XBT_IS_4 old) || (XBT_IS_8 ty && XBT_IS_8 old) || (XBT_IS_VARSIZE ty && XBT_IS_VARSIZE old) /\ (m' = m /\ (ok = true -> old = ty) \/ ok = true /\ old <> ty /\ wr m (e + 7) [ty] = Ok m').
Proof.
  intro E. unfold retype in E. apply obind_inv in E as (old & TO & E). exists old. split; [exact TO|]. destruct (Z.eqb_spec old ty) as [Q|Q]; [injection E as <- <-; split; [reflexivity|]; left; auto|]. cbn [orb].
  assert (X48 : XBT_IS_4 ty = true -> XBT_IS_8 ty = false /\ XBT_IS_VARSIZE ty = false). { unfold XBT_IS_4, XBT_IS_8, XBT_IS_VARSIZE, isin, existsb. intro X. repeat (apply orb_true_iff in X as [X|X]; [apply Z.eqb_eq in X; subst ty; split; reflexivity|]). discriminate. }
  assert (X8V : XBT_IS_8 ty = true -> XBT_IS_VARSIZE ty = false). { unfold XBT_IS_4, XBT_IS_8, XBT_IS_VARSIZE, isin, existsb. intro X. repeat (apply orb_true_iff in X as [X|X]; [apply Z.eqb_eq in X; subst ty; reflexivity|]). discriminate. }
  destruct (XBT_IS_4 ty).
  - destruct (X48 eq_refl) as [-> ->]. cbn [andb]. destruct (XBT_IS_4 old); [apply obind_inv in E as (m1 & W & E)|]; injection E as <- <-; (split; [reflexivity|]); [right; auto|left; split; [reflexivity|discriminate]].
  - cbn [andb]. destruct (XBT_IS_8 ty).
    + rewrite (X8V eq_refl). cbn [andb]. destruct (XBT_IS_8 old); [apply obind_inv in E as (m1 & W & E)|]; injection E as <- <-; (split; [reflexivity|]); [right; auto|left; split; [reflexivity|discriminate]].
    + cbn [andb]. destruct (XBT_IS_VARSIZE ty); cbn [andb]; [destruct (XBT_IS_VARSIZE old); [apply obind_inv in E as (m1 & W & E)|]|]; injection E as <- <-; (split; [reflexivity|]); [right; auto|left; split; [reflexivity|discriminate]..].
Qed.
Lemma bytes_4 t : XBT_IS_4 t = true -> (forall n z, XBT_Size2 t n = Ok z -> 0 <= z -> z = 4) /\ XBT_Size2 t 0 = Ok 4 /\ XBT_Align t = 4.
Proof.
  unfold XBT_IS_4, isin, existsb. intro X. repeat (apply orb_true_iff in X as [X|X]; [apply Z.eqb_eq in X; subst t; split; [|split; reflexivity]; intros n z E Z0; unfold XBT_Size2 in E; cbn in E; destruct ((n =? 0) || (n =? 4)); injection E as <-; lia|]). discriminate.
Qed.
Lemma bytes_8 t : XBT_IS_8 t = true -> (forall n z, XBT_Size2 t n = Ok z -> 0 <= z -> z = 8) /\ XBT_Size2 t 0 = Ok 8 /\ XBT_Align t = 8.
Proof.
  unfold XBT_IS_8, isin, existsb. intro X. repeat (apply orb_true_iff in X as [X|X]; [apply Z.eqb_eq in X; subst t; split; [|split; reflexivity]; intros n z E Z0; unfold XBT_Size2 in E; cbn in E; destruct ((n =? 0) || (n =? 8)); injection E as <-; lia|]). discriminate.
Qed.
Lemma bytes_var t : XBT_IS_VARSIZE t = true -> (exists n, XBT_Size2 t n = Ok (if t =? XBT_BLOB_STRING then 20 else 0)) /\ XBT_Align t = 4.
Proof.
  unfold XBT_IS_VARSIZE, isin, existsb. intro X. repeat (apply orb_true_iff in X as [X|X]; [apply Z.eqb_eq in X; subst t; split; [|reflexivity]; first [exists (-4); reflexivity|exists 0; reflexivity]|]). discriminate.
Qed.
Lemma whole_type k s m T P F e ty ok m' : whole k s m T P F -> In e (members F) -> 0 <= ty < 256 -> (ty = XBT_BLOB_STRING -> 44 <= s e) -> retype m e ty = Ok (ok, m') -> whole k s m' T P F.
Proof.
  intros WH J TY BS E. destruct (retype_ok _ _ _ _ _ E) as (old & TO & EO & [[-> _]|(-> & N & W)]); [exact WH|]. destruct WH as (B & a & I & EL & IB & SZ). destruct (names_pool _ _ _ _ _ _ _ I) as [PO BI].
  pose proof (inv_in _ _ _ _ _ _ EL PO J) as (H1 & H2 & H3). exists B, a. split; [apply (inv_write m m' _ _ _ _ _ _ e (s e) (e + 7) [ty]); auto; [exact tags_first|lia|change (zlen [ty]) with 1; lia]|]. split; [apply (inv_type k s m F e ty); auto|]. split; [exact IB|].
  destruct (wr_kept _ _ _ _ W) as (_ & _ & [_ KE] & RT). change (zlen [ty]) with 1 in *. intros e' J'. destruct (Z.eq_dec e' e) as [->|NE].
  2:{ apply (sized_keep s m m'); [|auto]. apply KE; [lia|]. destruct (inv_apart _ _ _ _ _ _ EL J' J NE); destruct (inv_in _ _ _ _ _ _ EL PO J'); lia. }
  destruct (SZ e J) as (t0 & n & z & T0 & _ & S2 & Z0 & LE & A4 & A8). rewrite TO in T0. injection T0 as <-.
  assert (TT : el_type m' e = Ok ty) by (unfold el_type, rd_u8; rewrite RT; cbn [obind unle]; f_equal; lia).
  symmetry in EO. apply orb_true_iff in EO as [EO|EO]; [apply orb_true_iff in EO as [EO|EO]; [apply orb_true_iff in EO as [EO|EO]; [apply Z.eqb_eq in EO; congruence|]|]|]; apply andb_true_iff in EO as [X1 X2].
  - destruct (bytes_4 _ X1) as (_ & S1 & AL). destruct (bytes_4 _ X2) as (Q & _). rewrite (Q n z S2 Z0) in *. exists ty, 0, 4. rewrite AL. repeat (split; [first [assumption|lia]|]). discriminate.
  - destruct (bytes_8 _ X1) as (_ & S1 & AL). destruct (bytes_8 _ X2) as (Q & _ & AO). rewrite (Q n z S2 Z0) in *. exists ty, 0, 8. rewrite AL. repeat (split; [first [assumption|lia]|]). auto.
  - destruct (bytes_var _ X1) as ((n1 & S1) & AL). exists ty, n1, (if ty =? XBT_BLOB_STRING then 20 else 0). rewrite AL. split; [exact TT|]. split; [exact TY|]. split; [exact S1|]. destruct (Z.eqb_spec ty XBT_BLOB_STRING) as [Q|Q]; [specialize (BS Q)|]; (split; [lia|]; split; [lia|]; split; [exact A4|discriminate]).
Qed.
Lemma life_whole k s m T P F : life k s m T P F -> whole k s m T P F.
Proof.
  induction 1 as [k s m a PO TI ZZ|k s m T P F fuel nm ty id m' L I PS TY RM E|k s m T P F fuel nm ty id m' L I PS TY RM E|k s m T P F fuel disk ch fl ok m' L I E|k s m T P F t fuel ok m' L I TT E|k s m T P F fuel m' L I E|k s m T P F disk id ty n z fl x m' L I FL TY E SZ|k s m T P F disk id ty n fl m' L I E|k s m T P F e q bs m' L I J Q1 Q2 W|k s m T P F e m' L I J E|k s m T P F n r m' L I E|k s m T P F n r m' L I E|k s m T P F disk n r m' L I E|k s m T P F p t F' ok tr L I J AD E|k s m T P F a b F' ok tr L I AD E|k s m T P F p t F' ok tr L I AD E|k s m T P F p old new c F' ok tr L I AD NO E|k s m T P F id ty n z fl N x m1 m' L I FL TY AL IN SZ Z0 ZN|k s m T P F fuel N m1 m2 T' m' L I LN ZL S1 EN NE S2|k s m T P F fuel N m1 m2 P' m' L I LN ZL S1 EN NE S2|k s m T P F fuel id ty ok m' L I E|k s m T P F fuel id ty ok m' L I E|k s m T P F e ty ok m' L I J TY BS E|k s m T P F p A R m' L I PM W|k s m T P F p x A R m' L I PM J UN W|k s m T P F p m' L I J UN W].
  - destruct (dicts_inv m [] [] [] (dicts_start m a PO ZZ)) as (a' & I). exists [], a'. split; [exact I|]. split; [|split; intros e []]. apply built_inv, (built_start k s m a PO).
  - destruct I as (B & a & I & EL & IB & SZ). destruct (inv_register _ _ _ _ _ _ _ _ _ _ _ _ tags_first I PS TY RM E) as (_ & KK & a' & AA & I'). apply (whole_names k s m m' T P _ P F B a a'); auto.
  - destruct I as (B & a & I & EL & IB & SZ). pose proof I as I0. apply inv_swap in I0. destruct (inv_register _ _ _ _ _ _ _ _ _ _ _ _ (two_swap _ _ tags_first) I0 PS TY RM E) as (_ & KK & a' & AA & I'). apply inv_swap in I'. apply (whole_names k s m m' T P T _ F B a a'); auto.
  - destruct I as (B & a & I & EL & IB & SZ). destruct (inv_all _ _ _ _ _ _ _ _ _ _ _ I E) as (a' & AA & KK & I'). apply (whole_names k s m m' T P T P F B a a'); auto.
  - destruct I as (B & a & I & EL & IB & SZ). destruct TT as [-> | ->].
    + destruct (inv_table _ _ _ _ _ _ _ _ _ _ tags_first I E) as (a' & AA & KK & I'). apply (whole_names k s m m' T P T P F B a a'); auto.
    + apply inv_swap in I. destruct (inv_table _ _ _ _ _ _ _ _ _ _ (two_swap _ _ tags_first) I E) as (a' & AA & KK & I'). apply inv_swap in I. apply inv_swap in I'. apply (whole_names k s m m' T P T P F B a a'); auto.
  - destruct I as (B & a & I & EL & IB & SZ). destruct (clear_ok _ _ _ _ _ _ _ I E) as (a' & I' & _). exists [], a'. split; [exact I'|]. split; [|split; intros e []]. apply built_inv, (built_start k s m' a'). apply (names_pool _ _ _ _ _ _ _ I').
  - apply (whole_new k s m T P F disk id ty n z fl x m'); auto.
  - apply (whole_extends k s m m' T P F I). intros a PO. apply (fresh_ok _ _ a) in E; auto.
  - apply (whole_write k s m T P F e q bs m'); auto.
  - apply (whole_root k s m T P F e m' I E).
  - apply (whole_extends k s m m' T P F I). intros a PO. apply (allocate_ok _ a) in E; [|exact PO]. destruct r as [x|].
    + destruct E as (N0 & -> & PO' & EX & _). pose proof (align4_ge n). exists (a + align_up 4 n). split; [exact PO'|]. split; [lia|exact EX].
    + destruct E as (-> & _). exists a. split; [exact PO|]. split; [lia|apply extends_refl].
  - apply (whole_extends k s m m' T P F I). intros a PO. apply (allocate8_ok _ a) in E; [|exact PO]. destruct r as [x|].
    + destruct E as (N0 & -> & PO' & EX & _). pose proof (align8_ge n). pose proof (align8_ge a). exists (align_up 8 a + align_up 8 n). split; [exact PO'|]. split; [lia|exact EX].
    + destruct E as ((a' & PO' & AA) & EX & _). exists a'. auto.
  - apply (whole_extends k s m m' T P F I). intros a PO. apply (makeSpace_ok _ _ a) in E as (PO' & EX & _); [|exact PO]. exists a. split; [exact PO'|]. split; [lia|exact EX].
  - pose proof I as (B & a & _ & EL & _). destruct (inv_add _ _ _ _ _ _ _ EL J AD) as (pre & m1 & E2 & I2 & _ & OL). rewrite E2 in E. injection E as <- <-. rewrite final_snoc in *. apply (whole_links k s m m1 T P F F' I I2); [eapply adds_members; eauto|exact OL].
  - pose proof I as (B & a0 & _ & EL & _). destruct (inv_join _ _ _ _ _ _ _ EL AD) as (m1 & m2 & m3 & m4 & E2 & I2 & _ & OL). rewrite E2 in E. injection E as <- <-. apply (whole_links k s m m4 T P F F' I I2); [eapply joins_members; eauto|exact OL].
  - pose proof I as (B & a & _ & EL & _). destruct (inv_remove _ _ _ _ _ _ _ EL AD) as (tr' & E2 & I2 & OL). rewrite E2 in E. injection E as <- <-. apply (whole_links k s m _ T P F F' I I2); [eapply removes_members; eauto|exact OL].
  - pose proof I as (B & a & _ & EL & _). destruct (inv_replace _ _ _ _ _ _ _ _ _ EL AD NO) as (tr' & E2 & I2 & OL). rewrite E2 in E. injection E as <- <-. apply (whole_links k s m _ T P F F' I I2); [eapply replaces_members; eauto|exact OL].
  - apply (whole_put k s m T P F id ty n z fl N x m1 m'); auto.
  - destruct I as (B & a & I & EL & IB & SZ). destruct (inv_import fuel _ _ m T P B a N m1 m2 T' m' tags_first I LN ZL S1 EN S2) as (KK & a' & AA & I'). destruct T' as [|e T']; [congruence|]. apply (whole_names k s m m' T P _ P F B a a'); auto.
  - destruct I as (B & a & I & EL & IB & SZ). pose proof I as I0. apply inv_swap in I0. destruct (inv_import fuel _ _ m P T B a N m1 m2 P' m' (two_swap _ _ tags_first) I0 LN ZL S1 EN S2) as (KK & a' & AA & I'). destruct P' as [|e P']; [congruence|]. apply inv_swap in I'. apply (whole_names k s m m' T P T _ F B a a'); auto.
  - destruct I as (B & a & I & EL & IB & SZ). destruct (inv_alter _ _ _ _ _ _ _ _ _ _ _ _ tags_first I E) as (KK & I' & _). apply (whole_names k s m m' T P _ P F B a a); auto; lia.
  - destruct I as (B & a & I & EL & IB & SZ). pose proof I as I0. apply inv_swap in I0. destruct (inv_alter _ _ _ _ _ _ _ _ _ _ _ _ (two_swap _ _ tags_first) I0 E) as (KK & I' & _). apply inv_swap in I'. apply (whole_names k s m m' T P T _ F B a a); auto; lia.
  - exact (whole_type k s m T P F e ty ok m' I J TY BS E).
  - pose proof I as (B & a & _ & EL & _). destruct (inv_detach k s m F p A R m' EL PM W) as [I2 OL]. apply (whole_links k s m m' T P F _ I I2); [|exact OL]. rewrite (members_perm _ _ PM), !members_cons. reflexivity.
  - pose proof I as (B & a & _ & EL & _). destruct (inv_hang k s m F p x A R m' EL PM J UN W) as [I2 OL]. apply (whole_links k s m m' T P F _ I I2); [|exact OL]. rewrite (members_perm _ _ PM), !members_cons. reflexivity.
  - pose proof I as (B & a & _ & EL & _). destruct (inv_bare k s m F p m' EL J UN W) as [I2 OL]. apply (whole_links k s m m' T P F _ I I2); [reflexivity|exact OL].
Qed.
