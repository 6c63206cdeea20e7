(** Handing over attributes, other types. *)
From Verif Require Import Base BaseFacts Types ListFacts Sort Xb XbSpec XbFacts XbWrite WriteProofs Bw BwFacts BwRing BwSpec BwHist BwAlloc BwProofs BwRead BwTop BwSym BwReg BwFileSpec BwFileProofs BwNamesSpec BwNamesFacts BwNamesInv BwNamesReg BwNamesOps BwNamesIndex BwNamesProofs BwAlter BwImport BwLifeSpec JsonSource.

Section Links.
Variable k : Z -> bool.
Variable s : Z -> Z.
(** The attributes of [p] stop being listed. *)
Lemma inv_detach m F p A R m' : BwProofs.inv k s m F -> Permutation F ((Some (p, false), A) :: R) -> wr32 m (p + 20) 0 = Ok m' ->
  BwProofs.inv k s m' ((None, A) :: R) /\ only_links (members F) m m'.
Proof.
  intros I PM W. apply (inv_perm _ _ _ _ _ PM) in I. destruct I as (h & a & PL & RP & S). destruct (sh_head _ _ S p false A ltac:(left; reflexivity)) as [IP HP]. assert (LK : link 20) by (unfold link; auto).
  destruct (rep_store _ _ _ p 20 0 RP IP LK ltac:(unfold int32, INT_MIN, INT_MAX; lia)) as (m1 & W1 & RP1 & FR). rewrite W in W1. injection W1 as <-.
  split; [|apply (only_perm _ _ _ _ (Permutation_sym (members_perm _ _ PM))), (framed_only k s), FR]. exists (upd h p 20 0), a. split; [exact (placed_framed _ _ _ _ _ _ _ PL RP FR)|]. split; [exact RP1|].
  pose proof (sh_owners _ _ S) as NO. change (owners ((Some (p, false), A) :: R)) with ((p, false) :: owners R) in NO. inversion NO as [|? ? NI NO2]; subst.
  apply (shape_frame h (upd h p 20 0) [(Some (p, false), A)] [(None, A)] R S); [reflexivity|exact NO2|..].
  - intros o L [E|[]]. injection E as <- <-. apply (ring_ext h); [|apply (sh_ring _ _ S (Some (p, false))); left; reflexivity]. intros e J. unfold upd. rewrite !andb_false_r. auto.
  - intros q b L [E|[]]. discriminate.
  - intros q b L [E|[]] _. injection E as <- <- <-. apply upd_same.
  - intros q b U _. apply upd_other. destruct (Z.eq_dec q p) as [->|N]; [|auto]. destruct b; cbn [field_of]; [right; lia|]. exfalso. apply (U A). left. reflexivity.
  - intros e _. rewrite !upd_other by (right; lia). auto.
Qed.
(** A chain becomes the attributes of [p]. *)
Lemma inv_hang m F p x A R m' : BwProofs.inv k s m F -> Permutation F ((None, x :: A) :: R) -> In p (members F) -> (forall L, ~ In (Some (p, false), L) R) -> wr32 m (p + 20) x = Ok m' ->
  BwProofs.inv k s m' ((Some (p, false), x :: A) :: R) /\ only_links (members F) m m'.
Proof.
  intros I PM IP UN W. apply (inv_perm _ _ _ _ _ PM) in I. apply (Permutation_in _ (members_perm _ _ PM)) in IP. destruct I as (h & a & PL & RP & S). assert (LK : link 20) by (unfold link; auto).
  assert (IX : int32 x) by (apply (rep_int _ _ _ x RP); left; reflexivity).
  destruct (rep_store _ _ _ p 20 x RP IP LK IX) as (m1 & W1 & RP1 & FR). rewrite W in W1. injection W1 as <-.
  split; [|apply (only_perm _ _ _ _ (Permutation_sym (members_perm _ _ PM))), (framed_only k s), FR]. exists (upd h p 20 x), a. split; [exact (placed_framed _ _ _ _ _ _ _ PL RP FR)|]. split; [exact RP1|].
  pose proof (sh_owners _ _ S) as NO. change (owners ((None, x :: A) :: R)) with (owners R) in NO.
  apply (shape_frame h (upd h p 20 x) [(None, x :: A)] [(Some (p, false), x :: A)] R S); [reflexivity| |..].
  - change (owners ([(Some (p, false), x :: A)] ++ R)) with ((p, false) :: owners R). constructor; [|exact NO]. intro J. apply in_flat_map in J as ([[o|] L] & J1 & J2); [|contradiction]. destruct J2 as [E|[]]. cbn [fst] in E. subst o. exact (UN L J1).
  - intros o L [E|[]]. injection E as <- <-. apply (ring_ext h); [|apply (sh_ring _ _ S None); left; reflexivity]. intros e J. rewrite !upd_other by (right; lia). auto.
  - intros q b L [E|[]]. injection E as <- <- <-. split; [exact IP|apply upd_same].
  - intros q b L [E|[]]. discriminate.
  - intros q b _ U. apply upd_other. destruct (Z.eq_dec q p) as [->|N]; [|auto]. destruct b; cbn [field_of]; [right; lia|]. exfalso. apply (U (x :: A)). left. reflexivity.
  - intros e _. rewrite !upd_other by (right; lia). auto.
Qed.
(** There are none, and this is stored again. *)
Lemma inv_bare m F p m' : BwProofs.inv k s m F -> In p (members F) -> (forall L, ~ In (Some (p, false), L) F) -> wr32 m (p + 20) 0 = Ok m' -> BwProofs.inv k s m' F /\ only_links (members F) m m'.
Proof.
  intros (h & a & PL & RP & S) IP UN W. assert (LK : link 20) by (unfold link; auto).
  destruct (rep_store _ _ _ p 20 0 RP IP LK ltac:(unfold int32, INT_MIN, INT_MAX; lia)) as (m1 & W1 & RP1 & FR). rewrite W in W1. injection W1 as <-. split; [|apply (framed_only k s), FR].
  assert (HP : h p 20 = 0) by exact (sh_none _ _ S p false IP UN). assert (HU : forall e f, upd h p 20 0 e f = h e f) by (intros e f; unfold upd; destruct (Z.eqb_spec e p) as [->|]; [|reflexivity]; destruct (Z.eqb_spec f 20) as [->|]; cbn [andb]; auto).
  exists h, a. split; [exact (placed_framed _ _ _ _ _ _ _ PL RP FR)|]. split; [|exact S]. constructor; try apply RP1. intros e f I L. rewrite (rep_link _ _ _ RP1 e f I L), HU. reflexivity.
Qed.
(** The type of an element *)
Lemma inv_type m F e t m' : BwProofs.inv k s m F -> In e (members F) -> wr m (e + 7) [t] = Ok m' -> BwProofs.inv k s m' F.
Proof.
  intros (h & a & PL & RP & S) I W. destruct (wr_kept _ _ _ _ W) as (_ & _ & K & _). change (zlen [t]) with 1 in K. destruct (pl_in _ _ _ _ _ PL e I) as (B1 & B2 & B3). unfold HEADER in *.
  assert (D : forall e', In e' (members F) -> e' = e \/ e + 8 <= e' \/ e' + 24 <= e + 7). { intros e' I'. destruct (Z.eq_dec e e') as [->|N]; [auto|]. destruct (pl_in _ _ _ _ _ PL e' I') as (C1 & C2 & C3). destruct (pl_apart _ _ _ _ _ PL e e' I I' N); lia. }
  exists h, a. split; [|split; [|exact S]].
  - constructor; try apply PL; [eapply pool_wr; [apply PL|exact W|lia]|]. intros e' I'. destruct (pl_kind _ _ _ _ _ PL e' I') as (f & Ef & Kf). exists f. split; [|exact Kf]. unfold el_flags in *. rewrite (kept_u8 _ _ _ _ _ K); [exact Ef|]. destruct (D e' I') as [->|[|]]; lia.
  - constructor; try apply RP.
    + intros e' I'. destruct K as [-> _]. apply RP, I'.
    + intros e' I'. unfold el_offset. rewrite (kept_s32 _ _ _ _ _ K); [apply RP, I'|]. destruct (D e' I') as [->|[|]]; lia.
    + intros e' f I' L. rewrite (kept_s32 _ _ _ _ _ K); [apply RP; auto|]. unfold link in L. destruct (D e' I') as [->|[|]]; lia.
Qed.
End Links.

(** ** The type of a name *)
Lemma table_retype m a t u n x l1 nm old new l2 R m2 : pool m a -> two t u -> table m t n x (l1 ++ (nm, old) :: l2) -> spread (regions n x (l1 ++ (nm, old) :: l2) ++ R) a -> 0 <= new < 256 ->
  wr m (n + zlen (stored 0 l1) + 2) [new] = Ok m2 ->
  others m m2 u R /\ pool m2 a /\ table m2 t n x (l1 ++ (nm, new) :: l2) /\ spread (regions n x (l1 ++ (nm, new) :: l2) ++ R) a.
Proof.
  intros PO1 TW TB1 SP1 NW W. pose proof (two_tab _ _ TW) as [IT IU]. pose proof PO1 as (A & _ & _ & _ & B & A4 & _). pose proof (pool_len _ _ PO1) as [IZ IA].
  set (L := l1 ++ (nm, old) :: l2) in *. pose proof TB1 as (MX & N & X & F & L1 & G & ND & N4 & H & IX). assert (EL : L = l1 ++ (nm, old) :: l2) by reflexivity. clearbody L.
  assert (NE : L <> []) by (rewrite EL; destruct l1; discriminate). destruct (table_bound _ _ _ _ _ _ _ PO1 TB1 SP1 NE) as [B1 B2].
  assert (LZ : zlen (stored 0 (l1 ++ (nm, new) :: l2)) = zlen (stored 0 L)) by (rewrite EL; apply stored_same). assert (LL : zlen (l1 ++ (nm, new) :: l2) = zlen L) by (rewrite EL, !zlen_app; reflexivity).
  assert (BO : zlen (stored 0 l1) + 4 <= zlen (stored 0 L)). { rewrite EL, stored_app, zlen_app. cbn [stored]. rewrite zlen_app, entry_len. pose proof (esize_ge nm). pose proof (zlen_nonneg nm). pose proof (zlen_nonneg (stored (0 + zlen l1 + 1) l2)). lia. }
  pose proof (zlen_nonneg (stored 0 l1)). unfold HEADER, istab, TAGS, PARAMS in *. destruct (wr_kept _ _ _ _ W) as (_ & _ & K & _). change (zlen [new]) with 1 in K. pose proof K as [KL KK].
  destruct (spread_app _ _ _ SP1) as (SPL & [_ SI] & AP).
  split. { split; [lia|]. split; [apply KK; lia|]. split; [apply KK; lia|]. intros y j I. specialize (AP _ _ (region_names n x L NE) I). unfold apart in AP. cbn [fst snd] in AP. specialize (SI y j I). apply KK; lia. }
  split; [apply (pool_wr _ _ _ _ _ PO1 W); lia|].
  assert (RG : regions n x (l1 ++ (nm, new) :: l2) = regions n x L). { unfold regions, index_at. rewrite LL. f_equal. unfold names_at. rewrite <- LZ. destruct L; [congruence|]. destruct l1; reflexivity. }
  rewrite RG. split; [|exact SP1]. unfold tablef, t_max_id, t_names, t_index in *. rewrite !(kept_s32 _ _ _ _ _ K) by lia. rewrite (kept_flags _ _ _ _ _ K) by lia. rewrite LL. do 5 (split; [assumption|]).
  split. { rewrite EL in G. apply Forall_app in G as [Ga Gb]. inversion Gb as [|? ? [G1 G2] G3]; subst. apply Forall_app. split; [exact Ga|]. constructor; [|exact G3]. cbn [fst snd] in *. split; [exact G1|exact NW]. }
  split. { rewrite map_app. cbn [map fst]. rewrite EL, map_app in ND. exact ND. } split; [exact N4|]. split; [intros _; apply (BwNamesOps.retype m _ _ _ _ old); [rewrite <- EL; auto|exact W]|].
  intro X0. destruct (IX X0) as [_ II]. split; [destruct l1; discriminate|]. intros i e NI.
  assert (IL : (i < List.length L)%nat). { assert (Q : nth_error (l1 ++ (nm, new) :: l2) i <> None) by congruence. apply nth_error_Some in Q. rewrite app_length in Q. rewrite EL, app_length. exact Q. }
  destruct (nth_error L i) as [e0|] eqn:NI0; [|apply nth_error_Some in IL; congruence]. specialize (II i e0 NI0).
  assert (OO : off (l1 ++ (nm, new) :: l2) i = off L i). { rewrite EL. unfold off. rewrite !firstn_app. destruct (i - List.length l1)%nat; [reflexivity|]. cbn [firstn]. apply stored_same. }
  rewrite OO, <- II. unfold rd_s32. rewrite KK; [reflexivity|lia|]. destruct (spread_in _ _ _ _ SPL (region_index n x L X0)) as (J1 & J2 & J3).
  assert (APX : apart (n, zlen (stored 0 L)) (x, 4 * zlen L)). { destruct SPL as [O _]. unfold regions, names_at, index_at in O. destruct L; [congruence|]. destruct (Z.eqb_spec x 0); [congruence|]. cbn [app] in O. inversion O as [|? ? FO _]; subst. inversion FO; subst. assumption. }
  unfold apart in APX. cbn [fst snd] in APX. unfold zlen in *. lia.
Qed.
Lemma entry_none fuel m t n x L id o : table m t n x L -> id < 0 \/ zlen L <= id -> entry_at fuel m t id = rret o -> o = None.
Proof.
  intros (MX & _) R E. unfold entry_at in E. rewrite MX, rbind_ok in E. replace ((id <? 0) || (zlen L - 1 <? id)) with true in E by lia. apply rret_inj in E. auto.
Qed.
Lemma find_id_more m mx lim sid d : forall fuel p id r, find_id fuel m mx lim sid p id = rret r -> find_id (fuel + d) m mx lim sid p id = rret r.
Proof.
  induction fuel as [|f IH]; intros p id r E; [discriminate|]. change (S f + d)%nat with (S (f + d)). cbn [find_id] in *. destruct (mx <? id); [exact E|].
  apply rbind_inv in E as (i & E1 & E). rewrite E1, rbind_rret. destruct (i =? sid); [exact E|]. apply rbind_inv in E as (q & E2 & E). rewrite E2, rbind_rret. destruct (lim <=? q); [exact E|]. apply IH, E.
Qed.
Lemma entry_more fuel d m t id r : entry_at fuel m t id = rret r -> entry_at (fuel + d) m t id = rret r.
Proof.
  intro E. unfold entry_at in *. apply rbind_inv in E as (mx & E1 & E). rewrite E1, rbind_rret. destruct (_ || _); [exact E|]. apply rbind_inv in E as (ix & E2 & E). rewrite E2, rbind_rret. destruct (ix =? 0); [|exact E].
  apply rbind_inv in E as (n & E3 & E). rewrite E3, rbind_rret. apply rbind_inv in E as (l & E4 & E). rewrite E4, rbind_rret. apply find_id_more, E.
Qed.
Lemma entry_is fuel m a t n x L R id o : pool m a -> table m t n x L -> spread (regions n x L ++ R) a -> entry_at fuel m t id = rret o ->
  o = (if (0 <=? id) && (id <? zlen L) then Some (n + off L (Z.to_nat id)) else None).
Proof.
  intros PO TB SP E. destruct ((0 <=? id) && (id <? zlen L)) eqn:RG; [|apply (entry_none _ _ _ _ _ _ _ _ TB) in E; [exact E|lia]]. destruct (nth_error L (Z.to_nat id)) as [e|] eqn:NE; [|apply nth_error_None in NE; unfold zlen in *; lia].
  pose proof (entry_some m a t n x L R (Z.to_nat id) e (fuel + S (List.length L)) PO TB SP NE ltac:(lia)) as E2. apply (entry_more _ (S (List.length L))) in E. rewrite Z2Nat.id in E2 by lia. rewrite E in E2. apply rret_inj in E2. exact E2.
Qed.
(** What alterTag and alterAttr do *)
Lemma inv_alter m t u L K B a fuel id ty ok m' : two t u -> BwNamesInv.inv m t u L K B a -> alter fuel m t id ty = rret (ok, m') ->
  (forall y k, In (y, k) B -> rd m' y k = rd m y k) /\ BwNamesInv.inv m' t u (if ok then altered (Z.to_nat id) ty L else L) K B a /\
  ok = ((XBT_NULL <=? ty) && (ty <? XBT_LAST) && (0 <=? id) && match nth_error L (Z.to_nat id) with Some (_, old) => match XBT_ConvertableType old ty with Convertable => true | _ => false end | None => false end).
Proof.
  intros TW I E. pose proof I as (n & x & n' & x' & PO & T1 & T2 & SP). pose proof PO as (_ & _ & _ & _ & BB & _). unfold alter in E. destruct ((XBT_NULL <=? ty) && (ty <? XBT_LAST)) eqn:TY; cbn [negb] in E.
  2:{ apply rret_bool in E as [<- <-]. split; [auto|]. split; [exact I|reflexivity]. }
  apply rbind_inv in E as (o & EO & E). apply (entry_is _ _ _ _ _ _ _ _ _ _ PO T1 SP) in EO. subst o. destruct ((0 <=? id) && (id <? zlen L)) eqn:RG.
  2:{ apply rret_bool in E as [<- <-]. split; [auto|]. split; [exact I|]. destruct (0 <=? id) eqn:I0; [|reflexivity]. replace (nth_error L (Z.to_nat id)) with (@None (list Z * Z)); [reflexivity|]. symmetry. apply nth_error_None. unfold zlen in RG. lia. }
  replace (0 <=? id) with true by lia. cbn [andb]. apply rbind_inv in E as (cur & EC & E). apply some_inj in EC. destruct (nth_error L (Z.to_nat id)) as [[nm old]|] eqn:NE; [|apply nth_error_None in NE; unfold zlen in *; lia].
  pose proof T1 as (_ & _ & _ & _ & LB & G & _ & _ & H & _). assert (LNE : L <> []) by (intros ->; destruct (Z.to_nat id); discriminate). destruct (proj1 (Forall_forall _ _) G _ (nth_error_In _ _ NE)) as [PS TO]. cbn [fst snd] in PS, TO.
  pose proof (stored_at m n L _ _ (H LNE) NE) as HE. cbn [fst snd] in HE. apply has_entry in HE as (_ & _ & T3 & _); [|unfold zlen in *; lia|exact TO|apply PS]. rewrite T3 in EC. injection EC as <-.
  destruct (XBT_ConvertableType old ty) eqn:CV; try (apply rret_bool in E as [<- <-]; split; [auto|]; split; [exact I|reflexivity]).
  apply rbind_inv in E as (m1 & W & E). apply some_inj in W. apply rret_bool in E as [<- <-]. unfold altered. rewrite NE.
  destruct (nth_error_split L (Z.to_nat id) NE) as (l1 & l2 & EL & LN). assert (F1 : firstn (Z.to_nat id) L = l1) by (rewrite EL, <- LN, firstn_app, Nat.sub_diag, firstn_all; cbn [firstn]; apply app_nil_r).
  assert (F2 : skipn (S (Z.to_nat id)) L = l2). { rewrite EL, <- LN, skipn_app. replace (S (List.length l1) - List.length l1)%nat with 1%nat by lia. rewrite skipn_all2 by lia. reflexivity. }
  rewrite F1, F2. assert (OF : off L (Z.to_nat id) = zlen (stored 0 l1)) by (rewrite EL, <- LN; apply off_mid). rewrite OF in W. clear F1 F2 OF H T3 G. subst L.
  destruct (table_retype m a t u n x l1 nm old ty l2 _ m1 PO TW T1 SP ltac:(unfold XBT_NULL, XBT_LAST in TY; lia) W) as (OT & PO' & TB' & SP').
  split; [intros y k J; apply OT, in_or_app; right; exact J|]. split; [|reflexivity]. exists n, x, n', x'. split; [exact PO'|]. split; [exact TB'|]. split; [|exact SP']. unfold HEADER in BB. assert (UU : 0 <= u /\ u + 16 <= zlen m) by (unfold two, TAGS, PARAMS in TW; lia).
  apply (others_table m m1 u n' x' K [] B a); auto; try lia. apply spread_drop, spread_app in SP. apply SP.
Qed.
