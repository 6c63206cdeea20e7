(** A text document converted into a pool: the names, the file, the whole conversion. *)
From Verif Require Import Base BaseFacts Types ListFacts SizeProofs Scan ScanProofs Sort Symtab SymtabSpec Xb XbSpec XbFacts XbWrite OpenProofs SymtabProofs WriteProofs XbBin BinSpec Bw BwFacts BwSpec BwHist BwAlloc BwProofs BwSym BwFile BwFileSpec BwFileProofs BwNamesSpec BwNamesInv BwNamesOps BwLifeSpec BwLife BwSet BwTag BwTagSpec BwTagProofs BwAttrTop BwSource BwSourceSpec BwCopySpec BwCopyProofs BwCopyTop BwPathProofs BwMake BwMakeSpec BwMakeProofs BwMakeTop.

(** ** The names *)
Lemma find_all T l : Symtab.register [] l = rret T -> different (map fst l) <= 32768 -> ~ In (lit "et-tecera") (map fst l) ->
  lists_all T l /\ findable T (fun n => In n (map fst l)).
Proof.
  intros E D ET. destruct (SymtabProofs.register_ok l) as (T' & E' & O & Z1 & O1 & A). rewrite E in E'. injection E' as <-. specialize (A D). split; [split; [exact O|split; [exact A|exact O1]]|].
  intros n H. assert (N : n <> lit "et-tecera") by (intros ->; contradiction). destruct (find_registered l T n E N) as (i & F & [(I1 & B & NA)|[NI _]]); [|exfalso; apply NI; pose proof (in_map fst _ _ (A n H)); assumption].
  exists i, (column_type (values_of n l)). unfold find_. rewrite F. split; [reflexivity|]. split; [lia|]. split; [|apply column_byte].
  unfold name_at in NA. destruct (i <? 0); [discriminate|]. destruct (nth_error T (Z.to_nat i)) as [[n' ty]|] eqn:X; [|discriminate]. injection NA as ->. apply nth_error_In in X as X1. pose proof (register_holds l T E) as (G & _). rewrite (good_unique T n ty (column_type (values_of n l)) G X1 (A n H)). reflexivity.
Qed.
Lemma named_all (okT okP : list Z -> Prop) t : (forall n, In n (tag_names t) -> okT n) -> (forall n, In n (attr_names t) -> okP n) -> named_ok okT okP t.
Proof.
  induction t as [n v a k IH] using node_ind'. unfold tag_names, attr_names. cbn [tag_uses attr_uses map fst]. intros HT HP. cbn [named_ok]. split; [apply HT; left; reflexivity|].
  split; [intros n' v' J; apply HP; rewrite map_app, in_app_iff; left; apply (in_map fst) in J; exact J|].
  assert (XT : forall t, In t k -> forall n, In n (tag_names t) -> okT n). { intros t J n' J'. apply HT. right. unfold tag_names in J'. apply in_map_iff in J' as (e & <- & J'). apply in_map. apply in_flat_map. eauto. }
  assert (XP : forall t, In t k -> forall n, In n (attr_names t) -> okP n). { intros t J n' J'. apply HP. rewrite map_app, in_app_iff. right. unfold attr_names in J'. apply in_map_iff in J' as (e & <- & J'). apply in_map. apply in_flat_map. eauto. }
  clear HT HP. induction IH as [|t k Ht _ IHk]; cbn; [exact I|]. split; [apply Ht; [apply XT|apply XP]; left; reflexivity|]. apply IHk; intros t' J; [apply XT|apply XP]; right; assumption.
Qed.

(** ** The new file *)
Definition no_names m t : Prop := t_max_id m t = Ok (-1) /\ t_names m t = Ok 0 /\ t_index m t = Ok 0 /\ t_flags m t = Ok 0.
Lemma store_inv f o p v r : store f o p v = Ok r -> exists t, o = Ok t /\ store f (Ok t) p v = Ok r.
Proof. destruct o as [t| |]; [eauto|discriminate..]. Qed.
Lemma bytes_inv f o p b r : bytes_store f o p b = Ok r -> exists t, o = Ok t /\ bytes_store f (Ok t) p b = Ok r.
Proof. destruct o as [t| |]; [eauto|discriminate..]. Qed.
Lemma resize_len f n : 0 <= n -> zlen (resize f n) = n.
Proof. intros N. unfold resize. rewrite zlen_app, zlen_take by exact N. destruct (Z.le_ge_cases n (zlen f)); [|rewrite zlen_repeat by lia; lia]. unfold zrepeat. replace (Z.to_nat (n - zlen f)) with O by lia. change (zlen (repeat 0 0)) with 0. lia. Qed.
Lemma create_ok max f tr : INITIAL <= max -> int32 max -> InitEmptyFile true max f = Ok (true, tr) ->
  let c := final f tr in pool c HEADER /\ titled c /\ canon c /\ p_root c = Ok 0 /\ no_names c TAGS /\ no_names c PARAMS.
Proof.
  intros B IM E. unfold InitEmptyFile in E. cbn [negb] in E. cbv zeta in E. apply obind_inv in E as (r & E & Q). injection Q as <-.
  apply store_inv in E as (tb & E & S11). apply store_inv in E as (ta & E & S10). apply store_inv in E as (t9 & E & S9). apply store_inv in E as (t8 & E & S8). apply store_inv in E as (t7 & E & S7). apply store_inv in E as (t6 & E & S6). apply store_inv in E as (t5 & E & S5). apply store_inv in E as (t4 & E & S4).
  apply bytes_inv in E as (t2 & E & S2). apply bytes_inv in E as (t1 & E & S1). injection E as <-.
  assert (L0 : zlen (final f [resize f INITIAL]) = 16384) by (apply resize_len; unfold INITIAL; lia).
  apply bytes_store_kept in S1 as (K1 & G1); [|lia|rewrite zlen_repeat; unfold HEADER; lia]. rewrite zlen_repeat in * by (unfold HEADER; lia).
  apply bytes_store_kept in S2 as (K2 & G2); [|lia|change (zlen (TYPE_INFO ++ [0; 0; 0])) with 24; rewrite (proj1 K1); lia]. change (zlen (TYPE_INFO ++ [0; 0; 0])) with 24 in *. unfold HEADER, INITIAL in *.
  pose proof (store_bytes _ _ _ _ _ S4) as F4. apply store_kept in S4 as (K4 & G4); [|unfold int32; lia]. pose proof (store_bytes _ _ _ _ _ S5) as F5. apply store_kept in S5 as (K5 & G5); [|unfold int32; lia]. apply store_kept in S6 as (K6 & G6); [|exact IM].
  apply store_kept in S7 as (K7 & G7); [|unfold int32; lia]. apply store_kept in S8 as (K8 & G8); [|unfold int32; lia]. apply store_kept in S9 as (K9 & G9); [|unfold int32; lia]. apply store_kept in S10 as (K10 & G10); [|unfold int32; lia]. apply store_kept in S11 as (K11 & G11); [|unfold int32; lia].
  assert (LF : zlen (final f r) = 16384) by (rewrite (proj1 K11), (proj1 K10), (proj1 K9), (proj1 K8), (proj1 K7), (proj1 K6), (proj1 K5), (proj1 K4), (proj1 K2), (proj1 K1); exact L0).
  assert (X : forall p, 60 < p -> p + 4 <= 92 -> p + 4 <= 76 \/ 80 <= p -> 64 <= p -> rd_s32 (final f r) p = Ok 0).
  { intros p P1 P2 P3 P4. unfold rd_s32. rewrite (proj2 K11), (proj2 K10), (proj2 K9), (proj2 K8), (proj2 K7), (proj2 K6), (proj2 K5), (proj2 K4), (proj2 K2) by lia. apply zeros_s32. apply (zeros_part _ 0 p 4 92 G1); lia. }
  assert (XF : forall p, p = 72 \/ p = 88 -> obind (rd (final f r) p 4) (fun b => Ok (unle b)) = Ok 0).
  { intros p P1. rewrite (proj2 K11), (proj2 K10), (proj2 K9), (proj2 K8), (proj2 K7), (proj2 K6), (proj2 K5), (proj2 K4), (proj2 K2) by lia. rewrite (zeros_part _ 0 p 4 92 G1) by lia. reflexivity. }
  cbv zeta. unfold pool, canon, no_names, p_allocator, p_limit, p_file_size, p_mmap_size, p_root, t_max_id, t_names, t_index, t_flags, TAGS, PARAMS, HEADER. rewrite LF. repeat split; try lia; try (apply X; lia); try (apply XF; lia).
  - unfold rd_s32. rewrite (proj2 K11), (proj2 K10), (proj2 K9), (proj2 K8) by lia. exact G7.
  - unfold rd_s32. rewrite (proj2 K11), (proj2 K10), (proj2 K9) by lia. exact G8.
  - unfold rd_s32. rewrite (proj2 K11), (proj2 K10), (proj2 K9), (proj2 K8), (proj2 K7), (proj2 K6) by lia. exact G5.
  - exists max. split; [|lia]. unfold rd_s32. rewrite (proj2 K11), (proj2 K10), (proj2 K9), (proj2 K8), (proj2 K7) by lia. exact G6.
  - assert (E1 : rd (final f r) 4 24 = Ok (TYPE_INFO ++ [0; 0; 0])) by (rewrite (proj2 K11), (proj2 K10), (proj2 K9), (proj2 K8), (proj2 K7), (proj2 K6), (proj2 K5), (proj2 K4) by lia; exact G2).
    assert (E2 : rd (final f r) 28 4 = Ok (le 4 0)) by (rewrite (proj2 K11), (proj2 K10), (proj2 K9), (proj2 K8), (proj2 K7), (proj2 K6), (proj2 K5) by lia; exact F4).
    unfold titled. rewrite (rd_split _ 4 24 4 ltac:(lia) ltac:(lia) : rd (final f r) 4 28 = _). rewrite E1. cbn [obind]. change (4 + 24) with 28. rewrite E2. reflexivity.
  - rewrite (proj2 K11), (proj2 K10), (proj2 K9), (proj2 K8), (proj2 K7), (proj2 K6) by lia. exact F5.
  - unfold rd_s32. rewrite (proj2 K11), (proj2 K10), (proj2 K9), (proj2 K8), (proj2 K7), (proj2 K6), (proj2 K5), (proj2 K4), (proj2 K2) by lia. apply zeros_s32. apply (zeros_part _ 0 44 4 92 G1); lia.
  - unfold rd_s32. rewrite (proj2 K11), (proj2 K10) by lia. exact G9.
  - unfold rd_s32. rewrite (proj2 K11) by lia. exact G10.
Qed.

Lemma names_kept k s m T P F m' t : life k s m T P F -> heads m m' -> t = TAGS \/ t = PARAMS -> no_names m t -> no_names m' t.
Proof.
  intros LI [TG _] TT (A & B & C & D). destruct (pool_short _ _ _ _ _ _ LI) as [ZL _]. unfold no_names, t_max_id, t_names, t_index, t_flags, rd_s32 in *. unfold TAGS, PARAMS in *.
  repeat split; rewrite (rd_within m m' 60 32) by (auto; lia); assumption.
Qed.
Lemma no_register fuel m a t : pool m a -> no_names m t -> forall l i, register_ids fuel m t i l = rret m.
Proof. intros PO (A & B & C & D). induction l as [|[n ty] l IH]; intros i; [reflexivity|]. cbn [register_ids]. rewrite (fresh_register m a t i n ty fuel PO B); [|eauto]. rewrite rbind_rret. apply IH. Qed.
Lemma no_table fuel m t ok m' : no_names m t -> t = TAGS \/ t = PARAMS -> makeTable fuel m t = rret (ok, m') -> kept m m' (t + 8) 4 /\ rd_s32 m' (t + 8) = Ok 0.
Proof.
  intros (A & B & C & D) TT E. unfold makeTable in E. apply rbind_inv in E as (m1 & W & E). apply some_inj in W. apply wr32_kept in W as (_ & _ & K & G); [|unfold int32; lia].
  assert (M1 : t_max_id m1 t = Ok (-1)) by (unfold t_max_id, rd_s32 in *; rewrite (proj2 K) by (unfold TAGS, PARAMS in *; lia); exact A). rewrite M1, rbind_ok in E. change (-1 <? 0) with true in E. cbv iota in E. injection E as _ <-. auto.
Qed.
Lemma no_table_names m m' t u : kept m m' (t + 8) 4 -> rd_s32 m' (t + 8) = Ok 0 -> t = TAGS \/ t = PARAMS -> u = TAGS \/ u = PARAMS -> no_names m u -> no_names m' u.
Proof.
  intros [_ K] G T1 T2 (A & B & C & D). unfold no_names, t_max_id, t_names, t_index, t_flags, rd_s32 in *. unfold TAGS, PARAMS in *.
  destruct T1 as [-> | ->], T2 as [-> | ->]; repeat split; try (rewrite K by lia; assumption); assumption.
Qed.
Lemma registered_none fuel disk k s m m' : life k s m [] [] [] -> canon m -> p_root m = Ok 0 -> no_names m TAGS -> no_names m PARAMS -> allRegistered fuel disk false 0 m = rret (true, m') ->
  life k s m' [] [] [] /\ canon m' /\ p_root m' = Ok 0 /\ no_names m' TAGS /\ no_names m' PARAMS.
Proof.
  intros LI C R N1 N2 E. split; [eapply life_index; eassumption|]. unfold allRegistered in E. apply rbind_inv in E as ((ok & m1) & W & E). apply some_inj in W. destruct ok; cbn [negb] in E; [|discriminate].
  pose proof (space_heads _ _ _ _ _ _ _ _ _ _ LI W) as H1. assert (exists a, pool m a) as (a & PO). { pose proof (life_whole _ _ _ _ _ _ LI) as (B & a & I & _). destruct (names_pool _ _ _ _ _ _ _ I) as [PO _]. eauto. }
  assert (C1 : canon m1) by (eapply canon_space; eassumption). assert (R1 : p_root m1 = Ok 0) by (rewrite (root_kept m m1 H1); exact R).
  assert (N1' : no_names m1 TAGS) by (eapply names_kept; eauto). assert (N2' : no_names m1 PARAMS) by (eapply names_kept; eauto).
  destruct N1' as (A1 & B1 & X1 & D1). destruct N2' as (A2 & B2 & X2 & D2). rewrite X1, rbind_ok, X2, rbind_ok in E. cbn [andb negb Z.eqb] in E.
  apply rbind_inv in E as ((ok & m2) & E1 & E). destruct ok; cbn [negb] in E; [|discriminate]. apply no_table in E1 as (K & G); [|repeat split; assumption|auto].
  assert (S1 : no_names m2 TAGS) by (eapply (no_table_names m1 m2 TAGS); auto; repeat split; assumption). assert (S2 : no_names m2 PARAMS) by (eapply (no_table_names m1 m2 TAGS); auto; repeat split; assumption).
  assert (C2 : canon m2) by (destruct K; eapply canon_same; [| |exact C1]; [assumption|unfold TAGS in *; match goal with H : forall q k : Z, _ |- _ => apply H; lia end]).
  assert (R2 : p_root m2 = Ok 0) by (unfold p_root, rd_s32 in *; destruct K as [_ K]; rewrite K by (unfold TAGS; lia); exact R1).
  pose proof S2 as (_ & _ & X3 & _). rewrite X3, rbind_ok in E. change (0 =? 0) with true in E. cbv iota in E. apply no_table in E as (K' & G'); [|exact S2|auto].
  split; [destruct K'; eapply canon_same; [| |exact C2]; [assumption|unfold PARAMS in *; match goal with H : forall q k : Z, _ |- _ => apply H; lia end]|].
  split; [unfold p_root, rd_s32 in *; destruct K' as [_ K']; rewrite K' by (unfold PARAMS; lia); exact R2|]. split; eapply (no_table_names m2 m' PARAMS); auto.
Qed.

(** ** The conversion *)
Lemma max_size_ok n : 0 <= n < 134213632 -> INITIAL <= max_size n /\ int32 (max_size n).
Proof. intros H. unfold max_size, INITIAL. assert (n / 4096 + 1 <= 32767) by (pose proof (Z.div_lt_upper_bound n 4096 32767); lia). pose proof (Z.div_pos n 4096). rewrite s32_small; unfold int32; lia. Qed.
Lemma opened fuel disk n f m : roomy n f -> Initialize fuel disk true (max_size n) f = rret (true, m) ->
  exists k s, life k s m [] [] [] /\ pool m HEADER /\ canon m /\ p_root m = Ok 0 /\ no_names m TAGS /\ no_names m PARAMS.
Proof.
  intros RO E. assert (exists max tr, INITIAL <= max /\ int32 max /\ InitEmptyFile disk max f = Ok (true, tr) /\ m = final f tr) as (max & tr & B & IM & I & ->).
  { unfold Initialize in E. destruct RO as [[ZL NB]|(ZL & mm & MM & MB)].
    - replace (zlen f <? HEADER) with true in E by lia. apply rbind_inv in E as ((ok & tr) & I & E). apply some_inj in I. injection E as -> <-. destruct (max_size_ok n NB). eauto 10.
    - replace (zlen f <? HEADER) with false in E by lia. rewrite MM, rbind_ok in E. destruct (mm <? zlen f); [discriminate|]. apply rbind_inv in E as ((ok & tr) & I & E). apply some_inj in I. injection E as -> <-. exists mm, tr. split; [exact MB|]. split; [eapply rd_s32_range; exact MM|]. auto. }
  destruct disk; [|discriminate]. destruct (create_ok max f tr B IM I) as (PO & TI & C & R & N1 & N2). exists (fun _ => true), (fun _ => 0). split; [|auto 10]. eapply life_start; [exact PO|exact TI|]. intros t [-> | ->]; assumption.
Qed.
Lemma tree_members Q k s m T P F : forall t x, tree_q Q k s m T P F x t -> tree_q (fun e => In e (members F)) k s m T P F x t.
Proof.
  fix IH 1. intros t x H. destruct t as [n ty v attrs kids]. inversion H as [x' A L n' ty' v' attrs' kids' QX IX KX SX OA OL FA FL]; subst. apply (tree_q_here _ _ _ _ _ _ _ x A L); auto.
  clear - IH FL. revert kids L FL. fix IHl 1. intros kids L FL. destruct kids as [|t kids]; inversion FL; subst; [constructor|]. constructor; [apply IH; assumption|apply IHl; assumption].
Qed.
Theorem make_ok fl fuel disk n root f m : numbered root -> roomy n f -> Make_xbw fl fuel disk n root f = rret (true, m) ->
  exists T P k s F x t, lists_all T (tag_uses root) /\ lists_all P (attr_uses root) /\ life k s m [] [] F /\ p_root m = Ok x /\ tree_at k s m T P F x t /\ mirrors fl t root /\ no_names m TAGS /\ no_names m PARAMS.
Proof.
  intros (D1 & D2 & E1 & E2) RO E. unfold Make_xbw in E. apply rbind_inv in E as (cr & MS & E). unfold MakeSymbolTable in MS. apply rbind_inv in MS as (T & RT & MS). apply rbind_inv in MS as (P & RP & MS). injection MS as <-.
  destruct (find_all T _ RT D1 E1) as [LT FT]. destruct (find_all P _ RP D2 E2) as [LP FP]. cbn [cr_tags cr_params] in E.
  apply rbind_inv in E as ((ok & m1) & IN & E). destruct ok; cbn [negb] in E; [|discriminate]. destruct (opened _ _ _ _ _ RO IN) as (k0 & s0 & L0 & PO & C0 & R0 & N1 & N2).
  rewrite (no_register fuel m1 HEADER TAGS PO N1), rbind_rret, (no_register fuel m1 HEADER PARAMS PO N2), rbind_rret in E.
  apply rbind_inv in E as ((ok & m2) & AR & E). destruct ok; cbn [negb] in E; [|discriminate]. destruct (registered_none _ _ _ _ _ _ L0 C0 R0 N1 N2 AR) as (L1 & C1 & R1 & N1' & N2').
  apply rbind_inv in E as ((r & m3) & MN & E). apply some_inj in MN.
  destruct (make_node_ok fl disk T P [] [] _ _ FT FP root (named_all _ _ root (fun n H => H) (fun n H => H)) _ _ _ _ _ _ L1 C1 MN) as (x & -> & k & s & F & t & L2 & C2 & (_ & HD & _) & _ & IX & KX & TQ & MI).
  apply rbind_inv in E as (m4 & SR & E). apply some_inj in SR. injection E as <-.
  assert (IXM : In x (members F)) by (inversion TQ; assumption).
  destruct (root_step (fun _ => true) [] [] _ _ _ _ _ _ L2 IXM ltac:(rewrite (root_kept _ _ HD); exact R1) SR) as (L3 & (G1 & _) & R3 & _).
  exists T, P, k, s, F, x, t. split; [exact LT|]. split; [exact LP|]. split; [exact L3|]. split; [exact R3|]. split; [|split; [exact MI|]].
  - apply (tree_q_at (fun _ => True)). apply (tree_grown (fun e => In e (members F)) (fun _ => True) 0 k s m3 T P F k s m4 F); [split; [exact G1|auto]| |eapply tree_members; exact TQ].
    intros q J. split; [|exact Logic.I]. pose proof (member_pos (fun _ => true) [] [] _ _ _ _ _ L2 J). lia.
  - assert (H4 : forall t, t = TAGS \/ t = PARAMS -> no_names m3 t -> no_names m4 t).
    { intros u TU (A & B & C & D). unfold setRoot in SR. rewrite (root_kept _ _ HD), R1 in SR. cbn [obind Z.eqb negb] in SR. 
      repeat (apply obind_inv in SR as (? & _ & SR)). destruct (_ && _) in SR; [|injection SR as <-; repeat split; assumption]. apply wr_kept in SR as (_ & _ & [_ K] & _). rewrite zlen_le4 in K.
      unfold no_names, t_max_id, t_names, t_index, t_flags, rd_s32 in *. unfold TAGS, PARAMS in *. repeat split; rewrite K by lia; assumption. }
    split; [apply H4; [auto|exact (names_kept _ _ _ _ _ _ _ TAGS L1 HD (or_introl eq_refl) N1')]|apply H4; [auto|exact (names_kept _ _ _ _ _ _ _ PARAMS L1 HD (or_intror eq_refl) N2')]].
Qed.
Theorem make_nameless fl fuel disk n root f m : numbered root -> roomy n f -> Make_xbw fl fuel disk n root f = rret (true, m) ->
  forall id, 0 <= id -> (forall fuel', getName fuel' m TAGS id = rret None /\ getName fuel' m PARAMS id = rret None) /\ getTagName m id = Ok None /\ getAttrName m id = Ok None.
Proof.
  intros NU RO E id I0. destruct (make_ok _ _ _ _ _ _ _ NU RO E) as (T & P & k & s & F & x & t & _ & _ & _ & _ & _ & _ & (A & B & C & D) & (A' & B' & C' & D')).
  split; [intros fuel'; unfold getName, entry_at; rewrite A, A', !rbind_ok; replace ((id <? 0) || (-1 <? id)) with true by lia; rewrite !rbind_rret; auto|].
  unfold getTagName, getAttrName, BwSource.name_of. rewrite C, C'. cbn [obind]. change (0 =? 0) with true. cbv iota. auto.
Qed.
Theorem make_mirror fl fuel disk n root f m : numbered root -> roomy n f -> Make_xbw fl fuel disk n root f = rret (true, m) ->
  exists T P k s F x t, lists_all T (tag_uses root) /\ lists_all P (attr_uses root) /\ life k s m [] [] F /\ p_root m = Ok x /\ tree_at k s m T P F x t /\ mirrors fl t root.
Proof. intros NU RO E. destruct (make_ok _ _ _ _ _ _ _ NU RO E) as (T & P & k & s & F & x & t & H1 & H2 & H3 & H4 & H5 & H6 & _). exists T, P, k, s, F, x, t. auto 10. Qed.
