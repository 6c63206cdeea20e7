(** Importing the names of a document into a pool. *)
From Verif Require Import Base BaseFacts Types ListFacts Sort Xb XbSpec XbFacts XbWrite WriteProofs Bw BwFacts BwSpec BwHist BwAlloc BwSym BwReg BwFileSpec BwFileProofs BwNamesSpec BwNamesFacts BwNamesInv BwNamesReg BwNamesOps BwNamesIndex BwNamesProofs BwNamesTop BwImport BwImportSpec BwLifeSpec BwImportProofs BwLife BwCopySpec JsonSource.

(** ** The loop *)
Definition from d sy (i : Z) (N : names) : Prop := forall j s ty, nth_error N j = Some (s, ty) -> getSymbol d sy (i + Z.of_nat j) = Ok s /\ Xb.getType d sy (i + Z.of_nat j) = Ok ty.
Lemma from_cons d sy i s ty N : from d sy i ((s, ty) :: N) -> getSymbol d sy i = Ok s /\ Xb.getType d sy i = Ok ty /\ from d sy (i + 1) N.
Proof.
  intro FR. destruct (FR O s ty eq_refl) as [G1 G2]. replace (i + Z.of_nat 0) with i in * by lia. split; [exact G1|]. split; [exact G2|]. intros j s' ty' NI. specialize (FR (S j) s' ty' NI). replace (i + 1 + Z.of_nat j) with (i + Z.of_nat (S j)) by lia. exact FR.
Qed.
Lemma all_entering fuel d sy t : forall N m L i m', from d sy i N -> register_all (List.length N) fuel d sy m t i = rret m' -> exists L', entering fuel t m L N m' L'.
Proof.
  induction N as [|[s ty] N IH]; intros m L i m' FR E.
  - cbn in E. apply rret_inj in E. subst m'. exists L. constructor.
  - apply from_cons in FR as (G1 & G2 & FR). cbn [List.length register_all] in E. rewrite G1, rbind_ok, G2, rbind_ok in E. apply rbind_inv in E as ([id m1] & RE & E). destruct (IH m1 (if id =? -1 then L else noted s ty L) (i + 1) m' FR E) as (L' & EN). exists L'. econstructor; eassumption.
Qed.
Lemma entering_all fuel d sy t m L N m' L' : entering fuel t m L N m' L' -> forall i, from d sy i N -> register_all (List.length N) fuel d sy m t i = rret m'.
Proof.
  induction 1 as [m L|m L s ty N id m1 m' L' E EN IH]; intros i FR; [reflexivity|]. apply from_cons in FR as (G1 & G2 & FR). cbn [List.length register_all]. rewrite G1, rbind_ok, G2, rbind_ok, E, rbind_rret. apply IH, FR.
Qed.
Lemma entering_entered fuel t m L N m' L' : entering fuel t m L N m' L' -> entered N L L'.
Proof. induction 1 as [m L|m L s ty N id m1 m' L' E EN IH]; [constructor|]. destruct (id =? -1); [apply entered_not, IH|apply entered_one, IH]. Qed.
Lemma lists_from d sy N : lists d sy N -> Z.to_nat (sy_count sy) = List.length N /\ from d sy 0 N.
Proof. intros [C LS]. split; [rewrite C; unfold zlen; lia|]. intros j s ty NI. exact (LS j s ty NI). Qed.
Lemma import_entering fuel d sy N m t m' L : lists d sy N -> import fuel (Some (d, sy)) m t = rret m' -> exists m1 m2 L', set_fast m t = Ok m1 /\ entering fuel t m1 L N m2 L' /\ set_fast m2 t = Ok m'.
Proof.
  intros LS E. apply lists_from in LS as [C FR]. unfold import in E. apply rbind_inv in E as (m1 & S1 & E). apply some_inj in S1. rewrite C in E. apply rbind_inv in E as (m2 & RA & E). apply some_inj in E. destruct (all_entering fuel d sy t N m1 L 0 m2 FR RA) as (L' & EN). exists m1, m2, L'. auto.
Qed.

(** ** Any pool *)
Lemma import_tags k s m T P F fuel d R N m' : life k s m T P F -> lists d (rd_tags R) N -> listable N -> zlen T + zlen N <= 128 -> importTags fuel (Some (d, R)) m = rret m' ->
  exists T', entered N T T' /\ (forall e, In e (members F) -> rd m' e (s e) = rd m e (s e)) /\ (T' <> [] -> life k s m' T' P F).
Proof.
  intros LI LS LN ZL E. unfold importTags in E. cbn [option_map] in E. destruct (import_entering _ _ _ _ _ _ _ T LS E) as (m1 & m2 & T' & S1 & EN & S2). exists T'. split; [eapply entering_entered; eauto|]. split.
  - pose proof (life_whole _ _ _ _ _ _ LI) as (B & a & I & EL & IB & _). destruct (inv_import fuel _ _ m T P B a N m1 m2 T' m' tags_first I LN ZL S1 EN S2) as (KK & _). intros e J. apply KK, IB, J.
  - intro NE. apply (life_import_tags k s m T P F fuel N m1 m2 T' m'); auto.
Qed.
Lemma import_params k s m T P F fuel d R N m' : life k s m T P F -> lists d (rd_params R) N -> listable N -> zlen P + zlen N <= 128 -> importParams fuel (Some (d, R)) m = rret m' ->
  exists P', entered N P P' /\ (forall e, In e (members F) -> rd m' e (s e) = rd m e (s e)) /\ (P' <> [] -> life k s m' T P' F).
Proof.
  intros LI LS LN ZL E. unfold importParams in E. cbn [option_map] in E. destruct (import_entering _ _ _ _ _ _ _ P LS E) as (m1 & m2 & P' & S1 & EN & S2). exists P'. split; [eapply entering_entered; eauto|]. split.
  - pose proof (life_whole _ _ _ _ _ _ LI) as (B & a & I & EL & IB & _). apply inv_swap in I. destruct (inv_import fuel _ _ m P T B a N m1 m2 P' m' (two_swap _ _ tags_first) I LN ZL S1 EN S2) as (KK & _). intros e J. apply KK, IB, J.
  - intro NE. apply (life_import_params k s m T P F fuel N m1 m2 P' m'); auto.
Qed.

(** ** A table without names *)
Lemma entering_some fuel t u : two t u -> forall N m a n L R, pool m a -> tablef 1 m t n 0 L -> spread (regions n 0 L ++ R) a -> n = 0 \/ n + zlen (stored 0 L) = a -> listable N -> (forall s, In s (map fst N) -> place s L = None) -> zlen L + zlen N <= 128 ->
  (List.length L + List.length N <= fuel)%nat -> a + names_size N <= zlen m -> (t = PARAMS -> Forall (fun e => XBT_NULL <= snd e < XBT_LAST) N /\ exists k, t_names m TAGS = Ok k /\ k <> 0) ->
  exists m', entering fuel t m L N m' (L ++ N) /\ pool m' (a + names_size N) /\ zlen m <= zlen m' /\ rd m' u 16 = rd m u 16.
Proof.
  intro TW. induction N as [|[s ty] N IH]; intros m a n L R PO TB SP TOP [ND FA] NW LN FU RM TP.
  { exists m. rewrite app_nil_r. split; [constructor|]. cbn. replace (a + 0) with a by lia. split; [exact PO|]. split; [lia|reflexivity]. }
  cbn [map fst List.length] in *. rewrite zlen_cons in LN. pose proof (zlen_nonneg N). inversion ND as [|? ? NI ND2]; subst. inversion FA as [|? ? [PS TY] FA2]; subst. cbn [fst snd] in *. assert (SZ : names_size ((s, ty) :: N) = esize s + names_size N) by (rewrite <- (one_size s ty); unfold names_size; cbn [fold_right fst]; lia). rewrite SZ in *.
  assert (N0 : 0 <= names_size N) by (rewrite (size_names N 0); apply zlen_nonneg). pose proof (NW s (or_introl eq_refl)) as PL.
  destruct (fast_some m a t u n 0 L R s ty fuel PO TW TB SP) as (m1 & E); auto; [lia|intros Q; destruct (TP Q) as [FT TK]; inversion FT; subst; auto|lia|].
  pose proof (zlen_nonneg L). destruct (fast_ok m a t u n 0 L R s ty fuel _ m1 PO TW TB SP PS TY PL ltac:(lia) E) as (_ & (LE & _ & RU & _) & n' & x' & a' & AA & PO' & D & TOP'). replace (zlen L =? -1) with false in * by lia. cbv zeta in D, TOP'. destruct D as [TB' SP']. destruct (TOP' ltac:(lia)) as (-> & NA & AE). specialize (AE eq_refl TOP). rewrite AE in NA, PO', SP'. rewrite noted_new in * by exact PL.
  destruct (IH m1 (a + esize s) n' (L ++ [(s, ty)]) R PO' TB' SP' (or_intror NA)) as (m' & EN & PO2 & LE2 & RU2).
  - split; assumption.
  - intros s' J. rewrite <- (noted_new s ty L PL). apply place_noted; [apply NW; right; exact J|]. intros ->. exact (NI J).
  - rewrite zlen_app. change (zlen [(s, ty)]) with 1. lia.
  - rewrite app_length. cbn [List.length]. lia.
  - lia.
  - intro Q. destruct (TP Q) as [FT (kk & TK & K0)]. inversion FT; subst. split; [assumption|]. exists kk. split; [|exact K0]. assert (u = TAGS) as -> by (unfold two, TAGS, PARAMS in *; lia). unfold t_names, rd_s32 in *. pose proof PO as (_ & _ & _ & _ & BB & _). unfold HEADER, TAGS in *. rewrite (rd_sub m m1 60 16) by (auto; lia). exact TK.
  - exists m'. split; [|split; [replace (a + (esize s + names_size N)) with (a + esize s + names_size N) by lia; exact PO2|split; [lia|congruence]]].
    apply (entering_one fuel t m L s ty N (zlen L) m1); [exact E|]. replace (zlen L =? -1) with false by lia. rewrite noted_new by exact PL. rewrite <- app_assoc in EN. exact EN.
Qed.
Lemma set_fast_some m a t n x L : pool m a -> istab t -> tablef 1 m t n x L \/ table m t n x L -> exists m', set_fast m t = Ok m'.
Proof.
  intros PO IT TB. pose proof PO as (_ & _ & _ & _ & BB & _). assert (Q : exists f, t_max_id m t = Ok (zlen L - 1) /\ t_flags m t = Ok f) by (destruct TB as [(MX & _ & _ & F & _)|(MX & _ & _ & F & _)]; eauto). destruct Q as (f & MX & F). unfold set_fast. rewrite MX, F. cbn [obind].
  unfold istab, TAGS, PARAMS, HEADER in *. destruct (wr_some m (t + 12) (le 4 (if zlen L - 1 =? -1 then Z.lor f FAST_REG else Z.land f (4294967295 - FAST_REG)))) as (m' & W); [lia|rewrite le_zlen; lia|]. eauto.
Qed.
Lemma import_some t u m K B a d sy N fuel : two t u -> BwNamesInv.inv m t u [] K B a -> t_names m t = Ok 0 -> lists d sy N -> listable N -> zlen N <= 128 -> (List.length N <= fuel)%nat -> a + names_size N <= zlen m ->
  (t = PARAMS -> Forall (fun e => XBT_NULL <= snd e < XBT_LAST) N /\ exists k, t_names m TAGS = Ok k /\ k <> 0) ->
  exists m1 m2 m', set_fast m t = Ok m1 /\ entering fuel t m1 [] N m2 N /\ set_fast m2 t = Ok m' /\ import fuel (Some (d, sy)) m t = rret m' /\ p_allocator m' = Ok (a + names_size N) /\ zlen m <= zlen m' /\ rd m' u 16 = rd m u 16.
Proof.
  intros TW I TN LS LN ZN FU RM TP. pose proof I as (n & x & n' & x' & PO & TB & TU & SP). pose proof (two_tab _ _ TW) as [IT IU]. destruct (set_fast_some m a t n x [] PO IT (or_intror TB)) as (m1 & S1).
  destruct (set_fast_ok 0 m t u [] K B a m1 TW (or_introl eq_refl) I S1) as (Z1 & _ & K1 & I1). destruct I1 as (n1 & x1 & n1' & x1' & PO1 & TB1 & TU1 & SP1). pose proof PO as (_ & _ & _ & _ & BB & _). unfold two, TAGS, PARAMS, HEADER in *.
  assert (n1 = 0). { destruct TB1 as (_ & N1 & _). unfold t_names, rd_s32 in *. rewrite K1 in N1 by lia. congruence. } subst n1. assert (x1 = 0). { destruct (Z.eq_dec x1 0) as [|D]; [assumption|]. destruct TB1 as (_ & _ & _ & _ & _ & _ & _ & _ & _ & IX). destruct (IX D) as [D2 _]. congruence. } subst x1.
  destruct (entering_some fuel t u TW N m1 a 0 [] _ PO1 TB1 SP1 (or_introl eq_refl) LN) as (m2 & EN & PO2 & LE & RU); [reflexivity|exact ZN|exact FU|lia| |].
  { intro Q. destruct (TP Q) as [FT (kk & TK & K0)]. split; [exact FT|]. exists kk. split; [|exact K0]. unfold t_names, rd_s32, PARAMS, TAGS in *. rewrite K1 by lia. exact TK. }
  cbn [app] in EN. assert (I1 : invf 1 m1 t u [] K B a) by (exists 0, 0, n1', x1'; auto). destruct (entering_ok 1 fuel t u K B TW m1 [] N m2 N EN a I1) as (_ & a2 & A2 & I2); [right; split; [reflexivity|intros s _; reflexivity]|exact LN|exact ZN|].
  assert (a2 = a + names_size N) as ->. { destruct I2 as (_ & _ & _ & _ & (A3 & _) & _). destruct PO2 as (A4 & _). congruence. }
  pose proof I2 as (n2 & x2 & n2' & x2' & _ & TB2 & _). destruct (set_fast_some m2 _ t n2 x2 N PO2 IT (or_introl TB2)) as (m3 & S3).
  destruct (set_fast_ok 1 m2 t u N K B _ m3 TW (or_intror eq_refl) I2 S3) as (Z3 & _ & K3 & I3). exists m1, m2, m3. split; [exact S1|]. split; [exact EN|]. split; [exact S3|]. destruct (lists_from _ _ _ LS) as [C FR].
  split. { unfold import. rewrite S1, rbind_ok, C, (entering_all _ _ _ _ _ _ _ _ _ EN 0 FR), rbind_rret, S3. reflexivity. }
  split; [destruct I3 as (_ & _ & _ & _ & (A3 & _) & _); exact A3|]. split; [lia|]. rewrite K3, RU, K1 by lia. reflexivity.
Qed.
Lemma lists_agrees d sy N : lists d sy N -> Forall (fun e => snd e <> XBT_UNKNOWN) N -> agrees d sy N.
Proof.
  intros [C LS] FA i nm R E. destruct (nth_error N (Z.to_nat i)) as [[s ty]|] eqn:NI; [|apply nth_error_None in NI; unfold zlen in *; lia]. destruct (LS _ _ _ NI) as [G _]. rewrite Z2Nat.id in G by lia. rewrite G in E. injection E as <-.
  exists ty. split; [|reflexivity]. apply nth_error_In in NI. exact (proj1 (Forall_forall _ _) FA _ NI).
Qed.
Lemma import_new_tags k s m P F d R N a fuel : life k s m [] P F -> t_names m TAGS = Ok 0 -> lists d (rd_tags R) N -> listable N -> N <> [] -> zlen N <= 128 -> (List.length N <= fuel)%nat -> p_allocator m = Ok a -> a + names_size N <= zlen m ->
  exists m', importTags fuel (Some (d, R)) m = rret m' /\ life k s m' N P F /\ p_allocator m' = Ok (a + names_size N) /\ zlen m <= zlen m' /\ t_names m' PARAMS = t_names m PARAMS.
Proof.
  intros LI TN LS LN NE ZN FU A RM. pose proof (life_whole _ _ _ _ _ _ LI) as (B & a0 & I & _). assert (a0 = a) as -> by (destruct (names_pool _ _ _ _ _ _ _ I) as [(A0 & _) _]; congruence).
  destruct (import_some TAGS PARAMS m P B a d (rd_tags R) N fuel tags_first I TN LS LN ZN FU RM) as (m1 & m2 & m' & S1 & EN & S2 & E & A' & LE & RU); [discriminate|]. exists m'. split; [exact E|]. split; [apply (life_import_tags k s m [] P F fuel N m1 m2 N m'); auto|]. split; [exact A'|]. split; [exact LE|].
  destruct (names_pool _ _ _ _ _ _ _ I) as [PO _]. pose proof PO as (_ & _ & _ & _ & BB & _). unfold t_names, rd_s32, PARAMS, HEADER in *. rewrite (rd_sub m m' 76 16) by (auto; lia). reflexivity.
Qed.
Lemma import_new_params k s m T F d R N a fuel : life k s m T [] F -> T <> [] -> t_names m PARAMS = Ok 0 -> lists d (rd_params R) N -> listable N -> Forall (fun e => XBT_NULL <= snd e < XBT_LAST) N -> N <> [] -> zlen N <= 128 -> (List.length N <= fuel)%nat -> p_allocator m = Ok a -> a + names_size N <= zlen m ->
  exists m', importParams fuel (Some (d, R)) m = rret m' /\ life k s m' T N F /\ p_allocator m' = Ok (a + names_size N) /\ zlen m <= zlen m'.
Proof.
  intros LI TE TN LS LN FT NE ZN FU A RM. pose proof (life_whole _ _ _ _ _ _ LI) as (B & a0 & I & _). assert (a0 = a) as -> by (destruct (names_pool _ _ _ _ _ _ _ I) as [(A0 & _) _]; congruence).
  assert (TK : exists kk, t_names m TAGS = Ok kk /\ kk <> 0). { destruct I as (n & x & n' & x' & PO & TB & _ & SP). destruct (table_bound _ _ _ _ _ _ _ PO TB SP TE). destruct TB as (_ & N1 & _). exists n. split; [exact N1|]. unfold HEADER in *. lia. }
  apply inv_swap in I. destruct (import_some PARAMS TAGS m T B a d (rd_params R) N fuel (two_swap _ _ tags_first) I TN LS LN ZN FU RM) as (m1 & m2 & m' & S1 & EN & S2 & E & A' & LE & RU); [auto|]. exists m'. split; [exact E|]. split; [apply (life_import_params k s m T [] F fuel N m1 m2 N m'); auto|]. split; [exact A'|exact LE].
Qed.
