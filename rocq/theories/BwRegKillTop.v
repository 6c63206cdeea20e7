(** Pools whose program is killed while it registers a name. *)
From Verif Require Import Base BaseFacts Types ListFacts Sort Xb XbSpec XbFacts XbWrite WriteProofs Bw BwFacts BwSpec BwHist BwAlloc BwSym BwFile BwReg BwFileSpec BwFileProofs BwNamesSpec BwNamesFacts BwNamesInv BwNamesReg BwNamesOps BwNamesIndex BwNamesProofs BwNamesTop BwLifeSpec BwLife BwTitle BwOpenProofs BwRegSteps BwRegKill JsonSource.

Lemma not_placed s L : ~ In s (map fst L) -> place s L = None.
Proof. intro N. destruct (place s L) as [k|] eqn:E; [|reflexivity]. destruct (place_nth _ _ _ E) as (ty & NI). exfalso. apply N. apply nth_error_In in NI. apply (in_map fst) in NI. exact NI. Qed.
Lemma held_opens m0 t u L K B mi a : titled m0 -> two t u -> holds m0 t u L K B mi a -> opens_as mi mi /\ known mi t L /\ known mi u K.
Proof.
  intros TI TW (I & T & _). assert (TI' : titled mi) by (unfold titled in *; congruence). destruct (inv_known _ _ _ _ _ _ _ I) as [K1 _]. pose proof (inv_swap _ _ _ _ _ _ _ I) as I2. destruct (inv_known _ _ _ _ _ _ _ I2) as [K2 _].
  split; [|auto]. destruct TW as [[-> ->]|[-> ->]]; eapply opened; eauto.
Qed.

Section Top.
Context (k : Z -> bool) (s : Z -> Z) (m : list Z) (T P : names) (F : forest) (LI : life k s m T P F).
(** The dictionary of the table and the other one *)
Definition of_table t := if t =? TAGS then T else P.
Definition the_other t := if t =? TAGS then PARAMS else TAGS.
Lemma life_holds t : t = TAGS \/ t = PARAMS -> exists B a, two t (the_other t) /\ holds m t (the_other t) (of_table t) (of_table (the_other t)) B m a /\ forall e, In e (members F) -> In (e, s e) B.
Proof.
  intro TT. destruct (life_whole _ _ _ _ _ _ LI) as (B & a & I & _ & M & _). exists B, a. unfold of_table, the_other. destruct TT as [->| ->]; cbn [Z.eqb]; (split; [unfold two; auto|split; [|exact M]]); (split; [|auto]); [exact I|apply inv_swap; exact I].
Qed.
Lemma killed_before t fuel name ty id tr : t = TAGS \/ t = PARAMS -> proper name -> ~ In name (map fst (of_table t)) -> register_steps fuel m t name ty = rret (id, tr) ->
  forall mi, In mi (m :: tr) -> t_max_id mi t = t_max_id m t -> opens_as mi mi /\ known mi TAGS T /\ known mi PARAMS P /\ forall e, In e (members F) -> rd mi e (s e) = rd m e (s e).
Proof.
  intros TT PS NI E mi J MX. destruct (life_holds t TT) as (B & a & TW & H & M). destruct (holds_before _ _ _ _ _ _ TW _ _ _ _ _ _ _ H PS (not_placed _ _ NI) E mi J MX) as (a' & H'). destruct (held_opens _ _ _ _ _ _ _ _ (life_titled _ _ _ _ _ _ LI) TW H') as (O & K1 & K2). split; [exact O|].
  assert (KB : known mi TAGS T /\ known mi PARAMS P) by (unfold of_table, the_other in *; destruct TT as [->| ->]; cbn in *; auto). split; [apply KB|]. split; [apply KB|]. intros e IE. apply H'. apply M, IE.
Qed.
Lemma killed_torn t fuel p r ty id tr : t = TAGS \/ t = PARAMS -> proper (p ++ r) -> p <> [] -> ~ In (p ++ r) (map fst (of_table t)) -> ~ In p (map fst (of_table t)) -> zlen (of_table t) < 128 -> 0 <= ty < 256 ->
  register_steps fuel m t (p ++ r) ty = rret (id, tr) -> id <> -1 -> exists mi, In mi tr /\ opens_as mi mi /\ known mi t (of_table t ++ [(p, ty)]).
Proof.
  intros TT PS PN N1 N2 LT TY E ID. destruct (life_holds t TT) as (B & a & TW & H & M). pose proof H as [I _]. destruct (torn_steps _ _ _ _ _ _ _ _ _ _ _ _ _ TW I PS PN (not_placed _ _ N1) (not_placed _ _ N2) LT TY E ID) as (mi & a' & J & H').
  exists mi. split; [exact J|]. destruct (held_opens _ _ _ _ _ _ _ _ (life_titled _ _ _ _ _ _ LI) TW H') as (O & K1 & K2). auto.
Qed.
Lemma killed_begun t fuel name ty id tr : t = TAGS \/ t = PARAMS -> of_table t = [] -> proper name -> 0 <= ty < 256 -> register_steps fuel m t name ty = rret (id, tr) -> id <> -1 ->
  exists mi, In mi tr /\ opens_as mi mi /\ forall fuel' name' ty', (0 < fuel')%nat -> proper name' -> register fuel' mi t name' ty' = rret (-1, mi).
Proof.
  intros TT TN PS TY E ID. destruct (life_holds t TT) as (B & a & TW & H & M). pose proof H as [I _]. rewrite TN in I. destruct (begun _ _ _ _ _ _ _ _ _ _ _ TW I PS E ID TY) as (mi & J & (a' & H') & ST). exists mi. split; [exact J|]. split; [|exact ST]. apply (held_opens _ _ _ _ _ _ _ _ (life_titled _ _ _ _ _ _ LI) TW H').
Qed.
Lemma killed_again t fuel name ty id tr : t = TAGS \/ t = PARAMS -> of_table t <> [] -> proper name -> ~ In name (map fst (of_table t)) -> register_steps fuel m t name ty = rret (id, tr) ->
  forall mi a fuel' ty', In mi (m :: tr) -> t_max_id mi t = t_max_id m t -> p_allocator mi = Ok a -> a + names_size (of_table t) + names_size [(name, ty')] <= zlen mi -> (2 * List.length (of_table t) < fuel')%nat ->
  XBT_NULL <= ty' < XBT_LAST -> (t = PARAMS -> T <> []) -> zlen (of_table t) < 128 -> exists m', register fuel' mi t name ty' = rret (zlen (of_table t), m') /\ known m' t (of_table t ++ [(name, ty')]).
Proof.
  intros TT NE PS NI E mi a fuel' ty' J MX AL RM FU TY TP LT. destruct (life_holds t TT) as (B & a0 & TW & H & M). pose proof (not_placed _ _ NI) as PL. destruct (holds_before _ _ _ _ _ _ TW _ _ _ _ _ _ _ H PS PL E mi J MX) as (a' & I & _). pose proof I as (n & x & n' & x' & PO & T1 & T2 & SP). pose proof PO as (A & _). rewrite AL in A. injection A as <-. rewrite one_size, (size_names _ 0) in RM.
  destruct (register_some mi a t (the_other t) n x (of_table t) _ name ty' fuel' PO TW T1 SP PS FU) as (m' & R).
  - intros ->. split; [exact TY|]. exists n'. unfold of_table, the_other in *. cbn [Z.eqb TAGS PARAMS] in *. split; [apply T2|]. pose proof I as I2. apply inv_swap in I2. apply inv_swap in I2. apply spread_drop in SP. destruct (table_bound _ _ _ _ _ _ _ PO T2 SP (TP eq_refl)). unfold HEADER in *. lia.
  - right. right. left. auto.
  - exists m'. unfold id_of in R. rewrite PL in R. split; [exact R|]. assert (TZ : 0 <= ty' < 256) by (revert TY; unfold XBT_NULL; let l := eval vm_compute in XBT_LAST in change XBT_LAST with l; lia). destruct (inv_register _ _ _ _ _ _ _ _ _ _ _ _ TW I PS TZ (or_intror LT) R) as (_ & _ & a2 & _ & I2). pose proof (zlen_nonneg (of_table t)). replace (zlen (of_table t) =? -1) with false in I2 by lia. rewrite noted_new in I2 by exact PL. apply (inv_known _ _ _ _ _ _ _ I2).
Qed.
End Top.

(** The same for a table and its names *)
Section Table.
Context (k : Z -> bool) (s : Z -> Z) (m : list Z) (T P : names) (F : forest) (LI : life k s m T P F) (t : Z) (L : names) (TL : t = TAGS /\ L = T \/ t = PARAMS /\ L = P).
Lemma table_is : (t = TAGS \/ t = PARAMS) /\ of_table T P t = L.
Proof. unfold of_table. destruct TL as [[-> ->]|[-> ->]]; cbn; auto. Qed.
Lemma register_before fuel name ty id tr : proper name -> ~ In name (map fst L) -> register_steps fuel m t name ty = rret (id, tr) ->
  forall mi, In mi (m :: tr) -> t_max_id mi t = t_max_id m t -> opens_as mi mi /\ known mi TAGS T /\ known mi PARAMS P /\ forall e, In e (members F) -> rd mi e (s e) = rd m e (s e).
Proof. destruct table_is as [TT <-]. intros. eapply (killed_before k s m T P F LI t); eauto. Qed.
Lemma register_end fuel name ty id tr : proper name -> ~ In name (map fst L) -> zlen L < 128 -> 0 <= ty < 256 -> register_steps fuel m t name ty = rret (id, tr) -> id <> -1 ->
  opens_as (final m tr) (final m tr) /\ id = zlen L /\ known (final m tr) t (L ++ [(name, ty)]) /\ forall e, In e (members F) -> rd (final m tr) e (s e) = rd m e (s e).
Proof.
  destruct table_is as [TT <-]. intros PS NI LT TY E ID. pose proof (not_placed _ _ NI) as PL. destruct (life_holds k s m T P F LI t TT) as (B & a & TW & H & M). pose proof H as [I _]. pose proof (register_same _ _ _ _ _ _ _ E) as R. destruct (inv_register _ _ _ _ _ _ _ _ _ _ _ _ TW I PS TY (or_intror LT) R) as (IDS & BL & a' & _ & I').
  replace (id =? -1) with false in I' by lia. rewrite noted_new in I' by exact PL. split; [|split; [|split]].
  - destruct TT as [->| ->]; [eapply reopens|eapply reopens]; [eapply life_tag with (fuel := fuel) (name := name) (type := ty) (id := id) (m' := final m tr); eauto|eapply life_param with (fuel := fuel) (name := name) (type := ty) (id := id) (m' := final m tr); eauto].
  - unfold id_of in IDS. rewrite PL in IDS. destruct IDS; [contradiction|assumption].
  - apply (inv_known _ _ _ _ _ _ _ I').
  - intros e IE. apply BL, M, IE.
Qed.
Lemma register_torn fuel p r ty id tr : proper (p ++ r) -> p <> [] -> r <> [] -> ~ In (p ++ r) (map fst L) -> ~ In p (map fst L) -> zlen L < 128 -> 0 <= ty < 256 ->
  register_steps fuel m t (p ++ r) ty = rret (id, tr) -> id <> -1 -> exists mi, In mi tr /\ opens_as mi mi /\ known mi t (L ++ [(p, ty)]) /\ ~ In (p ++ r) (map fst (L ++ [(p, ty)])).
Proof.
  destruct table_is as [TT <-]. intros PS PN RN N1 N2 LT TY E ID. destruct (killed_torn k s m T P F LI t fuel p r ty id tr TT PS PN N1 N2 LT TY E ID) as (mi & J & O & KN). exists mi. split; [exact J|]. split; [exact O|]. split; [exact KN|].
  rewrite map_app, in_app_iff. intros [I|[I|[]]]; [exact (N1 I)|]. cbn [fst] in I. apply RN. apply (app_inv_head p). rewrite app_nil_r. auto.
Qed.
Lemma register_again fuel name ty id tr : L <> [] -> proper name -> ~ In name (map fst L) -> register_steps fuel m t name ty = rret (id, tr) ->
  forall mi a fuel' ty', In mi (m :: tr) -> t_max_id mi t = t_max_id m t -> p_allocator mi = Ok a -> a + names_size L + names_size [(name, ty')] <= zlen mi -> (2 * List.length L < fuel')%nat ->
  XBT_NULL <= ty' < XBT_LAST -> (t = PARAMS -> T <> []) -> zlen L < 128 -> exists m', register fuel' mi t name ty' = rret (zlen L, m') /\ known m' t (L ++ [(name, ty')]).
Proof. destruct table_is as [TT <-]. intros. eapply (killed_again k s m T P F LI t); eauto. Qed.
Lemma register_begun fuel name ty id tr : L = [] -> proper name -> 0 <= ty < 256 -> register_steps fuel m t name ty = rret (id, tr) -> id <> -1 ->
  exists mi, In mi tr /\ opens_as mi mi /\ forall fuel' name' ty', (0 < fuel')%nat -> proper name' -> register fuel' mi t name' ty' = rret (-1, mi).
Proof. destruct table_is as [TT <-]. intros. eapply (killed_begun k s m T P F LI t); eauto. Qed.
End Table.
