(** Theorems about pools whose program is killed while it registers a name (C105, C106).

    [register_steps] lists the file after each store of a registration; a program that is killed leaves the file it had before the first
    or after any of them. *)
From Verif Require Import Base Types Sort Xb XbWrite Bw BwSpec BwHist BwSym BwFile BwReg BwFileSpec BwNamesSpec BwLifeSpec BwExamples BwNamesTop BwExamples BwFileExamples BwSetExamples BwCrashExamples BwWalkExamples BwRegSteps BwRegAgree BwRegKillTop.

(** The stores are those of the registration: they end in the file it leaves. *)
Theorem C105_stores : forall fuel m t name ty id m', register fuel m t name ty = rret (id, m') <-> exists tr, register_steps fuel m t name ty = rret (id, tr) /\ final m tr = m'.
Proof. exact register_split. Qed.
Print Assumptions C105_stores.
(** ** C105: a kill while a new name is registered leaves the dictionary as it was or with this name.  True until the number of names in the
    header of the table [t] changes, and at the end.  Missing: tables with more than 128 names. *)
Theorem C105_before_partial : forall k s m T P F, life k s m T P F -> forall t L, t = TAGS /\ L = T \/ t = PARAMS /\ L = P ->
  forall fuel name ty id tr, proper name -> ~ In name (map fst L) -> register_steps fuel m t name ty = rret (id, tr) ->
  forall mi, In mi (m :: tr) -> t_max_id mi t = t_max_id m t -> opens_as mi mi /\ known mi TAGS T /\ known mi PARAMS P /\ forall e, In e (members F) -> rd mi e (s e) = rd m e (s e).
Proof. exact register_before. Qed.
Print Assumptions C105_before_partial.
Theorem C105_end_partial : forall k s m T P F, life k s m T P F -> forall t L, t = TAGS /\ L = T \/ t = PARAMS /\ L = P ->
  forall fuel name ty id tr, proper name -> ~ In name (map fst L) -> zlen L < 128 -> 0 <= ty < 256 -> register_steps fuel m t name ty = rret (id, tr) -> id <> -1 ->
  opens_as (final m tr) (final m tr) /\ id = zlen L /\ known (final m tr) t (L ++ [(name, ty)]) /\ forall e, In e (members F) -> rd (final m tr) e (s e) = rd m e (s e).
Proof. exact register_end. Qed.
Print Assumptions C105_end_partial.
(** In between it is wrong: for every beginning [p] of the name there is a store after which a kill leaves [p] in the dictionary for
    good, a name nobody registered. *)
Theorem C105_torn_refuted : forall k s m T P F, life k s m T P F -> forall t L, t = TAGS /\ L = T \/ t = PARAMS /\ L = P ->
  forall fuel p r ty id tr, proper (p ++ r) -> p <> [] -> r <> [] -> ~ In (p ++ r) (map fst L) -> ~ In p (map fst L) -> zlen L < 128 -> 0 <= ty < 256 ->
  register_steps fuel m t (p ++ r) ty = rret (id, tr) -> id <> -1 ->
  exists mi, In mi tr /\ opens_as mi mi /\ known mi t (L ++ [(p, ty)]) /\ ~ In (p ++ r) (map fst (L ++ [(p, ty)])).
Proof. exact register_torn. Qed.
Print Assumptions C105_torn_refuted.
Lemma size_proper : proper (lit "size").
Proof. split; [repeat constructor; vm_compute; split; discriminate|discriminate]. Qed.
Lemma size_steps : exists tr, register_steps 20 x6 TAGS (lit "size") XBT_INT32 = rret (6, tr).
Proof.
  assert (R : exists m', register 20 x6 TAGS (lit "size") XBT_INT32 = rret (6, m')) by (eexists; vm_compute; reflexivity). destruct R as (m' & R). apply C105_stores in R as (tr & E & _). exists tr. exact E.
Qed.
Lemma not_in6 n : (if in_dec (list_eq_dec Z.eq_dec) n (map fst tags6) then false else true) = true -> ~ In n (map fst tags6).
Proof. destruct (in_dec _ _ _); [discriminate|auto]. Qed.
(** The names of this pool are copied first, because elements were made behind them. *)
Example C105_example : exists tr, register_steps 20 x6 TAGS (lit "size") XBT_INT32 = rret (6, tr) /\ known (final x6 tr) TAGS (tags6 ++ [(lit "size", XBT_INT32)]) /\
  (exists mi, In mi tr /\ opens_as mi mi /\ known mi TAGS (tags6 ++ [(lit "si", XBT_INT32)])).
Proof.
  destruct size_steps as (tr & E). exists tr. split; [exact E|]. assert (N1 : ~ In (lit "size") (map fst tags6)) by (apply not_in6; vm_compute; reflexivity). split.
  - apply (C105_end_partial _ _ _ _ _ _ x6_life TAGS tags6 (or_introl (conj eq_refl eq_refl)) 20 _ XBT_INT32 6 tr size_proper N1); [vm_compute; reflexivity|vm_compute; split; [discriminate|reflexivity]|exact E|discriminate].
  - destruct (C105_torn_refuted _ _ _ _ _ _ x6_life TAGS tags6 (or_introl (conj eq_refl eq_refl)) 20 (lit "si") (lit "ze") XBT_INT32 6 tr size_proper) as (mi & J & O & KN & _); [discriminate|discriminate|exact N1|apply not_in6; vm_compute; reflexivity|vm_compute; reflexivity|vm_compute; split; [discriminate|reflexivity]|exact E|discriminate|]. exists mi. auto.
Qed.
Definition second (x : run (Z * list (list Z))) : option (outcome Z * outcome Z) := match x with Some (Ok (_, _ :: m2 :: _)) => Some (p_allocator m2, t_max_id m2 TAGS) | _ => None end.
Lemma second_inv id tr a i : second (rret (id, tr)) = Some (a, i) -> exists m1 m2 r, tr = m1 :: m2 :: r /\ p_allocator m2 = a /\ t_max_id m2 TAGS = i.
Proof. unfold second, rret. destruct tr as [|m1 [|m2 r]]; [discriminate|discriminate|]. intro E. exists m1, m2, r. injection E as <- <-. auto. Qed.
Example C105_before_example : exists tr m1 m2, register_steps 20 x6 TAGS (lit "size") XBT_INT32 = rret (6, m1 :: m2 :: tr) /\ p_allocator x6 = Ok 320 /\ p_allocator m2 = Ok 368 /\ opens_as m2 m2 /\ known m2 TAGS tags6.
Proof.
  destruct size_steps as (tr & E). assert (N1 : ~ In (lit "size") (map fst tags6)) by (apply not_in6; vm_compute; reflexivity).
  assert (C : second (register_steps 20 x6 TAGS (lit "size") XBT_INT32) = Some (Ok 368, Ok 5)) by (vm_compute; reflexivity). rewrite E in C. apply second_inv in C as (m1 & m2 & r & -> & A & M). exists r, m1, m2. split; [exact E|]. split; [vm_compute; reflexivity|]. split; [exact A|].
  assert (M0 : t_max_id x6 TAGS = Ok 5) by (vm_compute; reflexivity). destruct (C105_before_partial _ _ _ _ _ _ x6_life TAGS tags6 (or_introl (conj eq_refl eq_refl)) 20 (lit "size") XBT_INT32 6 _ size_proper N1 E m2 (or_intror (or_intror (or_introl eq_refl))) (eq_trans M (eq_sym M0))) as (O & KN & _). auto.
Qed.

(** ** C106: after a kill while a name was registered the name can be registered again, if there is room.  True for a table that had
    names, as long as the number of names in its header did not change. *)
Theorem C106_again_partial : forall k s m T P F, life k s m T P F -> forall t L, t = TAGS /\ L = T \/ t = PARAMS /\ L = P ->
  forall fuel name ty id tr, L <> [] -> proper name -> ~ In name (map fst L) -> register_steps fuel m t name ty = rret (id, tr) ->
  forall mi a fuel' ty', In mi (m :: tr) -> t_max_id mi t = t_max_id m t -> p_allocator mi = Ok a -> a + names_size L + names_size [(name, ty')] <= zlen mi -> (2 * List.length L < fuel')%nat ->
  XBT_NULL <= ty' < XBT_LAST -> (t = PARAMS -> T <> []) -> zlen L < 128 -> exists m', register fuel' mi t name ty' = rret (zlen L, m') /\ known m' t (L ++ [(name, ty')]).
Proof. exact register_again. Qed.
Print Assumptions C106_again_partial.
Example C106_again_example : exists tr m', register_steps 20 x6 TAGS (lit "size") XBT_INT32 = rret (6, tr) /\ register 20 x6 TAGS (lit "size") XBT_STRING = rret (6, m') /\ known m' TAGS (tags6 ++ [(lit "size", XBT_STRING)]).
Proof.
  destruct size_steps as (tr & E). exists tr. assert (N1 : ~ In (lit "size") (map fst tags6)) by (apply not_in6; vm_compute; reflexivity).
  assert (A0 : p_allocator x6 = Ok 320) by (vm_compute; reflexivity).
  destruct (C106_again_partial _ _ _ _ _ _ x6_life TAGS tags6 (or_introl (conj eq_refl eq_refl)) 20 (lit "size") XBT_INT32 6 tr ltac:(discriminate) size_proper N1 E x6 320 20%nat XBT_STRING (or_introl eq_refl) eq_refl A0) as (m' & R & KN);
    [vm_compute; discriminate|vm_compute; repeat constructor|vm_compute; split; [discriminate|reflexivity]|discriminate|vm_compute; reflexivity|].
  exists m'. auto.
Qed.
(** For every first name of a table there is a store after which a kill leaves a pool that opens, but takes no name in this table ever
    again: every registration fails and changes nothing. *)
Theorem C106_first_refuted : forall k s m T P F, life k s m T P F -> forall t L, t = TAGS /\ L = T \/ t = PARAMS /\ L = P ->
  forall fuel name ty id tr, L = [] -> proper name -> 0 <= ty < 256 -> register_steps fuel m t name ty = rret (id, tr) -> id <> -1 ->
  exists mi, In mi tr /\ opens_as mi mi /\ forall fuel' name' ty', (0 < fuel')%nat -> proper name' -> register fuel' mi t name' ty' = rret (-1, mi).
Proof. exact register_begun. Qed.
Print Assumptions C106_first_refuted.
Example C106_first_example : exists tr mi, register_steps 20 s0 TAGS (lit "size") XBT_INT32 = rret (0, tr) /\ In mi tr /\ opens_as mi mi /\ register 20 mi TAGS (lit "size") XBT_INT32 = rret (-1, mi).
Proof.
  assert (R : exists m', register 20 s0 TAGS (lit "size") XBT_INT32 = rret (0, m')) by (eexists; vm_compute; reflexivity). destruct R as (m' & R). apply C105_stores in R as (tr & E & _).
  assert (TY : 0 <= XBT_INT32 < 256) by (vm_compute; split; [discriminate|reflexivity]). destruct (C106_first_refuted _ _ _ _ _ _ s0_life TAGS [] (or_introl (conj eq_refl eq_refl)) 20 (lit "size") XBT_INT32 0 tr eq_refl size_proper TY E ltac:(discriminate)) as (mi & J & O & ST). exists tr, mi. split; [exact E|]. split; [exact J|]. split; [exact O|]. apply ST; [repeat constructor|exact size_proper].
Qed.
