(** Theorems about pools that are opened again (C94, C95) and files that are none (C96). *)
From Verif Require Import Base Types Sort Xb XbWrite Bw BwSpec BwHist BwSym BwFile BwReg BwFileSpec BwNamesSpec BwLifeSpec BwOpen BwOpenSpec BwOpenProofs BwSetExamples BwAttrExamples BwTagExamples BwOpenExamples.

(** C94: a pool file that a program closed is opened by the next program, with everything that was in it, whatever
    size that program asks for.  Missing: pools with more than 128 names in a table. *)
Theorem C94_partial : forall k s m T P F, life k s m T P F -> opens_as m m.
Proof. exact reopens. Qed.
Print Assumptions C94_partial.
Example C94_example : opens_as b4 b4 /\ opens_as q1 q1 /\ opens_as cleared cleared.
Proof. split; [|split]; [apply (C94_partial _ _ _ _ _ _ b4_life)|apply (C94_partial _ _ _ _ _ _ q1_life)|apply (C94_partial _ _ _ _ _ _ cleared_life)]. Qed.
(** With BIN_WRITE_CFG_ALWAYS_CREATE_NEW there is a new pool in its place, without names and without elements.
    Missing: pools of less than the initial size. *)
Theorem C94_new_partial : forall fuel max k s m T P F M, life k s m T P F -> p_mmap_size m = Ok M -> INITIAL <= M ->
  exists m', Initialize fuel true true max m = rret (true, m') /\ forall k' s', life k' s' m' [] [] [].
Proof. exact recreated. Qed.
Print Assumptions C94_new_partial.
Example C94_new_example : exists m', Initialize 9 true true 0 b4 = rret (true, m') /\ life (fun _ => false) (fun _ => 0) m' [] [] [].
Proof. destruct (C94_new_partial 9 0 _ _ _ _ _ _ 131072 b4_life) as (m' & E & L); [vm_compute; reflexivity|vm_compute; discriminate|]. eauto. Qed.

(** C95: registering by id in a pool that was opened again tells whether the pool has this name with this id and this type. *)
Theorem C95_partial : forall k s m T P F t id name type, life k s m T P F -> t = TAGS \/ t = PARAMS -> t_index m t <> Ok 0 -> typed_names T -> typed_names P -> XBT_NULL <= type < XBT_LAST ->
  exists b, register_checked m t id name type = Ok b /\ (b = true <-> agrees T P t id name type).
Proof. exact checked. Qed.
Print Assumptions C95_partial.
Example C95_example : register_checked q1 PARAMS 0 (lit "id") XBT_INT32 = Ok true /\ register_checked q1 PARAMS 0 (lit "id") XBT_INT64 = Ok false.
Proof.
  destruct p6_typed as [A B].
  destruct (C95_partial _ _ _ _ _ _ PARAMS 0 (lit "id") XBT_INT32 q1_life) as (b & E & Q); [right; reflexivity|vm_compute; discriminate|exact A|exact B|vm_compute; split; [discriminate|reflexivity]|].
  destruct (C95_partial _ _ _ _ _ _ PARAMS 0 (lit "id") XBT_INT64 q1_life) as (b' & E' & Q'); [right; reflexivity|vm_compute; discriminate|exact A|exact B|vm_compute; split; [discriminate|reflexivity]|].
  rewrite E, E'. split; f_equal; [apply Q; split; [discriminate|reflexivity]|]. destruct b'; [|reflexivity]. destruct (proj1 Q' eq_refl) as [_ X]. vm_compute in X. discriminate.
Qed.
(** A program that registers any names this way and then calls allRegistered is told whether the pool has all of them,
    if both tables have an index and there is room. *)
Theorem C95_all_partial : forall k s m T P F M a fuel l, life k s m T P F -> has_indices m -> typed_names T -> typed_names P -> Forall request l ->
  p_mmap_size m = Ok M -> p_allocator m = Ok a -> a + 4095 + 16384 <= M ->
  exists failures ok m', register_program m l 0 = Ok failures /\ allRegistered fuel true true failures m = rret (ok, m') /\
    (ok = true <-> Forall (fun '(t, id, name, type) => agrees T P t id name type) l).
Proof. exact program_checked. Qed.
Print Assumptions C95_all_partial.
Example C95_all_example : (exists m', allRegistered 0 true true 0 p6 = rret (true, m')) /\ exists failures m', register_program p6 other_program 0 = Ok failures /\ allRegistered 0 true true failures p6 = rret (false, m').
Proof.
  destruct p6_typed as [A B]. split.
  - destruct (C95_all_partial _ _ _ _ _ _ 131072 152 0 same_program p6_life p6_indices A B same_requests) as (f & ok & m' & R & E & Q); [vm_compute; reflexivity|vm_compute; reflexivity|vm_compute; discriminate|]. assert (f = 0) as -> by (vm_compute in R; injection R as <-; reflexivity). rewrite (proj2 Q same_agrees) in E. eauto.
  - destruct (C95_all_partial _ _ _ _ _ _ 131072 152 0 other_program p6_life p6_indices A B other_requests) as (f & ok & m' & R & E & Q); [vm_compute; reflexivity|vm_compute; reflexivity|vm_compute; discriminate|]. destruct ok; [destruct (other_differs (proj1 Q eq_refl))|]. eauto.
Qed.
(** Refuted for tables without an index, as when allRegistered was not called before: every registration is refused. *)
Theorem C95_index_refuted : forall k s m T P F t id name type, life k s m T P F -> t = TAGS \/ t = PARAMS -> t_index m t = Ok 0 -> register_checked m t id name type = Ok false.
Proof. exact unindexed. Qed.
Print Assumptions C95_index_refuted.
Example C95_index_example : register_checked p4 TAGS 0 (lit "root") XBT_NULL = Ok false /\ agrees tags1 params4 TAGS 0 (lit "root") XBT_NULL.
Proof. split; [apply (C95_index_refuted _ _ _ _ _ _ TAGS 0 _ _ p4_life); [auto|vm_compute; reflexivity]|split; [discriminate|reflexivity]]. Qed.
(** Refuted for pools without attributes: allRegistered reports success however many registrations were refused. *)
Theorem C95_attributes_refuted : forall k s m T F M a fuel, life k s m T [] F -> t_index m TAGS <> Ok 0 -> p_mmap_size m = Ok M -> p_allocator m = Ok a -> a + 4095 + 16384 <= M ->
  exists m', forall failures, allRegistered fuel true true failures m = rret (true, m').
Proof. exact unnoticed. Qed.
Print Assumptions C95_attributes_refuted.
Example C95_attributes_example : exists m', allRegistered 0 true true 5 g6 = rret (true, m').
Proof. destruct (C95_attributes_refuted _ _ _ _ _ 131072 164 0%nat g6_life) as (m' & E); [vm_compute; discriminate|vm_compute; reflexivity|vm_compute; reflexivity|vm_compute; discriminate|]. eauto. Qed.

(** C96: opening a file that is no pool fails and leaves the file as it was.  For files of at least the size of a header: *)
Theorem C96_partial : forall fuel disk max f ok g, HEADER <= zlen f -> (forall s, rd_str f 4 = Ok s -> s <> TYPE_INFO) -> Initialize fuel disk false max f = rret (ok, g) -> ok = false /\ g = f.
Proof. exact foreign. Qed.
Print Assumptions C96_partial.
Example C96_example : Initialize 9 true false 65536 (long_note ++ [0]) = rret (false, long_note ++ [0]).
Proof.
  destruct (Initialize 9 true false 65536 (long_note ++ [0])) as [[[ok g]| |]|] eqn:E; try (vm_compute in E; discriminate).
  destruct (C96_partial 9 true 65536 (long_note ++ [0]) ok g) as [O G]; [vm_compute; discriminate|intros s S; vm_compute in S; injection S as <-; vm_compute; discriminate|exact E|]. rewrite O, G. reflexivity.
Qed.
(** Refuted for every shorter file: an empty pool takes its place. *)
Theorem C96_short_refuted : forall fuel max f, zlen f < HEADER -> INITIAL <= max -> int32 max -> exists g, Initialize fuel true false max f = rret (true, g) /\ forall k s, life k s g [] [] [].
Proof. exact short_lost. Qed.
Print Assumptions C96_short_refuted.
Example C96_short_example : exists g, Initialize 9 true false 65536 short_note = rret (true, g) /\ life (fun _ => false) (fun _ => 0) g [] [] [].
Proof. destruct (C96_short_refuted 9 65536 short_note) as (g & E & L); [vm_compute; reflexivity|vm_compute; discriminate|vm_compute; split; (discriminate || reflexivity)|]. eauto. Qed.
