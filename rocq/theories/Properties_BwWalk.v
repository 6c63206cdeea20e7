(** Theorems about walks through pools (C97), the size of their data (C98) and the check of their types (C99). *)
From Verif Require Import Base Types Sort Xb XbWrite Bw BwSpec BwHist BwSym BwNamesSpec BwLifeSpec BwExamples BwFileExamples BwSetExamples BwAttrExamples WalkSpec BwWalk BwWalkSpec BwWalkProofs BwWalkExamples.

(** C97: a walk through a pool hands over an element and everything below it, each of them once, parents before their children and
    children in their order, with their depths. *)
Theorem C97_elements : forall k s m T P F t fuel lists deep, life k s m T P F -> hangs F t -> (List.length (members F) <= lists)%nat -> (levels t <= fuel)%nat ->
  pool_walk fuel lists m (place t) deep = rret ((place t, deep) :: parents_first (deep + 1) t) /\
  map fst ((place t, deep) :: parents_first (deep + 1) t) = all_of t /\ NoDup (all_of t).
Proof. exact walks. Qed.
Print Assumptions C97_elements.
Example C97_elements_example : pool_walk 2 9 b4 164 0 = rret [(164, 0); (188, 1); (216, 1); (244, 1)].
Proof. apply (C97_elements k4 z4 b4 tags6 [] F4 t4 2 9 0 b4_life t4_hangs); cbn; lia. Qed.
(** The attributes of an element that has some, in their order: *)
Theorem C97_attributes_partial : forall k s m T P F x A fuel, life k s m T P F -> In x (members F) -> owned F x false A -> A <> [] -> (List.length A <= fuel)%nat -> ForAllParams fuel m x = rret A.
Proof. exact attributes. Qed.
Print Assumptions C97_attributes_partial.
Example C97_attributes_example : ForAllParams 5 q2 root = rret [176].
Proof. destruct q2_life as (k & s & F & L & I & O). apply (C97_attributes_partial k s q2 tags1 params4 F root [176] 5 L I O); [discriminate|cbn; lia]. Qed.
(** Refuted for an element without attributes: the header of the pool is taken for an attribute, and then a null pointer is followed. *)
Theorem C97_attributes_refuted : forall k s m T P F x fuel, life k s m T P F -> In x (members F) -> owned F x false [] -> zlen m < 2019522954 -> ForAllParams (S fuel) m x = rub.
Proof. exact no_attributes. Qed.
Print Assumptions C97_attributes_refuted.
Example C97_none_example : ForAllParams 5 q1 root = rub.
Proof. apply (C97_attributes_refuted kr sr q1 tags1 params4 Fr root 4 q1_life root_in q1_none). vm_compute. reflexivity. Qed.

(** C98: the data size of a pool covers the bytes of all its elements, and is zero as long as nothing was stored. *)
Theorem C98_space : forall k s m T P F fuel, life k s m T P F -> (List.length T < fuel)%nat -> (List.length P < fuel)%nat ->
  exists d, getDataSize fuel m = rret (d, m) /\ taken s (members F) <= d /\ HEADER + d <= zlen m.
Proof. exact space_counted. Qed.
Print Assumptions C98_space.
Theorem C98_empty_partial : forall k s m T P F fuel, life k s m T P F -> (List.length T < fuel)%nat -> (List.length P < fuel)%nat -> p_allocator m = Ok HEADER -> getDataSize fuel m = rret (0, m).
Proof. exact nothing_counted. Qed.
Print Assumptions C98_empty_partial.
Example C98_example : getDataSize 9 s0 = rret (0, s0) /\ exists d, getDataSize 9 b4 = rret (d, b4) /\ 24 + 28 + 28 + 28 <= d.
Proof.
  split; [apply (C98_empty_partial _ _ _ _ _ _ 9 s0_life); [cbn; lia|cbn; lia|vm_compute; reflexivity]|]. destruct (C98_space _ _ _ _ _ _ 9 b4_life) as (d & E & LE & _); [cbn; lia|cbn; lia|]. exists d. split; [exact E|]. assert (Q : taken z4 (members F4) = 24 + 28 + 28 + 28) by (vm_compute; reflexivity). lia.
Qed.
(** Exactly: what is allocated, without the header and the names. *)
Theorem C98_names : forall k s m T P F fuel a, life k s m T P F -> (List.length T < fuel)%nat -> (List.length P < fuel)%nat -> p_allocator m = Ok a ->
  getDataSize fuel m = rret (a - HEADER - names_space T - names_space P, m).
Proof. exact names_not_counted. Qed.
Print Assumptions C98_names.
Example C98_names_example : getDataSize 9 p6 = rret (152 - 92 - 8 - (8 + 8 + 8 + 8), p6).
Proof. apply (C98_names _ _ _ _ _ _ 9 152 p6_life); [cbn; lia|cbn; lia|vm_compute; reflexivity]. Qed.
(** Refuted for pools whose tags have an index: the index counts as data, also if there is no element. *)
Theorem C98_index_refuted : forall k s m T P F fuel, life k s m T P F -> (List.length T < fuel)%nat -> (List.length P < fuel)%nat -> t_index m TAGS <> Ok 0 ->
  exists d, getDataSize fuel m = rret (d, m) /\ taken s (members F) + 4 * zlen T <= d.
Proof. exact index_counted. Qed.
Print Assumptions C98_index_refuted.
Example C98_index_example : exists d, getDataSize 9 p6 = rret (d, p6) /\ 4 <= d /\ members [] = [].
Proof. destruct (C98_index_refuted _ _ _ _ _ _ 9 p6_life) as (d & E & LE); [cbn; lia|cbn; lia|vm_compute; discriminate|]. exists d. split; [exact E|]. split; [|reflexivity]. assert (Q : taken (fun _ => 0) (members []) + 4 * zlen tags1 = 4) by (vm_compute; reflexivity). lia. Qed.

(** C99: the check of the types of a pool succeeds if every element has the type that its tag was registered with, or gets it.
    If they all have their types it succeeds: *)
Theorem C99_partial : forall k s m T P F t fuel lists loose, life k s m T P F -> hangs F t -> p_root m = Ok (place t) -> well_typed m T t ->
  (List.length (members F) <= lists)%nat -> (levels t <= fuel)%nat -> CheckAndUpdateTypes fuel lists m loose = rret true.
Proof. intros k s m T P F t fuel lists loose L H R _. exact (types_checked k s m T P F t fuel lists loose L H R). Qed.
Print Assumptions C99_partial.
Example C99_example : CheckAndUpdateTypes 2 9 w1 false = rret true.
Proof. apply (C99_partial k4 z4 w1 tags6 [] F4 t4 2 9 false w1_life t4_hangs); [vm_compute; reflexivity|exact w1_typed|cbn; lia|cbn; lia]. Qed.
(** Refuted: it never fails, and there are pools with an element of another type, which stays as it is. *)
Theorem C99_refuted : (forall fuel lists m loose b, CheckAndUpdateTypes fuel lists m loose = rret b -> b = true) /\
  life k4 z4 w2 tags6' [] F4 /\ hangs F4 t4 /\ p_root w2 = Ok (place t4) /\ ~ well_typed w2 tags6' t4 /\ CheckAndUpdateTypes 2 9 w2 false = rret true.
Proof. exact (conj types_unchecked (conj w2_life (conj t4_hangs (conj eq_refl (conj w2_wrong w2_passes))))). Qed.
Print Assumptions C99_refuted.
