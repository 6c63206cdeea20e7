(** Properties of the file of an XBW pool, of its names and of the registry of plugins. *)
From Verif Require Import Base Types Sort Xb XbWrite Bw BwSpec BwHist BwSym BwFile BwReg BwFileSpec BwRegProofs BwFileProofs BwExamples BwFileExamples.

(** C46, refuted: in a pool without names no name can be registered under a chosen id: registerTag(id,name,type) and registerAttr fail
    for every id, name and type, and nothing is registered. *)
Theorem C46_refuted : forall m a t id name type fuel, pool m a -> t_names m t = Ok 0 -> (exists x, t_index m t = Ok x) -> register_id fuel m t id name type = rret (false, m).
Proof. exact fresh_register. Qed.
Print Assumptions C46_refuted.
Example C46_met : pool s0 92 /\ t_names s0 TAGS = Ok 0 /\ (exists x, t_index s0 TAGS = Ok x) /\ t_names s0 PARAMS = Ok 0 /\ (exists x, t_index s0 PARAMS = Ok x).
Proof. split; [exact s0_pool|]. repeat split; try (exists 0); vm_compute; reflexivity. Qed.

(** C48, creating: a crash in the last two stores, or when the file is complete, leaves a pool that opens and is empty.  Missing: every other
    crash point, see C48_create_refuted. *)
Theorem C48_create_partial : forall max, INITIAL <= max -> int32 max -> exists pre c3 c4, InitEmptyFile true max [] = Ok (true, pre ++ [c3; c4]) /\ (forall c, In c [c3; c4] -> opens_as c c /\ empty_pool c).
Proof. exact create_survives. Qed.
Print Assumptions C48_create_partial.
(** Refuted: the file that ftruncate leaves, and every one up to the store of the limit, is never opened again; after this store and the next
    one the pool opens, but it claims to have an attribute. *)
Theorem C48_create_refuted : forall max, INITIAL <= max -> int32 max -> exists pre c1 c2 rest, InitEmptyFile true max [] = Ok (true, pre ++ c1 :: c2 :: rest) /\ In (resize [] INITIAL) pre /\
  (forall c, In c pre -> never_opens c) /\ (forall c, In c [c1; c2] -> opens_as c c /\ t_max_id c PARAMS = Ok 0 /\ t_names c PARAMS = Ok 0).
Proof. exact create_lost. Qed.
Print Assumptions C48_create_refuted.
Example C48_create_met : INITIAL <= 131072 /\ int32 131072.
Proof. unfold INITIAL, int32. lia. Qed.
(** C48, enlarging: if the process dies when the enlargement is complete, the pool opens with the contents it would have opened with before. *)
Theorem C48_grow_partial : forall m a g size ok tr, pool m a -> placed m TAGS -> placed m PARAMS -> opens_as m g -> makeSpace_steps true m size = Ok (ok, tr) -> tr <> [] ->
  exists tr' c g', tr = tr' ++ [c] /\ opens_as c g' /\ same_contents g g'.
Proof. exact grow_survives. Qed.
Print Assumptions C48_grow_partial.
(** Refuted: whenever a pool is enlarged there are two crash points after which it is never opened again. *)
Theorem C48_grow_refuted : forall m a g size ok tr, pool m a -> placed m TAGS -> placed m PARAMS -> opens_as m g -> makeSpace_steps true m size = Ok (ok, tr) -> tr <> [] ->
  exists c1 c2 c3, tr = [c1; c2; c3] /\ never_opens c1 /\ never_opens c2.
Proof. exact grow_lost. Qed.
Print Assumptions C48_grow_refuted.
(** A pool with a tag, an attribute and an index of the tags *)
Example C48_grow_met : pool n4 112 /\ placed n4 TAGS /\ placed n4 PARAMS /\ opens_as n4 n4 /\ t_max_id n4 TAGS = Ok 0 /\ t_names n4 TAGS = Ok 92 /\ t_index n4 TAGS = Ok 108 /\ exists tr, makeSpace_steps true n4 8192 = Ok (true, tr) /\ tr <> [].
Proof. exact n4_grows. Qed.

(** C49: if the plugins are destroyed in the reverse order of their construction, each one of the first 32 is found by its pool.  Missing:
    other orders, see C49_refuted. *)
Theorem C49_partial : forall l s, standing l s -> exists r, calls new_registry l = Ok r /\
  forall pool_of pool, (forall p, In p s -> exists o, pool_of p = Some o) ->
  (forall p, In p s -> pool_of p = Some pool -> (forall q, In q s -> pool_of q = Some pool -> q = p) -> getPlugin pool_of r pool = Ok (Some p)) /\
  ((forall p, In p s -> pool_of p <> Some pool) -> getPlugin pool_of r pool = Ok None).
Proof. exact registry_finds. Qed.
Print Assumptions C49_partial.
Example C49_met : standing [Construct 4096; Construct 8192; Construct 12288; Destroy 12288] [4096; 8192].
Proof.
  apply (standing_destroy [Construct 4096; Construct 8192; Construct 12288] [4096; 8192] 12288).
  apply (standing_construct [Construct 4096; Construct 8192] [4096; 8192] 12288); [|cbn; intuition discriminate|unfold pointer; lia|reflexivity].
  apply (standing_construct [Construct 4096] [4096] 8192); [|cbn; intuition discriminate|unfold pointer; lia|reflexivity].
  apply (standing_construct [] [] 4096); [exact standing_none|cbn; auto|unfold pointer; lia|reflexivity].
Qed.
(** Refuted: if of two plugins the first one is destroyed, the second one is not found any more; looking for a pool calls a method of what is
    no plugin. *)
Theorem C49_refuted : forall a b, pointer a -> pointer b -> a / 256 <> b / 256 -> exists r, calls new_registry [Construct a; Construct b; Destroy a] = Ok r /\
  (forall pool_of pool, getPlugin pool_of r pool <> Ok (Some b)) /\
  (forall pool_of pool, (forall x, x <> b -> pool_of x = None) -> getPlugin pool_of r pool = Ub).
Proof. exact registry_loses. Qed.
Print Assumptions C49_refuted.
Example C49_refuted_met : pointer 4096 /\ pointer 8192 /\ 4096 / 256 <> 8192 / 256.
Proof. unfold pointer. vm_compute. repeat split; discriminate. Qed.
