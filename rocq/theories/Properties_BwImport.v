(** Importing the names of a document into a pool. *)
From Verif Require Import Base Types Sort Xb XbWrite Bw BwSpec BwHist BwSym BwExamples BwNamesSpec BwLifeSpec BwAttrExamples BwCopySpec BwCopyExamples BwImport BwImportSpec BwImportTop BwImportExamples.

(** C68: the names of an open document (all different, and together with those of the pool at most 128) are imported into a pool with any history.  Afterwards the table is the old one with
    names of the document added in their order, each with the id it had or the next one; no element changes and the pool stays sound.
    Missing: names can be left out without notice (C68_skipped_refuted), and if the table is still empty the pool is not sound afterwards (C68_refuted). *)
Theorem C68_tags_partial : forall k s m T P F fuel d R N m', life k s m T P F -> lists d (rd_tags R) N -> listable N -> zlen T + zlen N <= 128 -> importTags fuel (Some (d, R)) m = rret m' ->
  exists T', entered N T T' /\ (forall e, In e (members F) -> rd m' e (s e) = rd m e (s e)) /\ (T' <> [] -> life k s m' T' P F).
Proof. exact import_tags. Qed.
Print Assumptions C68_tags_partial.
Theorem C68_params_partial : forall k s m T P F fuel d R N m', life k s m T P F -> lists d (rd_params R) N -> listable N -> zlen P + zlen N <= 128 -> importParams fuel (Some (d, R)) m = rret m' ->
  exists P', entered N P P' /\ (forall e, In e (members F) -> rd m' e (s e) = rd m e (s e)) /\ (P' <> [] -> life k s m' T P' F).
Proof. exact import_params. Qed.
Print Assumptions C68_params_partial.
Example C68_met : life ku su u4 tags1 params1 Fu /\ lists doc3 (rd_tags reader3) names3 /\ listable names3 /\ zlen tags1 + zlen names3 <= 128 /\ exists m', importTags 20 (Some (doc3, reader3)) u4 = rret m'.
Proof. split; [exact u4_life|]. split; [exact doc3_lists|]. split; [exact names3_listable|]. split; [vm_compute; discriminate|]. eexists. vm_compute. reflexivity. Qed.

(** A table without names takes all of them, if there is room; then they have the ids of the document (this is what copying from the document relies on, see C67). *)
Theorem C68_new_tags : forall k s m P F d R N a fuel, life k s m [] P F -> t_names m TAGS = Ok 0 -> lists d (rd_tags R) N -> listable N -> N <> [] -> zlen N <= 128 -> (List.length N <= fuel)%nat ->
  p_allocator m = Ok a -> a + names_size N <= zlen m ->
  exists m', importTags fuel (Some (d, R)) m = rret m' /\ life k s m' N P F /\ p_allocator m' = Ok (a + names_size N) /\ zlen m <= zlen m' /\ t_names m' PARAMS = t_names m PARAMS.
Proof. exact import_new_tags. Qed.
Print Assumptions C68_new_tags.
Theorem C68_new_params : forall k s m T F d R N a fuel, life k s m T [] F -> T <> [] -> t_names m PARAMS = Ok 0 -> lists d (rd_params R) N -> listable N -> Forall (fun e => XBT_NULL <= snd e < XBT_LAST) N -> N <> [] -> zlen N <= 128 ->
  (List.length N <= fuel)%nat -> p_allocator m = Ok a -> a + names_size N <= zlen m ->
  exists m', importParams fuel (Some (d, R)) m = rret m' /\ life k s m' T N F /\ p_allocator m' = Ok (a + names_size N) /\ zlen m <= zlen m'.
Proof. exact import_new_params. Qed.
Print Assumptions C68_new_params.
Theorem C68_agrees : forall d sy N, lists d sy N -> Forall (fun e => snd e <> XBT_UNKNOWN) N -> agrees d sy N.
Proof. exact lists_agrees. Qed.
Print Assumptions C68_agrees.
Example C68_new_met : life k0 z0 s0 [] [] [] /\ t_names s0 TAGS = Ok 0 /\ t_names s0 PARAMS = Ok 0 /\ lists doc1 (rd_tags reader1) tags1 /\ lists doc1 (rd_params reader1) params1 /\ listable tags1 /\ listable params1 /\
  p_allocator s0 = Ok 92 /\ 92 + names_size tags1 + names_size params1 <= zlen s0.
Proof. split; [exact s0_life|]. split; [reflexivity|]. split; [reflexivity|]. split; [apply doc1_lists|]. split; [apply doc1_lists|]. split; [apply doc1_listable|]. split; [apply doc1_listable|]. split; [reflexivity|vm_compute; discriminate]. Qed.

(** Refuted: after importing from no document into a new pool, a name that is registered twice gets two ids. *)
Theorem C68_refuted : life k0 z0 s0 [] [] [] /\ importTags 20 None s0 = rret i1 /\ registerTag 20 i1 (lit "a") XBT_NULL = rret (0, i2) /\ registerTag 20 i2 (lit "a") XBT_NULL = rret (1, i3).
Proof. split; [exact s0_life|exact twice]. Qed.
Print Assumptions C68_refuted.
(** Refuted: a name that has no place is left out, nothing tells so; the next name gets its id. *)
Theorem C68_skipped_refuted : life k0 z0 near_end [] [] [] /\ lists doc3 (rd_tags reader3) names3 /\ importTags 20 (Some (doc3, reader3)) near_end = rret i4 /\
  getByName 20 i4 TAGS long = rret None /\ getName 20 i4 TAGS 0 = rret (Some (lit "b")) /\ getSymbol doc3 (rd_tags reader3) 1 = Ok (lit "b").
Proof. split; [exact near_life|]. split; [exact doc3_lists|exact skipped]. Qed.
Print Assumptions C68_skipped_refuted.
