(** Converting a text document into a writable pool. *)
From Verif Require Import Base Types Sort Symtab SymtabSpec Xb XbWrite XbBin BinSpec Bw BwSpec BwHist BwSym BwFile BwNamesSpec BwLifeSpec BwSource BwSourceSpec BwMake BwMakeSpec BwMakeDoc BwKeysExamples BwMakeExamples.

(** C71: whenever a document is converted into a pool and success is reported, the pool is sound, and its root is the document: the same elements and attributes in the same order, each with the number its name has in the
    alphabetical list of the names, the type all texts of the name fit in, and the text converted to it.
    Missing: the names themselves are not in the pool (C71_names_refuted), an element without a text crashes it if its name has a text elsewhere (C71_crash_refuted), texts of some types end the process (C71_exit_refuted),
    sources of 128 MB and more are refused (C71_large_refuted), the reserved name is left out with all below (C71_reserved_refuted), more than 32768 names. *)
Theorem C71_partial : forall fl fuel disk n root f m, numbered root -> roomy n f -> Make_xbw fl fuel disk n root f = rret (true, m) ->
  exists T P k s F x t, lists_all T (tag_uses root) /\ lists_all P (attr_uses root) /\ life k s m [] [] F /\ p_root m = Ok x /\ tree_at k s m T P F x t /\ mirrors fl t root.
Proof. exact make_mirror. Qed.
Print Assumptions C71_partial.
Example C71_met : numbered plain_doc /\ roomy 100 [] /\ exists m, Make_xbw fl0 0 true 100 plain_doc [] = rret (true, m).
Proof. split; [exact plain_numbered|]. split; [left; split; [reflexivity|lia]|exact plain_made]. Qed.
(** No name can be read from the pool made, for no document. *)
Theorem C71_names_refuted : forall fl fuel disk n root f m, numbered root -> roomy n f -> Make_xbw fl fuel disk n root f = rret (true, m) ->
  forall id, 0 <= id -> (forall fuel', getName fuel' m TAGS id = rret None /\ getName fuel' m PARAMS id = rret None) /\ getTagName m id = Ok None /\ getAttrName m id = Ok None.
Proof. exact make_nameless. Qed.
Print Assumptions C71_names_refuted.
(** <a><b/><b>1</b></a> *)
Theorem C71_crash_refuted : forall fl fuel, Make_xbw fl fuel true 100 half_doc [] = Some Ub.
Proof. exact half_crash. Qed.
Print Assumptions C71_crash_refuted.
(** <a><b>3000000000</b></a> *)
Theorem C71_exit_refuted : forall fl fuel, Make_xbw fl fuel true 100 big_doc [] = Some Fail.
Proof. exact big_exit. Qed.
Print Assumptions C71_exit_refuted.
Theorem C71_large_refuted : forall fl fuel, exists m, Make_xbw fl fuel true 134213632 plain_doc [] = rret (false, m).
Proof. exact large_refused. Qed.
Print Assumptions C71_large_refuted.
(** <a><et-tecera/></a>: the root has no child. *)
Theorem C71_reserved_refuted : forall fl fuel, exists m x, Make_xbw fl fuel true 100 reserved_doc [] = rret (true, m) /\ p_root m = Ok x /\ x <> 0 /\ el_child m x = Ok 0.
Proof. exact reserved_dropped. Qed.
Print Assumptions C71_reserved_refuted.
