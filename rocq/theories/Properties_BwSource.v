(** Converting XBW pools to XB. *)
From Verif Require Import Base Types Sort Xb XbWrite XbBin BinSpec Bw BwSpec BwHist BwSym BwNamesSpec BwLifeSpec BwAttr BwAttrExamples BwFileExamples BwSource BwSourceSpec BwSourceRoom BwSourceExamples.

(** C63: a pool with any history, with registered and indexed names and a root, is converted into an XB file without running out of the buffer
    reserved for it; the file opens, and reading it delivers the tree of the root: the same names, types, values, attributes and children in
    the same order.
    Missing: what the converter cannot do with any source (C50: text attributes that are not empty, IPv6 values, BLOB_STRING, variable sizes that do not fit);
    built-in names (see C63_builtin_refuted); more than 32767 attributes; pools so large that the size of the buffer overflows. *)
Theorem C63_partial : forall k s m T P F, life k s m T P F -> bytes m -> forall x t buf filename modified fuel,
  (T <> [] -> t_index m TAGS <> Ok 0) -> (P <> [] -> t_index m PARAMS <> Ok 0) -> p_root m = Ok x -> tree_at k s m T P F x t -> (forall u, In u (belements t) -> convertible u) ->
  zlen buf = buffer_size m -> zlen buf <= INT_MAX -> cstring filename -> zlen filename <= 1200 -> (List.length (members F) <= fuel)%nat ->
  exists img, PoolMake_xb fuel buf m filename modified = rret img /\
    forall k, (bheight t <= k)%nat -> exists R x, Initialize (S k) img = rret R /\ rd_root R = Some x /\ read_bin_node k img R x = rret (doc_of t).
Proof. exact pool_to_xb. Qed.
Print Assumptions C63_partial.
Example C63_met : life kr2 sr2 r6 tags1 params4 Fr2 /\ bytes r6 /\ t_index r6 TAGS = Ok 132 /\ t_index r6 PARAMS = Ok 136 /\ p_root r6 = Ok root /\ tree_at kr2 sr2 r6 tags1 params4 Fr2 root tree2 /\
  (forall u, In u (belements tree2) -> convertible u) /\ buffer_size r6 <= INT_MAX.
Proof.
  split; [exact r6_life|]. split; [exact r6_bytes|]. split; [vm_compute; reflexivity|]. split; [vm_compute; reflexivity|]. split; [vm_compute; reflexivity|]. split; [exact r6_tree|]. split; [exact tree2_convertible|vm_compute; discriminate].
Qed.
(** An attribute with a built-in name loses its name: "count" is in the pool, "NULL" in the XB file. *)
Theorem C63_builtin_refuted : exists R x, attrInt32 true q1 root XPNR_COUNT 9 = Ok (Some root, b5) /\ setRoot b5 root = Ok b6 /\ (exists a, attrGet 5 b6 root XPNR_COUNT = rret (Some a)) /\
  PoolMake_xb 9 (zrepeat 0 (buffer_size b6)) b6 (lit "a") 0 = rret b7 /\ Initialize 5 b7 = rret R /\ rd_root R = Some x /\
  read_bin_node 5 b7 R x = rret (BNode (lit "root") XBT_NULL [] [(lit "NULL", XBT_INT32, [9; 0; 0; 0])] []).
Proof.
  eexists. eexists. split; [vm_compute; reflexivity|]. split; [vm_compute; reflexivity|]. split; [exists 176; vm_compute; reflexivity|]. split; [vm_compute; reflexivity|].
  split; [vm_compute; reflexivity|]. split; [reflexivity|]. vm_compute. reflexivity.
Qed.
Print Assumptions C63_builtin_refuted.
