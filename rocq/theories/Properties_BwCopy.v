(** Copying a part of a document into a pool. *)
From Verif Require Import Base Types Sort Xb XbWrite XbBin BinSpec Bw BwSpec BwHist BwSym BwNamesSpec BwLifeSpec BwAttr BwAttrExamples BwSourceSpec BwSourceExamples BwCopy BwCopySpec BwCopyRoom BwCopyExamples BwCopyTextSpec BwCopyTextTop BwCopyTextExamples.

(** C67: an item of an open document, whose names have the same ids in the pool, is copied into an empty element of a pool with any history.  If the element is returned, it has exactly the
    attributes of the item, and children of the item in their order; each copied child is the child of the document, with its name, type, value and attributes, again with children in their order.
    Nothing else in the pool changes, also if NULL is returned, and the pool stays sound.
    Missing: children can be left out without notice (C67_refuted, C67_type_refuted, C67_complete tells when they are not); texts that are converted to another type (see C67_texts_partial); texts with reserve. *)
Theorem C67_partial : forall fl disk d R T P k s m F p fr fuel y n ty v attrs kids r m', life k s m T P F -> t_index m TAGS <> Ok 0 -> t_index m PARAMS <> Ok 0 -> In p (members F) -> owned F p false [] -> owned F p true [] ->
  bytes d -> zlen d <= INT_MAX -> agrees d (rd_tags R) T -> agrees d (rd_params R) P -> named d R y -> read_bin_node fr d R y = rret (BNode n ty v attrs kids) -> (forall u, In u (belements (BNode n ty v attrs kids)) -> copyable T P u) ->
  CopyAll fuel fl disk d m (Some p) y = rret (r, m') ->
  exists k' s' F', life k' s' m' T P F' /\ grown k s m F p k' s' m' F' /\ (r = None \/ r = Some p /\ exists kids', sub pruned kids' kids /\ holds k' s' m' T P F' p attrs kids').
Proof. exact copy_is_part. Qed.
Print Assumptions C67_partial.
(** The same with texts whose names have another type in the pool: the copy has the value that is read from the text as a value of that type; texts that cannot be read are left out like other
    children, or make the call return NULL if they are attributes. *)
Theorem C67_texts_partial : forall fl disk d R T P k s m F p fr fuel y n ty v attrs kids r m', life k s m T P F -> t_index m TAGS <> Ok 0 -> t_index m PARAMS <> Ok 0 -> In p (members F) -> owned F p false [] -> owned F p true [] ->
  bytes d -> zlen d <= INT_MAX -> agrees d (rd_tags R) T -> agrees d (rd_params R) P -> named d R y -> read_bin_node fr d R y = rret (BNode n ty v attrs kids) -> (forall u, In u (belements (BNode n ty v attrs kids)) -> can_hold T P u) ->
  CopyAll fuel fl disk d m (Some p) y = rret (r, m') ->
  exists k' s' F', life k' s' m' T P F' /\ grown k s m F p k' s' m' F' /\
    (r = None \/ r = Some p /\ exists attrs' kids', Forall2 (reads_as fl P) attrs' attrs /\ sub (taken fl T P) kids' kids /\ holds k' s' m' T P F' p attrs' kids').
Proof. exact copy_reads. Qed.
Print Assumptions C67_texts_partial.
Example C67_texts_met : forall fl, life ku su u4 tags1 params1 Fu /\ t_index u4 TAGS <> Ok 0 /\ t_index u4 PARAMS <> Ok 0 /\ In top (members Fu) /\ owned Fu top false [] /\ owned Fu top true [] /\ bytes doc3 /\ zlen doc3 <= INT_MAX /\
  agrees doc3 (rd_tags reader3) tags1 /\ agrees doc3 (rd_params reader3) params1 /\ named doc3 reader3 root3 /\ read_bin_node 5 doc3 reader3 root3 = rret tree3 /\ (forall u, In u (belements tree3) -> can_hold tags1 params1 u) /\
  CopyAll 5 fl true doc3 u4 (Some top) root3 = rret (Some top, u6) /\ obind (el_child u6 top) (first_attr u6) = Ok (XBT_INT32, 12).
Proof.
  intro fl. split; [exact u4_life|]. split; [vm_compute; discriminate|]. split; [vm_compute; discriminate|]. split; [left; reflexivity|]. split; [exact u4_none|]. split; [exact u4_no_kids|]. split; [exact doc3_bytes|]. split; [vm_compute; discriminate|]. split; [exact doc3_tags|]. split; [exact doc3_params|].
  split; [exact doc3_named|]. split; [exact doc3_read|]. split; [exact tree3_can|]. split; [apply doc3_copied|apply doc3_values].
Qed.
(** The text "x" under a name of type INT32 becomes 0, and the call reports success. *)
Theorem C67_text_refuted : forall fl, read_bin_node 5 doc3 reader3 root3 = rret tree3 /\ CopyAll 5 fl true doc3 u4 (Some top) root3 = rret (Some top, u6) /\ first_attr u6 top = Ok (XBT_INT32, 0).
Proof. intro fl. split; [exact doc3_read|]. split; [apply doc3_copied|apply doc3_values]. Qed.
Print Assumptions C67_text_refuted.
(** The copy is complete if the values have the types their names are registered for, the disk has room, the space of the mapping is enough for all, the attributes of the item itself fit in
    the file as it is, and those of each element below in 16000 bytes. *)
Theorem C67_complete : forall fl d R T P k s m F p fr y n ty v attrs kids a M, life k s m T P F -> t_index m TAGS <> Ok 0 -> t_index m PARAMS <> Ok 0 -> In p (members F) -> owned F p false [] -> owned F p true [] ->
  bytes d -> zlen d <= INT_MAX -> agrees d (rd_tags R) T -> agrees d (rd_params R) P -> named d R y -> read_bin_node fr d R y = rret (BNode n ty v attrs kids) -> (forall u, In u (belements (BNode n ty v attrs kids)) -> fitting T P u) ->
  el_id m p = it_name d y -> bytes m -> p_allocator m = Ok a -> p_mmap_size m = Ok M -> a + attr_cost attrs <= zlen m -> (forall u, In u (flat_map belements kids) -> short u) -> a + attr_cost attrs + costs kids + 20600 <= M ->
  exists m' k' s' F', CopyAll fr fl true d m (Some p) y = rret (Some p, m') /\ life k' s' m' T P F' /\ grown k s m F p k' s' m' F' /\ holds k' s' m' T P F' p attrs kids.
Proof. exact copy_complete. Qed.
Print Assumptions C67_complete.
Example C67_met : life ku su u4 tags1 params1 Fu /\ t_index u4 TAGS <> Ok 0 /\ t_index u4 PARAMS <> Ok 0 /\ In top (members Fu) /\ owned Fu top false [] /\ owned Fu top true [] /\ bytes doc1 /\ zlen doc1 <= INT_MAX /\
  agrees doc1 (rd_tags reader1) tags1 /\ agrees doc1 (rd_params reader1) params1 /\ named doc1 reader1 192 /\ read_bin_node 5 doc1 reader1 192 = rret tree2 /\ (forall u, In u (belements tree2) -> copyable tags1 params1 u) /\
  (forall u, In u (belements tree2) -> fitting tags1 params1 u) /\ el_id u4 top = it_name doc1 192 /\ bytes u4 /\ p_allocator u4 = Ok 140 /\ p_mmap_size u4 = Ok 131072 /\ (forall u, In u (belements tree2) -> short u) /\ 140 + cost tree2 + 20600 <= 131072.
Proof.
  split; [exact u4_life|]. split; [vm_compute; discriminate|]. split; [vm_compute; discriminate|]. split; [left; reflexivity|]. split; [exact u4_none|]. split; [exact u4_no_kids|]. split; [exact doc1_bytes|]. split; [vm_compute; discriminate|]. split; [exact doc1_tags|]. split; [exact doc1_params|]. split; [exact doc1_named|].
  split; [exact doc1_read|]. split; [exact tree2_copyable|]. split; [exact tree2_fitting|]. split; [vm_compute; reflexivity|]. split; [exact u4_bytes|]. split; [vm_compute; reflexivity|]. split; [vm_compute; reflexivity|]. split; [|vm_compute; discriminate]. intros u [<-|[<-|[]]]; vm_compute; discriminate.
Qed.
(** An element that has children or attributes already, or another name, is not touched. *)
Theorem C67_refused : forall fl disk d T P k s m F p b e L fuel y, life k s m T P F -> In p (members F) -> owned F p b (e :: L) -> CopyAll (S fuel) fl disk d m (Some p) y = rret (None, m).
Proof. exact copy_refused. Qed.
Print Assumptions C67_refused.
Theorem C67_other_name : forall fl disk d T P k s m F p fuel y i j, life k s m T P F -> In p (members F) -> el_id m p = Ok i -> it_name d y = Ok j -> i <> j -> CopyAll (S fuel) fl disk d m (Some p) y = rret (None, m).
Proof. exact copy_other. Qed.
Print Assumptions C67_other_name.
Example C67_refused_met : life kr2 sr2 r6 tags1 params4 Fr2 /\ In root (members Fr2) /\ owned Fr2 root true [kid].
Proof. split; [exact r6_life|]. split; [right; right; left; reflexivity|]. left. right. left. reflexivity. Qed.
(** The disk is full: the child is left out, and the call returns the element as after success. *)
Theorem C67_refuted : forall fl, (exists k s T P F, life k s u4 T P F) /\ read_bin_node 5 doc1 reader1 192 = rret tree2 /\ CopyAll 5 fl false doc1 u4 (Some top) 192 = rret (Some top, u4) /\ el_child u4 top = Ok 0.
Proof. intro fl. split; [exists ku, su, tags1, params1, Fu; exact u4_life|]. split; [exact doc1_read|]. split; [apply u4_lost|vm_compute; reflexivity]. Qed.
Print Assumptions C67_refuted.
(** The same with much room: the value of the child has another type than its name in the pool. *)
Theorem C67_type_refuted : forall fl, read_bin_node 5 doc2 reader2 192 = rret (BNode (lit "root") XBT_NULL [] [] [BNode (lit "root") XBT_INT32 [5; 0; 0; 0] [] []]) /\ CopyAll 5 fl true doc2 u4 (Some top) 192 = rret (Some top, u5) /\ el_child u5 top = Ok 0.
Proof. intro fl. split; [apply doc2_read|]. split; [apply doc2_copied|exact u5_empty]. Qed.
Print Assumptions C67_type_refuted.
(** Attributes get no new room in the file: a pool of 4096 bytes that may grow to 131072 has no place for the attribute of a number. *)
Theorem C67_room_refuted : forall fl, (exists k s T P F, life k s u4f T P F) /\ zlen u4f = 4096 /\ p_mmap_size u4f = Ok 131072 /\ read_bin_node 5 doc1 reader1 kid1 = rret (BNode (lit "root") XBT_NULL [] [(lit "id", XBT_INT32, [9; 0; 0; 0])] []) /\
  exists m', CopyAll 5 fl true doc1 u4f (Some top) kid1 = rret (None, m').
Proof. intro fl. split; [do 5 eexists; exact u4f_life|]. split; [vm_compute; reflexivity|]. split; [vm_compute; reflexivity|]. split; [vm_compute; reflexivity|apply u4f_refused]. Qed.
Print Assumptions C67_room_refuted.
