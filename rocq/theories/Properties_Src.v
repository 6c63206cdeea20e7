(** C65: printing a source. *)
From Verif Require Import Base Types Sort DocSpec ReadSpec RingProofs XmlOut XmlSpec Xb XbWrite XbBin Bw BwSpec BwHist BwSym BwNamesSpec BwLifeSpec BwSource BwSourceSpec SrcStream SrcSpec SrcProofs SrcTop BwExamples BwFileExamples BwNamesTop BwSetExamples BwAttrExamples SrcTop SrcExamples.

Theorem C65_pool_partial : forall (k : Z -> bool) (s : Z -> Z) (m : list Z) (T P : names) (F : forest) (x : Z) (t : bnode) (n : node) (fl : floats) (buf : list Z),
  life k s m T P F -> t_index m TAGS <> Ok 0 -> (P <> [] -> t_index m PARAMS <> Ok 0) -> p_root m = Ok x -> tree_at k s m T P F x t -> pictures fl t n ->
  (forall u, In u (elements n) -> expressible u) -> floats_ok fl -> 256 < zlen buf -> zlen buf mod 4 <> 2 ->
  exists bound text, (forall fuel, (bound <= fuel)%nat -> pool_print fuel fl buf m = rret text) /\ XmlSpec.says text = Some (normal n).
Proof. exact print_source. Qed.
Print Assumptions C65_pool_partial.
Example C65_pool_meets : exists bound text, (forall fuel, (bound <= fuel)%nat -> pool_print fuel nofl (zrepeat 0 257) u3 = rret text) /\ XmlSpec.says text = Some (normal doc3).
Proof.
  apply (C65_pool_partial ku su u3 tags1 params4 Fu root tree3 doc3 nofl (zrepeat 0 257) u3_life); [vm_compute; discriminate|intros _; vm_compute; discriminate|vm_compute; reflexivity|exact u3_tree|exact tree3_pictures|exact doc3_expressible|exact nofl_ok|vm_compute; reflexivity|vm_compute; discriminate].
Qed.

Theorem C65_hex_refuted : exists k s m T P F x name v fl buf text, life k s m T P F /\ p_root m = Ok x /\ tree_at k s m T P F x (BNode name XBT_HEX v [] []) /\ complete XBT_HEX v /\ xml_name name /\ floats_ok fl /\ 256 < zlen buf /\
  pool_print 9 fl buf m = rret text /\ In 0 text /\ XmlSpec.says text = None.
Proof. exact hex_spoils. Qed.
Print Assumptions C65_hex_refuted.

(** DOUBLE and IPv6 values end the process. *)
Theorem C65_wide_refuted : forall ty, ty = XBT_DOUBLE \/ ty = XBT_IPv6 -> exists k s m T P F x v, life k s m T P F /\ p_root m = Ok x /\ tree_at k s m T P F x (BNode (lit "root") ty v [] []) /\
  forall fl, pool_print 9 fl (zrepeat 0 257) m = Some Ub.
Proof. intros ty H. exists kw, (sw ty), (w2 ty), tags1, params4, Fw, wide. eexists. split; [exact (w2_life ty H)|]. split; [destruct H as [-> | ->]; vm_compute; reflexivity|]. split; [exact (w2_tree ty H)|]. intros fl. exact (w2_aborts ty fl H). Qed.
Print Assumptions C65_wide_refuted.

Theorem C65_text_value_refuted : exists t fl buf text, (forall u, In u (elements t) -> expressible u) /\ value_of t <> None /\ 256 < zlen buf /\ text_stream 9 fl buf t 0 0 = rret text /\
  XmlSpec.says text <> None /\ XmlSpec.says text <> Some (normal t).
Proof. exact value_lost. Qed.
Print Assumptions C65_text_value_refuted.

Theorem C65_text_children_refuted : forall (chunks : nat) (fl : floats) (buf : list Z) (t : node) (deep siblings : Z),
  (0 < chunks)%nat -> 256 < zlen buf -> kids_of t <> [] -> text_stream chunks fl buf t deep siblings = rub.
Proof. exact children_abort. Qed.
Print Assumptions C65_text_children_refuted.
Example C65_text_children_meets : text_stream 9 nofl (zrepeat 0 257) doc3 0 0 = rub.
Proof. apply C65_text_children_refuted; [lia|vm_compute; reflexivity|discriminate]. Qed.

Theorem C65_text_partial : forall (chunks : nat) (fl : floats) (buf : list Z) (t : node), kids_of t = [] -> value_of t = None -> expressible t ->
  exists text, text_stream chunks fl buf t 0 0 = rret text /\ XmlSpec.says text = Some t.
Proof. exact lone_printed. Qed.
Print Assumptions C65_text_partial.
Example C65_text_meets : exists text, text_stream 9 nofl (zrepeat 0 257) (Node (lit "root") None [(lit "id", lit "<9>")] []) 0 0 = rret text /\ XmlSpec.says text = Some (Node (lit "root") None [(lit "id", lit "<9>")] []).
Proof. apply C65_text_partial; [reflexivity|reflexivity|]. exact lone_expressible. Qed.
