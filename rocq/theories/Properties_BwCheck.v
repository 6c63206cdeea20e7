(** Theorems about the checks of a pool (C103) and about the reports of its errors (C104). *)
From Verif Require Import Base Types Sort Symtab Xb XbWrite XbBin Bw BwSpec BwHist BwSym BwNamesSpec BwLifeSpec BwExamples BwFileExamples BwSetExamples BwAny BwWalkExamples BwCheck BwCheckProofs BwCheckExamples.

(** C103: the checks of a pool accept every pool that the library has made and used. *)
Theorem C103_id : forall k s m T P F, life k s m T P F -> check_id m = Ok true.
Proof. exact id_accepted. Qed.
Print Assumptions C103_id.
Example C103_id_example : check_id w1 = Ok true.
Proof. exact (C103_id _ _ _ _ _ _ w1_life). Qed.
(** Refuted for the tables of names: one is accepted exactly if it is empty. *)
Theorem C103_tables_partial : forall k s m T P F, life k s m T P F -> (T = [] -> checkTable m TAGS = Ok true) /\ (P = [] -> checkTable m PARAMS = Ok true).
Proof. exact empty_accepted. Qed.
Print Assumptions C103_tables_partial.
Theorem C103_tables_refuted : forall k s m T P F, life k s m T P F -> (T <> [] -> checkTable m TAGS = Ok false) /\ (P <> [] -> checkTable m PARAMS = Ok false).
Proof. exact others_rejected. Qed.
Print Assumptions C103_tables_refuted.
Example C103_tables_example : checkTable w1 TAGS = Ok false /\ checkTable w1 PARAMS = Ok true /\ t_index w1 TAGS <> Ok 0.
Proof. split; [apply (C103_tables_refuted _ _ _ _ _ _ w1_life); discriminate|]. split; [apply (C103_tables_partial _ _ _ _ _ _ w1_life); reflexivity|]. vm_compute. discriminate. Qed.

(** C104: an error in a pool is reported, and the report names the document: by the tag of its root, [nm], with the first call. *)
Theorem C104_root_partial : forall k s m T P F e, life k s m T P F -> p_root m = Ok e -> In e (members F) -> forall calls fuel pl i nm ty, HEADER < e -> k e = true -> el_id m e = Ok (Z.of_nat i) -> nth_error T i = Some (nm, ty) ->
  (2 * List.length T < fuel)%nat -> getDocTypeName (S calls) fuel m pl = rret nm.
Proof. exact root_named. Qed.
Print Assumptions C104_root_partial.
Theorem C104_builtin_partial : forall k s m T P F e, life k s m T P F -> p_root m = Ok e -> In e (members F) -> forall calls fuel pl id, HEADER < e -> k e = true -> el_id m e = Ok id -> id < 0 ->
  getDocTypeName (S calls) fuel m pl = rret (XTNR2str id).
Proof. exact root_builtin. Qed.
Print Assumptions C104_builtin_partial.
(** As long as there is no root, and also if the root is the first thing in the pool, by the name of the file without its directory: *)
Theorem C104_file_partial : forall k s m T P F e calls fuel d b, life k s m T P F -> p_root m = Ok e -> e <= HEADER -> ~ In 47 b ->
  getDocTypeName (S calls) fuel m (Some (Some b)) = rret b /\ getDocTypeName (S calls) fuel m (Some (Some (d ++ 47 :: b))) = rret b.
Proof. exact file_named. Qed.
Print Assumptions C104_file_partial.
(** Refuted if the root is an attribute or has a tag that is not registered: the report of any error calls itself without end. *)
Theorem C104_unknown_refuted : forall k s m T P F e, life k s m T P F -> p_root m = Ok e -> In e (members F) -> forall calls fuel pl id, HEADER < e -> el_id m e = Ok id -> k e = false \/ zlen T <= id ->
  getDocTypeName calls fuel m pl = None.
Proof. exact root_endless. Qed.
Print Assumptions C104_unknown_refuted.

Example C104_root_example : getDocTypeName 1 20 w1 None = rret (lit "root").
Proof. apply (C104_root_partial k4 z4 w1 tags6 [] F4 164 w1_life ltac:(vm_compute; reflexivity) ltac:(cbn; tauto) 0 20 None 0 (lit "root") XBT_NULL); try reflexivity. cbn. lia. Qed.
Example C104_builtin_example : getDocTypeName 1 20 y1 None = rret (lit "meta_root").
Proof. apply (C104_builtin_partial k1 z1 y1 tags6 [] _ 164 y1_life ltac:(vm_compute; reflexivity) ltac:(cbn; tauto) 0 20 None (-2)); reflexivity. Qed.
Example C104_unknown_example : forall calls fuel pl, getDocTypeName calls fuel z9 pl = None.
Proof. intros. apply (C104_unknown_refuted k1 z1 z9 tags6 [] _ 164 z9_life ltac:(vm_compute; reflexivity) ltac:(cbn; tauto) calls fuel pl 6); [reflexivity|reflexivity|right; vm_compute; discriminate]. Qed.
Example C104_file_example : getDocTypeName 1 20 s0 (Some (Some (lit "/tmp/a.xbw"))) = rret (lit "a.xbw").
Proof. apply (C104_file_partial _ _ s0 _ _ _ 0 0 20 (lit "/tmp") (lit "a.xbw") s0_life); [vm_compute; reflexivity|unfold HEADER; lia|vm_compute; intuition discriminate]. Qed.
