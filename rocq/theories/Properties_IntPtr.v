(** Theorems about the getters of numbers that return pointers (C93). *)
From Verif Require Import Base NumSpec Types RoundtripProofs Sort SymtabSpec Xb XbSpec XbWrite DocSpec NavSpec DocExamples IntPtr IntPtrSpec IntPtrProofs IntPtrExamples.

(** C93: the number behind a pointer that a getter returned stays the same while further numbers are fetched,
    from this or from other files.  For values of elements that are 32-bit integers, whatever is fetched later: *)
Theorem C93_value_partial : forall fl m filename modified root img k path u, zlen m <= INT_MAX -> cstring filename -> document_fits root -> no_hex root ->
  Make_xb fl m filename modified root = rret img -> sub root path = Some u -> forall n, int32 n -> value_of u = Some (sdec n) ->
  exists R x y, Initialize (S k) img = rret R /\ rd_root R = Some x /\ walk img x path = Ok (Some y) /\
    forall st, exists p st', fetch st (ItemIntPtr img (Some y)) = Ok (Some p, st') /\ forall cs st2, fetch_all st' cs = Ok st2 -> deref st2 p = Ok n.
Proof. exact value_for_good. Qed.
Print Assumptions C93_value_partial.
(** For attributes, if all attributes of that name in the document are 32-bit integers: *)
Theorem C93_attribute_partial : forall fl m filename modified root img k path u, zlen m <= INT_MAX -> cstring filename -> document_fits root -> no_hex root ->
  Make_xb fl m filename modified root = rret img -> sub root path = Some u ->
  forall i name n, int32 n -> nth_error (attrs_of u) i = Some (name, sdec n) -> name <> lit "et-tecera" ->
  (forall w v, In w (elements root) -> In (name, v) (attrs_of w) -> exists j, int32 j /\ v = sdec j) ->
  exists R x y q, Initialize (S k) img = rret R /\ rd_root R = Some x /\ walk img x path = Ok (Some y) /\ getParamByIndex img (Some y) (Z.of_nat i) = Ok (Some q) /\
    forall st, exists p st', fetch st (ParamInt32Ptr img (Some q) (Some y) XBT_INT32) = Ok (Some p, st') /\ forall cs st2, fetch_all st' cs = Ok st2 -> deref st2 p = Ok n.
Proof. exact attr_for_good. Qed.
Print Assumptions C93_attribute_partial.
(** In any file: until the same getter is called again. *)
Theorem C93_other_partial : forall st c p st' v cs st2, fetch st c = Ok (Some p, st') -> deref st' p = Ok v ->
  Forall (fun c2 => getter_of c2 <> getter_of c) cs -> fetch_all st' cs = Ok st2 -> deref st2 p = Ok v.
Proof. exact other_getters. Qed.
Print Assumptions C93_other_partial.
(** Read at once, the pointers of three getters deliver the number of the attribute or element they were asked for. *)
Theorem C93_now_partial : forall st m q x,
  (forall ty, param_getInt32 m q x ty = obind (fetch st (ParamInt32Ptr m q x ty)) (fun '(p, st) => match p with Some p => obind (deref st p) (fun v => Ok (Some v)) | None => Ok None end)) /\
  param_getInt64 m q x = obind (fetch st (ParamInt64Ptr m q x)) (fun '(p, st) => match p with Some p => obind (deref st p) (fun v => Ok (Some v)) | None => Ok None end) /\
  getInt64 m x = obind (fetch st (ItemInt64Ptr m x)) (fun '(p, st) => match p with Some p => obind (deref st p) (fun v => Ok (Some v)) | None => Ok None end).
Proof. exact (fun st m q x => conj (fun ty => param32_now m q x ty st) (conj (param64_now m q x st) (item64_now m x st))). Qed.
Print Assumptions C93_now_partial.
Example C93_met : forall fl, document_fits counts /\ no_hex counts /\ (exists img, Make_xb fl (zrepeat 0 800) (lit "f.xml") 0 counts = rret img) /\
  (exists u, sub counts [0%nat] = Some u /\ value_of u = Some (sdec 12) /\ nth_error (attrs_of u) 0 = Some (lit "n", sdec (-4))) /\
  (forall w v, In w (elements counts) -> In (lit "n", v) (attrs_of w) -> exists j, int32 j /\ v = sdec j) /\
  twice_values fl counts ItemIntPtr [0%nat] [1%nat] = Ok (12, 12, 15) /\
  twice_attrs fl counts (fun m q x => ParamInt32Ptr m q x XBT_INT32) [] 0 [0%nat] 0 = Ok (3, 3, -4).
Proof.
  intros fl. split; [exact counts_fit|]. split; [exact counts_no_hex|]. split; [eexists; vm_compute; reflexivity|]. split; [eexists; repeat split; reflexivity|].
  split; [exact counts_columns|]. split; vm_compute; reflexivity.
Qed.

(** Attributes that are stored as texts: the first pointer reads the second number. *)
Theorem C93_attribute_refuted : forall fl, exists root a b, document_fits root /\ sub root [0%nat] = Some a /\ sub root [1%nat] = Some b /\
  attrs_of a = [(lit "a", lit "12")] /\ attrs_of b = [(lit "a", lit "15")] /\
  twice_attrs fl root (fun m q x => ParamInt32Ptr m q x XBT_INT32) [0%nat] 0 [1%nat] 0 = Ok (12, 15, 15) /\
  twice_attrs fl root ParamInt64Ptr [0%nat] 0 [1%nat] 0 = Ok (12, 15, 15).
Proof. intros fl. exists sizes. eexists. eexists. split; [apply document_fitsb_ok; reflexivity|]. repeat (split; [reflexivity|]). split; vm_compute; reflexivity. Qed.
Print Assumptions C93_attribute_refuted.
(** Elements whose value is a text: the 32-bit getter delivers the number of the first one for the second, and the
    64-bit getter overwrites the first number. *)
Theorem C93_value_refuted : forall fl, exists root a b, document_fits root /\ sub root [0%nat] = Some a /\ sub root [1%nat] = Some b /\
  value_of a = Some (lit "12 mm") /\ value_of b = Some (lit "15 mm") /\
  twice_values fl root ItemIntPtr [0%nat] [1%nat] = Ok (12, 12, 12) /\ twice_values fl root ItemInt64Ptr [0%nat] [1%nat] = Ok (12, 15, 15).
Proof. intros fl. exists lengths. eexists. eexists. split; [apply document_fitsb_ok; reflexivity|]. repeat (split; [reflexivity|]). split; vm_compute; reflexivity. Qed.
Print Assumptions C93_value_refuted.
