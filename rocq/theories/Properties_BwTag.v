(** Making elements with values for XBW pools. *)
From Verif Require Import Base Types Sort Xb XbWrite Bw BwSpec BwHist BwSym BwNamesSpec BwLifeSpec BwAttr BwTag BwTagSpec BwTagTop BwSetExamples BwFileExamples BwTagExamples.

(** C66: in a pool with any history, the call for the type of a registered and indexed name makes a new element on its own with this name, of the type that is meant, with this
    value: getData and the typed getters deliver it.  What was in the pool is byte for byte as before, also if NULL is returned.
    Missing: numbers of 32 bits under names for any type (C66_variant_refuted), getTime (C66_time_refuted, C62_time_refuted), sizes beyond 2^29. *)
Theorem C66_partial : forall c k s m T P F i nm ty t disk r m', life k s m T P F -> nth_error T i = Some (nm, ty) -> t_index m TAGS <> Ok 0 -> tag_args c -> In (ty, t) (tag_types c) ->
  tag_run c disk m (Z.of_nat i) = Ok (r, m') ->
  r = None /\ life k s m' T P F /\ (forall e, In e (members F) -> rd m' e (s e) = rd m e (s e)) \/
  exists x data content, r = Some x /\ tag_done k s m T P F (Z.of_nat i) t x m' /\ bw_getData m' x = Ok (t, data, content) /\ tag_content c t content /\ tag_getter c ty m' x /\ t_index m' PARAMS = t_index m PARAMS /\ t_index m' TAGS = t_index m TAGS.
Proof. exact tag_makes. Qed.
Print Assumptions C66_partial.
(** It does so whenever the file can grow: the space of the mapping is enough and the disk has room. *)
Theorem C66_succeeds : forall c k s m T P F i nm ty t a M, life k s m T P F -> nth_error T i = Some (nm, ty) -> t_index m TAGS <> Ok 0 -> tag_args c -> In (ty, t) (tag_types c) ->
  bytes m -> p_allocator m = Ok a -> p_mmap_size m = Ok M -> a + 4095 + tag_space c <= M -> exists x m', tag_run c true m (Z.of_nat i) = Ok (Some x, m').
Proof. exact tag_succeeds. Qed.
Print Assumptions C66_succeeds.
Example C66_met : life kg sg g6 tags4 [] Fg /\ nth_error tags4 3 = Some (lit "text", XBT_BLOB_STRING) /\ t_index g6 TAGS <> Ok 0 /\ tag_args (TStr (lit "ab")) /\ In (XBT_BLOB_STRING, XBT_BLOB_STRING) (tag_types (TStr (lit "ab"))) /\
  bytes g6 /\ p_allocator g6 = Ok 164 /\ p_mmap_size g6 = Ok 131072 /\ 164 + 4095 + tag_space (TStr (lit "ab")) <= 131072.
Proof.
  split; [exact g6_life|]. split; [reflexivity|]. split; [vm_compute; discriminate|]. split; [split; [repeat constructor; vm_compute; split; discriminate|reflexivity]|]. split; [right; right; left; reflexivity|].
  split; [exact g6_bytes|]. split; [vm_compute; reflexivity|]. split; [vm_compute; reflexivity|]. vm_compute. discriminate.
Qed.
(** Values of other types are refused without any effect, except by tag() (C66_null_refuted). *)
Theorem C66_refused : forall c k s m T P F i nm ty disk, life k s m T P F -> nth_error T i = Some (nm, ty) -> t_index m TAGS <> Ok 0 -> tag_args c -> (forall t, ~ In (ty, t) (tag_types c)) -> c <> TNone -> (forall v, c = TInt32 v -> ty <> XBT_VARIANT) ->
  tag_run c disk m (Z.of_nat i) = Ok (None, m).
Proof. exact tag_refuses. Qed.
Print Assumptions C66_refused.
Example C66_refused_met : life kg sg g6 tags4 [] Fg /\ nth_error tags4 3 = Some (lit "text", XBT_BLOB_STRING) /\ (forall t, ~ In (XBT_BLOB_STRING, t) (tag_types (TInt64 5))) /\ TInt64 5 <> TNone.
Proof. split; [exact g6_life|]. split; [reflexivity|]. split; [intros t [E|[E|[]]]; discriminate|discriminate]. Qed.
(** tag() takes names of all types.  The typed getter then delivers what happens to follow the element: here the position of the next one. *)
Theorem C66_null_refuted : exists m x y m1 m2, (exists k s T P F, life k s m T P F) /\ bw_tag true m 1 = Ok (Some x, m1) /\ bw_getInt32 m1 x = Ok (Some 0) /\ bw_tag true m1 1 = Ok (Some y, m2) /\ bw_getInt32 m2 x = Ok (Some y).
Proof. exists g6, 164, 188, h1, h2. split; [exists kg, sg, tags4, [], Fg; exact g6_life|]. split; [exact h1_made|]. split; [exact h1_first|]. split; [exact h2_made|exact h2_first]. Qed.
Print Assumptions C66_null_refuted.
(** tagInt32 lets names for any type pass, and never makes an element for them. *)
Theorem C66_variant_refuted : forall v k s m T P F i nm disk r m', life k s m T P F -> nth_error T i = Some (nm, XBT_VARIANT) -> t_index m TAGS <> Ok 0 -> tag_run (TInt32 v) disk m (Z.of_nat i) = Ok (r, m') -> r = None.
Proof. exact tag_variant. Qed.
Print Assumptions C66_variant_refuted.
(** A time under a name for any type is stored, and getTime does not deliver it. *)
Theorem C66_time_refuted : forall v k s m T P F i nm disk x m', life k s m T P F -> nth_error T i = Some (nm, XBT_VARIANT) -> t_index m TAGS <> Ok 0 -> tag_run (TTime v) disk m (Z.of_nat i) = Ok (Some x, m') -> el_type m' x = Ok XBT_UNIX_TIME /\ bw_getTime m' x = Ok None.
Proof. exact tag_time. Qed.
Print Assumptions C66_time_refuted.
Example C66_variant_met : life kg sg g6 tags4 [] Fg /\ nth_error tags4 2 = Some (lit "any", XBT_VARIANT) /\ t_index g6 TAGS <> Ok 0 /\ (exists x m', tag_run (TTime 7) true g6 (Z.of_nat 2) = Ok (Some x, m')).
Proof.
  split; [exact g6_life|]. split; [reflexivity|]. split; [vm_compute; discriminate|]. apply (tag_succeeds (TTime 7) kg sg g6 tags4 [] Fg 2 (lit "any") XBT_VARIANT XBT_UNIX_TIME 164 131072); [exact g6_life|reflexivity|vm_compute; discriminate|exact I|right; left; reflexivity|exact g6_bytes|vm_compute; reflexivity|vm_compute; reflexivity|vm_compute; discriminate].
Qed.
