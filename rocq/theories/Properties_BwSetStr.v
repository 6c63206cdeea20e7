(** Setting the text of a child of an element in XBW pools. *)
From Verif Require Import Base Types Sort Xb XbWrite Bw BwSpec BwHist BwSym BwNamesSpec BwFileExamples BwLifeSpec BwTag BwTagSpec BwTagExamples BwSetStr BwSetStrSpec BwSetStrProofs BwSetStrTop BwSetStrExamples BwAlterExamples.

(** C74: in a pool with any history, setting the text of a child [x] of [p] has no effect if [x] has this text.  A text that fits into the space of the old one is stored there and nothing else
    changes.  For a longer one [x] is taken out and a new element with the same name, the text and the attributes of [x] is put behind the last child of [p]; all values and all other lists are the same.
    Missing: the place among the children (C74_order_refuted), the children of [x] (C74_children_refuted), attributes (C74_attribute_refuted), a full disk (C74_full_refuted), names for other types (C74_type_refuted). *)
Theorem C74_partial : forall k s m T P F p l1 x l2 A old room v disk i nm ty ok m', life k s m T P F -> In p (members F) -> owned F p true (l1 ++ x :: l2) -> k x = true -> owned F x false A -> text_of s m x old room ->
  cstring v -> zlen v < 2 ^ 29 -> el_id m x = Ok (Z.of_nat i) -> nth_error T i = Some (nm, ty) -> t_index m TAGS <> Ok 0 -> setStr disk m x p v = Ok (ok, m') ->
  v = old /\ ok = false /\ m' = m \/ v <> old /\ ok = true /\ zlen v < room /\ text_stored k s m T P F x v m' \/
  v <> old /\ ok = true /\ room <= zlen v /\ (exists t, In (ty, t) (tag_types (TStr v))) /\ exists n, text_moved k s m T P F p l1 x l2 A v n m'.
Proof. exact setStr_ok. Qed.
Print Assumptions C74_partial.
(** It does so whenever the name is one for texts and the file can grow. *)
Theorem C74_works : forall k s m T P F p l1 x l2 A old room v i nm ty t a M, life k s m T P F -> In p (members F) -> owned F p true (l1 ++ x :: l2) -> k x = true -> owned F x false A -> text_of s m x old room ->
  cstring v -> zlen v < 2 ^ 29 -> el_id m x = Ok (Z.of_nat i) -> nth_error T i = Some (nm, ty) -> t_index m TAGS <> Ok 0 -> In (ty, t) (tag_types (TStr v)) ->
  bytes m -> p_allocator m = Ok a -> p_mmap_size m = Ok M -> a + 4095 + tag_space (TStr v) <= M -> exists m', setStr true m x p v = Ok (if list_eq_dec Z.eq_dec old v then false else true, m').
Proof. exact setStr_works. Qed.
Print Assumptions C74_works.
Example C74_met : life kt st t10 tags4 [] Ft /\ In 140 (members Ft) /\ owned Ft 140 true ([] ++ 164 :: [192]) /\ kt 164 = true /\ owned Ft 164 false [244] /\ owned Ft 164 true [220] /\ text_of st t10 164 (lit "ab") 3 /\ cstring long /\ zlen long < 2 ^ 29 /\
  el_id t10 164 = Ok (Z.of_nat 2) /\ nth_error tags4 2 = Some (lit "any", XBT_VARIANT) /\ t_index t10 TAGS <> Ok 0 /\ In (XBT_VARIANT, XBT_STRING) (tag_types (TStr long)) /\ bytes t10 /\ p_allocator t10 = Ok 268 /\ p_mmap_size t10 = Ok 131072 /\ 268 + 4095 + tag_space (TStr long) <= 131072.
Proof. exact t10_met. Qed.
(** The first of two children gets a longer text and is the last one then. *)
Theorem C74_order_refuted : exists k s m T P F m' n k' s' F', life k s m T P F /\ owned F 140 true [164; 192] /\ setStr true m 164 140 long = Ok (true, m') /\ life k' s' m' T P F' /\ owned F' 140 true [192; n] /\ n <> 192 /\ bw_getStr m' n = Ok (Some long).
Proof. destruct t10_moves as (m' & n & k' & s' & F' & E & L & O & _ & _ & N & G). exists kt, st, t10, tags4, [], Ft, m', n, k', s', F'. split; [exact t10_life|]. split; [left; right; right; left; reflexivity|auto]. Qed.
Print Assumptions C74_order_refuted.
(** Its own children are lost. *)
Theorem C74_children_refuted : exists k s m T P F m' n k' s' F', life k s m T P F /\ owned F 164 true [220] /\ setStr true m 164 140 long = Ok (true, m') /\ life k' s' m' T P F' /\ owned F' 140 true [192; n] /\ owned F' n true [].
Proof. destruct t10_moves as (m' & n & k' & s' & F' & E & L & O & _ & O2 & _ & _). exists kt, st, t10, tags4, [], Ft, m', n, k', s', F'. split; [exact t10_life|]. split; [left; right; left; reflexivity|auto]. Qed.
Print Assumptions C74_children_refuted.
(** A longer text for an attribute: the attribute is lost, and there is one more child. *)
Theorem C74_attribute_refuted : exists m m', (exists k s T P F, life k s m T P F) /\ el_attr m 164 = Ok 244 /\ bw_getStr m 244 = Ok (Some (lit "ab")) /\ el_child m 164 = Ok 220 /\ el_next m 220 = Ok 220 /\ setStr true m 244 164 long = Ok (true, m') /\
  el_attr m' 164 = Ok 0 /\ el_next m' 220 = Ok 272 /\ bw_getStr m' 272 = Ok (Some long).
Proof. exists w3, w4. split; [eexists _, _, _, _, _; exact w3_life|exact w4_tag]. Qed.
Print Assumptions C74_attribute_refuted.
(** A longer text for an element with a name that has no texts any more: a null pointer is followed. *)
Theorem C74_type_refuted : forall k s m T P F p l1 x l2 A old room v disk i nm ty, life k s m T P F -> In p (members F) -> owned F p true (l1 ++ x :: l2) -> k x = true -> owned F x false A -> text_of s m x old room ->
  cstring v -> zlen v < 2 ^ 29 -> el_id m x = Ok (Z.of_nat i) -> nth_error T i = Some (nm, ty) -> t_index m TAGS <> Ok 0 -> (forall t, ~ In (ty, t) (tag_types (TStr v))) -> v <> old -> room <= zlen v -> forall r, setStr disk m x p v <> Ok r.
Proof. exact setStr_crash. Qed.
Print Assumptions C74_type_refuted.
Example C74_type_met : life kt st t11 tags5 [] Ft /\ In 140 (members Ft) /\ owned Ft 140 true ([] ++ 164 :: [192]) /\ kt 164 = true /\ owned Ft 164 false [244] /\ text_of st t11 164 (lit "ab") 3 /\ cstring long /\ zlen long < 2 ^ 29 /\
  el_id t11 164 = Ok (Z.of_nat 2) /\ nth_error tags5 2 = Some (lit "any", XBT_BLOB) /\ t_index t11 TAGS <> Ok 0 /\ (forall t, ~ In (XBT_BLOB, t) (tag_types (TStr long))) /\ long <> lit "ab" /\ 3 <= zlen long.
Proof. exact t11_met. Qed.
(** The same if the file cannot grow. *)
Theorem C74_full_refuted : exists k s m T P F v, life k s m T P F /\ setStr true m 164 140 v <> Ub /\ setStr false m 164 140 v = Ub.
Proof. exists kt, st, t10, tags4, [], Ft, page. split; [exact t10_life|exact full]. Qed.
Print Assumptions C74_full_refuted.
