(** A root with two texts, the first one with an attribute and a child; the names are those of BwTagExamples. *)
From Verif Require Import Base Types Sort Xb XbWrite Bw BwSpec BwHist BwSym BwFile BwReg BwFileSpec BwExamples BwFileExamples BwNamesSpec BwNamesTop BwAlter BwLifeSpec BwSet BwSetExamples BwAttr BwAttrExamples BwTag BwTagSpec BwTagTop BwTagExamples BwSource BwSourceSpec BwSourceExamples BwSetStr BwSetStrSpec BwSetStrProofs BwSetStrTop.

Definition t1 := Eval vm_compute in amem (fresh true g6 2 XBT_STRING 2 ELEMENT).
Definition t2 := Eval vm_compute in mem_of (wr t1 188 (lit "ab" ++ [0])).
Definition t3 := Eval vm_compute in trace_of t2 (add t2 140 164).
Definition t4 := Eval vm_compute in amem (fresh true t3 2 XBT_STRING 2 ELEMENT).
Definition t5 := Eval vm_compute in mem_of (wr t4 216 (lit "cd" ++ [0])).
Definition t6 := Eval vm_compute in trace_of t5 (add t5 140 192).
Definition t7 := Eval vm_compute in amem (fresh true t6 0 XBT_NULL 0 ELEMENT).
Definition t8 := Eval vm_compute in trace_of t7 (add t7 164 220).
Definition t9 := Eval vm_compute in amem (fresh true t8 0 XBT_NULL 0 0).
Definition t10 := Eval vm_compute in trace_of t9 (add t9 164 244).
Definition kt := set (set (set (set kg 164 true) 192 true) 220 true) 244 false.
Definition st := set (set (set (set sg 164 28) 192 28) 220 24) 244 24.
Definition Ft : forest := [(Some (164, false), [244]); (Some (164, true), [220]); (Some (140, true), [164; 192]); (None, [140])].
Ltac linked m m' p x E := destruct (add m p x) as [[? ?]| |] eqn:E; try (vm_compute in E; discriminate); match type of E with _ = Ok (_, ?tr) => replace m' with (final m tr) by (vm_compute in E; injection E as <- <-; vm_compute; reflexivity) end.
Definition k8 := set (set (set kg 164 true) 192 true) 220 true.
Definition s8 := set (set (set sg 164 28) 192 28) 220 24.
Definition F8 : forest := [(Some (164, true), [220]); (Some (140, true), [164; 192]); (None, [140])].
Lemma t8_life : life k8 s8 t8 tags4 [] F8.
Proof.
  assert (L1 : life (set kg 164 true) (set sg 164 28) t1 tags4 [] [(None, [164]); (None, [140])]) by (apply (life_new _ _ g6 tags4 [] Fg true 2 XBT_STRING 2 3 ELEMENT 164 t1 g6_life); small).
  assert (L2 : life (set kg 164 true) (set sg 164 28) t2 tags4 [] [(None, [164]); (None, [140])]) by (apply (life_write _ _ t1 _ _ _ 164 188 (lit "ab" ++ [0]) _ L1); [left; reflexivity|small|vm_compute; discriminate|vm_compute; reflexivity]).
  assert (L3 : life (set kg 164 true) (set sg 164 28) t3 tags4 [] [(Some (140, true), [164]); (None, [140])]).
  { linked t2 t3 140 164 E. eapply life_add; [exact L2|right; left; reflexivity| |exact E]. apply (adds_first (set kg 164 true) 140 164 _ [] [] [(None, [140])]); [reflexivity|]. intros L [Q|[]]. discriminate. }
  assert (L4 : life (set (set kg 164 true) 192 true) (set (set sg 164 28) 192 28) t4 tags4 [] [(None, [192]); (Some (140, true), [164]); (None, [140])]) by (apply (life_new _ _ t3 tags4 [] _ true 2 XBT_STRING 2 3 ELEMENT 192 t4 L3); small).
  assert (L5 : life (set (set kg 164 true) 192 true) (set (set sg 164 28) 192 28) t5 tags4 [] [(None, [192]); (Some (140, true), [164]); (None, [140])]) by (apply (life_write _ _ t4 _ _ _ 192 216 (lit "cd" ++ [0]) _ L4); [left; reflexivity|small|vm_compute; discriminate|vm_compute; reflexivity]).
  assert (L6 : life (set (set kg 164 true) 192 true) (set (set sg 164 28) 192 28) t6 tags4 [] [(Some (140, true), [164; 192]); (None, [140])]).
  { linked t5 t6 140 192 E. eapply life_add; [exact L5|right; right; left; reflexivity| |exact E]. apply (adds_last (set (set kg 164 true) 192 true) 140 192 _ [] [] [164] [(None, [140])]). reflexivity. }
  assert (L7 : life (set (set (set kg 164 true) 192 true) 220 true) (set (set (set sg 164 28) 192 28) 220 24) t7 tags4 [] [(None, [220]); (Some (140, true), [164; 192]); (None, [140])]) by (apply (life_new _ _ t6 tags4 [] _ true 0 XBT_NULL 0 0 ELEMENT 220 t7 L6); small).
  linked t7 t8 164 220 E. eapply life_add; [exact L7|right; left; reflexivity| |exact E]. apply (adds_first (set (set (set kg 164 true) 192 true) 220 true) 164 220 _ [] [] [(Some (140, true), [164; 192]); (None, [140])]); [reflexivity|]. intros L [Q|[Q|[]]]; discriminate.
Qed.
Lemma t10_life : life kt st t10 tags4 [] Ft.
Proof.
  assert (L9 : life kt st t9 tags4 [] [(None, [244]); (Some (164, true), [220]); (Some (140, true), [164; 192]); (None, [140])]) by (apply (life_new _ _ t8 tags4 [] _ true 0 XBT_NULL 0 0 0 244 t9 t8_life); small).
  linked t9 t10 164 244 E. eapply life_add; [exact L9|right; right; left; reflexivity| |exact E]. apply (adds_first kt 164 244 _ [] [] [(Some (164, true), [220]); (Some (140, true), [164; 192]); (None, [140])]); [reflexivity|]. intros L [Q|[Q|[Q|[]]]]; discriminate.
Qed.
Lemma t10_bytes : bytes t10.
Proof. assert (B : forallb (fun b => (0 <=? b) && (b <? 256)) t10 = true) by (vm_compute; reflexivity). rewrite forallb_forall in B. apply Forall_forall. intros b I. specialize (B b I). unfold is_byte. lia. Qed.
Definition long := lit "abcd".
Lemma long_ok : cstring long /\ zlen long < 2 ^ 29 /\ long <> lit "ab".
Proof. split; [repeat constructor; vm_compute; split; discriminate|]. split; [reflexivity|discriminate]. Qed.
Lemma t10_text : text_of st t10 164 (lit "ab") 3.
Proof. split; [vm_compute; reflexivity|]. left. split; [vm_compute; reflexivity|]. split; [reflexivity|vm_compute; discriminate]. Qed.
Lemma t10_met : life kt st t10 tags4 [] Ft /\ In 140 (members Ft) /\ owned Ft 140 true ([] ++ 164 :: [192]) /\ kt 164 = true /\ owned Ft 164 false [244] /\ owned Ft 164 true [220] /\ text_of st t10 164 (lit "ab") 3 /\ cstring long /\ zlen long < 2 ^ 29 /\
  el_id t10 164 = Ok (Z.of_nat 2) /\ nth_error tags4 2 = Some (lit "any", XBT_VARIANT) /\ t_index t10 TAGS <> Ok 0 /\ In (XBT_VARIANT, XBT_STRING) (tag_types (TStr long)) /\ bytes t10 /\ p_allocator t10 = Ok 268 /\ p_mmap_size t10 = Ok 131072 /\ 268 + 4095 + tag_space (TStr long) <= 131072.
Proof.
  split; [exact t10_life|]. split; [vm_compute; tauto|]. split; [left; right; right; left; reflexivity|]. split; [reflexivity|]. split; [left; left; reflexivity|]. split; [left; right; left; reflexivity|]. split; [exact t10_text|]. split; [apply long_ok|]. split; [apply long_ok|].
  split; [vm_compute; reflexivity|]. split; [reflexivity|]. split; [vm_compute; discriminate|]. split; [right; left; reflexivity|]. split; [exact t10_bytes|]. split; [vm_compute; reflexivity|]. split; [vm_compute; reflexivity|vm_compute; discriminate].
Qed.
(** The text gets longer: the first child becomes the last one and loses its child. *)
Lemma t10_moves : exists m' n k' s' F', setStr true t10 164 140 long = Ok (true, m') /\ life k' s' m' tags4 [] F' /\ owned F' 140 true [192; n] /\ owned F' n false [244] /\ owned F' n true [] /\ n <> 192 /\ bw_getStr m' n = Ok (Some long).
Proof.
  destruct t10_met as (H1 & H2 & H3 & H4 & H5 & _ & H6 & H7 & H8 & H9 & H10 & H11 & H12 & H13 & H14 & H15 & H16).
  destruct (setStr_works _ _ _ _ _ _ _ _ _ _ _ _ _ _ _ _ _ _ _ _ H1 H2 H3 H4 H5 H6 H7 H8 H9 H10 H11 H12 H13 H14 H15 H16) as [m' E]. change (if list_eq_dec Z.eq_dec (lit "ab") long then false else true) with true in E.
  destruct (setStr_ok _ _ _ _ _ _ _ _ _ _ _ _ _ _ _ _ _ _ _ _ H1 H2 H3 H4 H5 H6 H7 H8 H9 H10 H11 E) as [(Q & _)|[(_ & _ & Q & _)|(_ & _ & _ & _ & n & k' & s' & F' & L' & _ & NN & _ & GS & _ & O1 & O2 & O3 & _)]]; [discriminate Q|vm_compute in Q; discriminate Q|].
  exists m', n, k', s', F'. split; [exact E|]. split; [exact L'|]. split; [exact O1|]. split; [exact O2|]. split; [exact O3|]. split; [|exact GS]. intros ->. apply NN. vm_compute. tauto.
Qed.
(** The type of the name is changed before. *)
Definition t11 := Eval vm_compute in rmem (alterTag 20 t10 2 XBT_BLOB).
Definition tags5 : names := [(lit "root", XBT_NULL); (lit "int", XBT_INT32); (lit "any", XBT_BLOB); (lit "text", XBT_BLOB_STRING)].
Lemma t11_life : life kt st t11 tags5 [] Ft.
Proof. exact (life_alter_tag _ _ t10 tags4 [] Ft 20 2 XBT_BLOB true t11 t10_life ltac:(vm_compute; reflexivity)). Qed.
Lemma t11_met : life kt st t11 tags5 [] Ft /\ In 140 (members Ft) /\ owned Ft 140 true ([] ++ 164 :: [192]) /\ kt 164 = true /\ owned Ft 164 false [244] /\ text_of st t11 164 (lit "ab") 3 /\ cstring long /\ zlen long < 2 ^ 29 /\
  el_id t11 164 = Ok (Z.of_nat 2) /\ nth_error tags5 2 = Some (lit "any", XBT_BLOB) /\ t_index t11 TAGS <> Ok 0 /\ (forall t, ~ In (XBT_BLOB, t) (tag_types (TStr long))) /\ long <> lit "ab" /\ 3 <= zlen long.
Proof.
  split; [exact t11_life|]. split; [vm_compute; tauto|]. split; [left; right; right; left; reflexivity|]. split; [reflexivity|]. split; [left; left; reflexivity|].
  split; [split; [vm_compute; reflexivity|left; split; [vm_compute; reflexivity|]; split; [reflexivity|vm_compute; discriminate]]|]. split; [apply long_ok|]. split; [apply long_ok|].
  split; [vm_compute; reflexivity|]. split; [reflexivity|]. split; [vm_compute; discriminate|]. split; [intros t [Q|[Q|[Q|[]]]]; discriminate|]. split; [apply long_ok|vm_compute; discriminate].
Qed.
(** The disk is full. *)
Definition page := repeat 97 (Z.to_nat 4000).
Lemma full : setStr true t10 164 140 page <> Ub /\ setStr false t10 164 140 page = Ub.
Proof. split; [|vm_compute; reflexivity]. vm_compute. discriminate. Qed.
