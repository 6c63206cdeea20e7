(** Setting children of XBW elements, and whole histories of pools. *)
From Verif Require Import Base Types Sort Xb XbWrite Bw BwSpec BwHist BwSym BwFile BwFileSpec BwExamples BwFileExamples BwNamesSpec BwLifeSpec BwSet BwLifeTop BwSetExamples.

(** C61: whatever is registered, indexed, built, filled, moved, removed and cleared, in any order, all names are found and all lists of children are
    iterated as built. *)
Theorem C61_history : forall k s m T P F, life k s m T P F -> known m TAGS T /\ known m PARAMS P /\ (zlen T <= 128 /\ zlen P <= 128) /\
  forall p L n, In p (members F) -> owned F p true L -> (List.length L < n)%nat -> forward n m p 0 = rret L /\ backward n m p 0 = rret (rev L).
Proof. exact life_known. Qed.
Print Assumptions C61_history.
Example C61_met : life k4 z4 b4 tags6 [] F4 /\ forward 9 b4 164 0 = rret [188; 216; 244].
Proof. split; [exact b4_life|vm_compute; reflexivity]. Qed.
(** Registering and indexing change no byte of any element. *)
Theorem C61_register : forall k s m T P F fuel name type id m', life k s m T P F -> proper name -> 0 <= type < 256 ->
  (place name T <> None \/ zlen T < 128) /\ registerTag fuel m name type = rret (id, m') \/ (place name P <> None \/ zlen P < 128) /\ registerParam fuel m name type = rret (id, m') ->
  forall e, In e (members F) -> rd m' e (s e) = rd m e (s e).
Proof. exact life_register. Qed.
Print Assumptions C61_register.
Theorem C61_index : forall k s m T P F fuel disk check failures ok m', life k s m T P F -> allRegistered fuel disk check failures m = rret (ok, m') ->
  forall e, In e (members F) -> rd m' e (s e) = rd m e (s e).
Proof. exact life_indexed. Qed.
Print Assumptions C61_index.
Example C61_register_met : proper (lit "more") /\ zlen tags6 < 128 /\ exists m', registerTag 20 b4 (lit "more") XBT_NULL = rret (6, m').
Proof. split; [split; [repeat constructor; vm_compute; split; discriminate|discriminate]|]. split; [reflexivity|]. eexists. vm_compute. reflexivity. Qed.

(** C44: after setting, the child with this id that is found has the value, the list of children is the old one with the new child at the end, with the
    same child, or with the new child in the place of the old one, and all other elements keep their id, type and value, all other lists their elements.
    Missing: an only child that is not stored with the type asked for (see C44_endless_refuted); the returned element (see C44_returned_refuted);
    times (see C44_time_refuted); tagSetInt64 on XBT_DOUBLE and XBT_UINT64; the tag is registered and indexed. *)
Theorem C44_int32_partial : forall k s m T P F p L i nm ty v fuel disk t m', life k s m T P F -> In p (members F) -> owned F p true L -> (forall e, In e L -> k e = true) ->
  nth_error T i = Some (nm, ty) -> XBT_IS_4 ty = true -> t_index m TAGS <> Ok 0 -> int32 v -> (List.length L <= fuel)%nat ->
  (forall x, L = [x] -> el_id m x = Ok (Z.of_nat i) -> el_type m x = Ok XBT_INT32) ->
  tagSetInt32 fuel disk m p (Z.of_nat i) v = rret (Some t, m') ->
  exists n, set_done k s m T P F p L (Z.of_nat i) t n 4 m' /\ t_index m' TAGS = t_index m TAGS /\
  forall fuel', (List.length L < fuel')%nat -> tagGet fuel' m' p (Z.of_nat i) = rret (Some n) /\ tagGetInt32 fuel' m' p (Z.of_nat i) = rret (Some v).
Proof. exact set_int32. Qed.
Print Assumptions C44_int32_partial.
Theorem C44_int64_partial : forall k s m T P F p L i nm ty v fuel disk t m', life k s m T P F -> In p (members F) -> owned F p true L -> (forall e, In e L -> k e = true) ->
  nth_error T i = Some (nm, ty) -> ty = XBT_INT64 \/ ty = XBT_UNIX_TIME64_MSEC -> t_index m TAGS <> Ok 0 -> int64 v -> (List.length L <= fuel)%nat ->
  (forall x, L = [x] -> el_id m x = Ok (Z.of_nat i) -> el_type m x = Ok XBT_INT64) ->
  tagSetInt64 fuel disk m p (Z.of_nat i) v = rret (Some t, m') ->
  exists n, set_done k s m T P F p L (Z.of_nat i) t n 8 m' /\ t_index m' TAGS = t_index m TAGS /\
  forall fuel', (List.length L < fuel')%nat -> tagGet fuel' m' p (Z.of_nat i) = rret (Some n) /\ bw_getInt64 m' n = Ok (Some v).
Proof. exact set_int64. Qed.
Print Assumptions C44_int64_partial.
(** Strings are set in place if the new one fits in as many words as the old one: the old one must end in its own space, which setting maintains. *)
Theorem C44_string_partial : forall k s m T P F p L i nm v fuel disk t m', life k s m T P F -> In p (members F) -> owned F p true L -> (forall e, In e L -> k e = true) ->
  nth_error T i = Some (nm, XBT_STRING) -> t_index m TAGS <> Ok 0 -> cstring v -> (List.length L <= fuel)%nat ->
  (forall x, In x L -> el_id m x = Ok (Z.of_nat i) -> el_type m x = Ok XBT_STRING -> exists old, rd_str m (x + 24) = Ok old /\ zlen old + 1 <= s x - 24) ->
  (forall x, L = [x] -> el_id m x = Ok (Z.of_nat i) -> el_type m x = Ok XBT_STRING /\ forall old, rd_str m (x + 24) = Ok old -> (zlen v + 4) / 4 <= (zlen old + 4) / 4) ->
  tagSetString fuel disk m p (Z.of_nat i) v = rret (Some t, m') ->
  exists n, set_done k s m T P F p L (Z.of_nat i) t n (zlen v + 1) m' /\ t_index m' TAGS = t_index m TAGS /\
  forall fuel', (List.length L < fuel')%nat -> tagGet fuel' m' p (Z.of_nat i) = rret (Some n) /\ tagGetStr fuel' m' p (Z.of_nat i) = rret (Some v).
Proof. exact set_string. Qed.
Print Assumptions C44_string_partial.
(** New, replaced, new, in place *)
Example C44_met : life k4 z4 b4 tags6 [] F4 /\ (forall e, In e [188; 216; 244] -> k4 e = true) /\ t_index b4 TAGS = Ok 140 /\
  (exists m', tagSetInt32 9 true b4 164 1 7 = rret (Some 272, m')) /\ (exists m', tagSetInt32 9 true b4 164 2 7 = rret (Some 188, m')) /\ (exists m', tagSetInt64 9 true b4 164 4 (-3) = rret (Some 272, m')) /\
  exists m', tagSetString 9 true b4 164 3 (lit "xyz") = rret (Some 244, m') /\ zlen (lit "ab") + 1 <= z4 244 - 24.
Proof.
  split; [exact b4_life|]. split; [intros e [<-|[<-|[<-|[]]]]; reflexivity|]. split; [vm_compute; reflexivity|]. split; [eexists; vm_compute; reflexivity|]. split; [eexists; vm_compute; reflexivity|]. split; [eexists; vm_compute; reflexivity|].
  eexists. split; [vm_compute; reflexivity|vm_compute; discriminate].
Qed.

(** Refuted: if the child is replaced, the returned element is the old one, which is in the list no more. *)
Theorem C44_returned_refuted : forall k s m T P F p l1 t l2 i nm ty v fuel disk r m', life k s m T P F -> In p (members F) -> owned F p true (l1 ++ t :: l2) -> l1 ++ l2 <> [] ->
  nth_error T i = Some (nm, ty) -> XBT_IS_4 ty = true -> t_index m TAGS <> Ok 0 -> (List.length (l1 ++ t :: l2) <= fuel)%nat ->
  el_id m t = Ok (Z.of_nat i) -> (forall e, In e l1 -> el_id m e <> Ok (Z.of_nat i)) -> el_type m t <> Ok XBT_INT32 -> tagSetInt32 fuel disk m p (Z.of_nat i) v = rret (r, m') ->
  r = Some t /\ exists x, x <> t /\ forall n, (List.length (l1 ++ t :: l2) < n)%nat -> forward n m' p 0 = rret (l1 ++ x :: l2) /\ ~ In t (l1 ++ x :: l2).
Proof. exact int32_lost. Qed.
Print Assumptions C44_returned_refuted.
Example C44_returned_met : nth_error tags6 2 = Some (lit "uint", XBT_UINT32) /\ el_id b4 188 = Ok 2 /\ el_type b4 188 = Ok XBT_UINT32.
Proof. vm_compute. auto. Qed.
(** Refuted: setting an only child of a 4-byte type other than INT32 again leaves a list of children whose iteration never ends. *)
Theorem C44_endless_refuted : forall k s m T P F p t i nm ty v fuel disk r m', life k s m T P F -> In p (members F) -> owned F p true [t] ->
  nth_error T i = Some (nm, ty) -> XBT_IS_4 ty = true -> t_index m TAGS <> Ok 0 -> (1 <= fuel)%nat ->
  el_id m t = Ok (Z.of_nat i) -> el_type m t <> Ok XBT_INT32 -> tagSetInt32 fuel disk m p (Z.of_nat i) v = rret (r, m') -> forall n, forward n m' p 0 = None.
Proof. exact int32_endless. Qed.
Print Assumptions C44_endless_refuted.
Example C44_endless_met : life k2 z2 b2 tags6 [] F2 /\ owned F2 164 true [188] /\ el_id b2 188 = Ok 2 /\ el_type b2 188 = Ok XBT_UINT32 /\ exists m', tagSetInt32 9 true b2 164 2 7 = rret (Some 188, m').
Proof. split; [exact b2_life|]. split; [left; left; reflexivity|]. split; [vm_compute; reflexivity|]. split; [vm_compute; reflexivity|]. eexists. vm_compute. reflexivity. Qed.
(** Refuted: setting a time that is there, with another element directly behind it, overwrites where that element says it is. *)
Theorem C44_time_refuted : forall k s m T P F p l1 t l2 id v fuel disk r m', life k s m T P F -> In p (members F) -> owned F p true (l1 ++ t :: l2) -> (List.length (l1 ++ t :: l2) <= fuel)%nat ->
  el_id m t = Ok id -> (forall e, In e l1 -> el_id m e <> Ok id) -> 0 <= v < 4294967296 -> In (t + 28) (members F) -> tagSetTime fuel disk m p id v = rret (r, m') ->
  el_offset m (t + 28) = Ok (t + 28) /\ el_offset m' (t + 28) = Ok 0.
Proof. exact time_breaks. Qed.
Print Assumptions C44_time_refuted.
Example C44_time_met : owned F4 164 true ([188] ++ 216 :: [244]) /\ el_id b4 188 = Ok 2 /\ el_id b4 216 = Ok 5 /\ In (216 + 28) (members F4) /\ exists m', tagSetTime 9 true b4 164 5 1700000000 = rret (Some 216, m').
Proof. split; [left; left; reflexivity|]. split; [vm_compute; reflexivity|]. split; [vm_compute; reflexivity|]. split; [right; right; left; reflexivity|]. eexists. vm_compute. reflexivity. Qed.

(** C43, for every pool: replacing an only child leaves a list whose iteration never ends. *)
Theorem C43_only_child_always_refuted : forall kind size m F p t x, built kind size m F -> In (Some (p, true), [t]) F -> In (None, [x]) F ->
  exists tr, replace m p t x = Ok (true, tr) /\ forall n, forward n (final m tr) p 0 = None.
Proof. exact only_child_endless. Qed.
Print Assumptions C43_only_child_always_refuted.
Example C43_only_child_met : built kind0 size0 e6 F6 /\ In (Some (92, true), [116]) F6 /\ In (None, [144]) F6.
Proof. split; [exact e6_built|]. split; [left; reflexivity|]. cbn. auto. Qed.
