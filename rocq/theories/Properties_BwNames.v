(** The names of XBW pools and clearing them. *)
From Verif Require Import Base Types Sort Xb XbWrite Bw BwSpec BwHist BwSym BwFile BwFileSpec BwExamples BwFileExamples BwNamesSpec BwNamesTop BwNamesExamples.

(** C45: whatever was registered, built, indexed and cleared in between, every name is found by its name and by its id, with its type, and no
    other name is.  Missing: names after the 128th, see C45_refuted. *)
Theorem C45_known_partial : forall m T P B, dicts m T P B -> known m TAGS T /\ zlen T <= 128 /\ known m PARAMS P /\ zlen P <= 128.
Proof. exact dicts_known. Qed.
Print Assumptions C45_known_partial.
Example C45_known_met : dicts n6 [(lit "a", XBT_NULL); (lit "c", XBT_STRING); (lit "d", XBT_STRING)] [(lit "b", XBT_INT32)] [].
Proof. exact n6_dicts. Qed.

(** Registering gives the old id or the next one, unless it fails; it changes no block in use. *)
Theorem C45_tag_partial : forall m T P B fuel s ty id m', dicts m T P B -> proper s -> 0 <= ty < 256 -> place s T <> None \/ zlen T < 128 ->
  registerTag fuel m s ty = rret (id, m') -> (id = -1 \/ id = id_of s T) /\ forall x n, In (x, n) B -> rd m' x n = rd m x n.
Proof. exact dicts_register. Qed.
Print Assumptions C45_tag_partial.
Theorem C45_param_partial : forall m T P B fuel s ty id m', dicts m T P B -> proper s -> 0 <= ty < 256 -> place s P <> None \/ zlen P < 128 ->
  registerParam fuel m s ty = rret (id, m') -> (id = -1 \/ id = id_of s P) /\ forall x n, In (x, n) B -> rd m' x n = rd m x n.
Proof. exact dicts_register_param. Qed.
Print Assumptions C45_param_partial.
Example C45_tag_met : proper (lit "d") /\ (place (lit "d") [(lit "a", XBT_NULL); (lit "c", XBT_STRING)] <> None \/ zlen [(lit "a", XBT_NULL); (lit "c", XBT_STRING)] < 128) /\
  registerTag 10 n5 (lit "d") XBT_STRING = rret (2, n6).
Proof. split; [split; [repeat constructor; vm_compute; split; discriminate|discriminate]|]. split; [right; reflexivity|]. vm_compute. reflexivity. Qed.

(** It does not fail for a name that is there; nor if the pool has room for a copy of the table with the new name. *)
Theorem C45_tag_room : forall m T P B a s ty fuel, dicts m T P B -> proper s -> p_allocator m = Ok a -> (2 * List.length T < fuel)%nat ->
  place s T <> None \/ (T <> [] \/ t_names m TAGS = Ok 0) /\ a + names_size T + names_size [(s, ty)] <= zlen m -> exists m', registerTag fuel m s ty = rret (id_of s T, m').
Proof. exact dicts_room. Qed.
Print Assumptions C45_tag_room.
Theorem C45_param_room : forall m T P B a s ty fuel, dicts m T P B -> proper s -> XBT_NULL <= ty < XBT_LAST -> T <> [] -> p_allocator m = Ok a -> (2 * List.length P < fuel)%nat ->
  place s P <> None \/ (P <> [] \/ t_names m PARAMS = Ok 0) /\ a + names_size P + names_size [(s, ty)] <= zlen m -> exists m', registerParam fuel m s ty = rret (id_of s P, m').
Proof. exact dicts_room_param. Qed.
Print Assumptions C45_param_room.
Example C45_room_met : p_allocator n6 = Ok 132 /\ 132 + names_size [(lit "b", XBT_INT32)] + names_size [(lit "e", XBT_STRING)] <= zlen n6.
Proof. vm_compute. split; [reflexivity|discriminate]. Qed.

(** Refuted: two different new names get the same id, the one after the 128th. *)
Theorem C45_refuted : exists m T P B s1 s2 fuel m1 m2 id, dicts m T P B /\ proper s1 /\ proper s2 /\ s1 <> s2 /\ ~ In s1 (map fst T) /\ ~ In s2 (map fst T) /\
  registerTag fuel m s1 XBT_NULL = rret (id, m1) /\ registerTag fuel m1 s2 XBT_NULL = rret (id, m2) /\ id <> -1.
Proof. exact same_ids. Qed.
Print Assumptions C45_refuted.

(** C47: if clearing reports success, all names are kept, there is no root, everything behind the names and their indexes is free and zero.
    Missing: it can fail, see C47_refuted. *)
Theorem C47_partial : forall m T P B a fuel m', dicts m T P B -> p_allocator m = Ok a -> Clear fuel m = rret (true, m') ->
  known m' TAGS T /\ known m' PARAMS P /\ p_root m' = Ok 0 /\
  exists a', p_allocator m' = Ok a' /\ a' = HEADER + names_size T + names_size P + index_size T + index_size P /\ forall q, a' <= q < a -> rd m' q 1 = Ok [0].
Proof. exact dicts_clear_ok. Qed.
Print Assumptions C47_partial.
Example C47_met : dicts n2 [(lit "a", XBT_NULL)] [(lit "b", XBT_INT32)] [] /\ exists m', Clear 20 n2 = rret (true, m').
Proof. exact (conj n2_dicts n2_clears). Qed.
(** Refuted: after registering a tag, an attribute and two more tags, Clear fails and the first two tags are not found any more. *)
Theorem C47_refuted : exists m T P B fuel m', dicts m T P B /\ Clear fuel m = rret (false, m') /\
  forall s, In s [lit "a"; lit "c"] -> In s (map fst T) /\ getByName fuel m TAGS s <> rret None /\ getByName fuel m' TAGS s = rret None.
Proof. exact n6_lost. Qed.
Print Assumptions C47_refuted.
