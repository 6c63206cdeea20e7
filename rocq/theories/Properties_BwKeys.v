(** Comparing and copying the keys of an item, and copying a path of a document into a pool. *)
From Verif Require Import Base Types Sort Xb XbWrite XbBin BinSpec Bw BwSpec BwHist BwSym BwNamesSpec BwLifeSpec BwAttr BwAttrExamples BwSource BwSourceSpec BwSourceExamples BwCopy BwCopySpec BwCopyExamples BwKeys BwKeysSpec BwKeysTop BwPathProofs BwKeysExamples.

(** C69: an element of a pool with any history, with attributes [E], and an item of a document with attributes [U], are found equal exactly if they have the same keys with the same types and values, and the item has at most
    16 keys.  The values are compared without a conversion.
    Missing: with more than 16 keys the answer is always no (C69_many, C69_refuted); values of which only one is a text. *)
Theorem C69_partial : forall fl key k s m T P F x A E d y U fuel, life k s m T P F -> In x (members F) -> owned F x false A -> Forall2 (attr_at s m) A E -> item_attrs d y = Ok U -> NoDup (map attr_id (keyed key E)) -> comparable (keyed key U) (keyed key E) ->
  (List.length A <= fuel)%nat -> exists b, EqualKeys key fuel fl d m x y = rret b /\ (b = true <-> zlen (keyed key U) <= 16 /\ forall a, In a (keyed key U) <-> In a (keyed key E)).
Proof. exact keys_compared. Qed.
Print Assumptions C69_partial.
Example C69_met : exists k s F A, life k s w1 tags1 params1 F /\ In top (members F) /\ owned F top false A /\ Forall2 (attr_at s w1) A [id9] /\ item_attrs doc1 kid1 = Ok [id9] /\ NoDup (map attr_id (keyed all_keys [id9])) /\ comparable (keyed all_keys [id9]) (keyed all_keys [id9]).
Proof.
  destruct w1_life as (k & s & F & A & H1 & H2 & H3 & H4). exists k, s, F, A. split; [exact H1|]. split; [exact H2|]. split; [exact H3|]. split; [exact H4|]. split; [exact kid_attrs|]. split; [repeat constructor; intros []|exact id9_comparable].
Qed.
(** Copying the keys of an item into an empty element: if true is returned, the element has exactly the keys of the item, in their order, and it is found equal to the item.  Nothing else in the pool changes, also after a
    failure, and the pool stays sound. *)
Theorem C69_copied : forall key fl d R T P k s m F x y ok m', bytes d -> zlen d <= INT_MAX -> agrees d (rd_params R) P -> item key d R T P y -> life k s m T P F -> t_index m TAGS <> Ok 0 -> t_index m PARAMS <> Ok 0 -> In x (members F) -> owned F x false [] -> owned F x true [] ->
  CopyKeys key fl d m x y = Ok (ok, m') ->
  exists k' s' F', life k' s' m' T P F' /\ grown k s m F x k' s' m' F' /\ (ok = true -> (exists A U, owned F' x false A /\ item_attrs d y = Ok U /\ Forall2 (attr_at s' m') A (keyed key U)) /\
    forall fuel, (List.length (members F') <= fuel)%nat -> EqualKeys key fuel fl d m' x y = rret true).
Proof. exact keys_copied. Qed.
Print Assumptions C69_copied.
Example C69_copied_met : bytes doc1 /\ zlen doc1 <= INT_MAX /\ agrees doc1 (rd_params reader1) params1 /\ item all_keys doc1 reader1 tags1 params1 kid1 /\ life ku su u4 tags1 params1 Fu /\ t_index u4 TAGS <> Ok 0 /\ t_index u4 PARAMS <> Ok 0 /\
  In top (members Fu) /\ owned Fu top false [] /\ owned Fu top true [] /\ CopyKeys all_keys fl0 doc1 u4 top kid1 = Ok (true, w1).
Proof.
  split; [exact doc1_bytes|]. split; [vm_compute; discriminate|]. split; [exact doc1_params|]. split; [apply item_kid|]. split; [exact u4_life|]. split; [vm_compute; discriminate|]. split; [vm_compute; discriminate|]. split; [left; reflexivity|].
  split; [exact u4_none|]. split; [exact u4_no_kids|apply w1_made].
Qed.
(** With more than 16 keys the answer is no. *)
Theorem C69_many : forall fl key k s m T P F x A E d y U fuel, life k s m T P F -> In x (members F) -> owned F x false A -> Forall2 (attr_at s m) A E -> item_attrs d y = Ok U -> NoDup (map attr_id (keyed key E)) -> comparable (keyed key U) (keyed key E) ->
  (List.length A <= fuel)%nat -> 16 < zlen (keyed key U) -> EqualKeys key fuel fl d m x y = rret false.
Proof. exact many_keys. Qed.
Print Assumptions C69_many.
(** An item and an element with the same 17 attributes, the item being the element itself converted to a document. *)
Theorem C69_refuted : forall fl, item_attrs doc3 item3 = Ok (map int_attr letters) /\
  map (fun c => rbind (attrGet 20 j5 jtop (c - 97)) (fun a => match a with None => Some Fail | Some a => Some (obind (bw_getData j5 a) (fun '(ty, v, _) => Ok (c - 97, ty, v))) end)) letters = map (fun c => rret (int_attr c)) letters /\
  EqualKeys all_keys 20 fl doc3 j5 jtop item3 = rret false.
Proof. intro fl. split; [apply doc3_attrs|]. split; [exact j5_attrs|apply j5_not_equal]. Qed.
Print Assumptions C69_refuted.

(** C70: copying the path from the root of a document down to an item into a pool with any history.  At most one element that was in the pool gets one child more, behind the others, and nothing else that was in it changes; an
    existing root stays.  The element returned has exactly the keys of the last item; it was there before, or only the way was asked for, or it has all attributes of the item and children as C67 tells.  Doing the same again,
    with any disk and either way, returns the same element and changes nothing.
    Missing: elements are found by their keys only, also under another name (C70_name_refuted); if the element was there, its content is not completed (C70_content_refuted); a full disk is a null pointer followed
    (C70_disk_refuted); keys that appear twice, more than 16 keys; texts that are converted. *)
Theorem C70_partial : forall key fl disk d R T P k s m F y items fuel whole r r0 m', bytes d -> zlen d <= INT_MAX -> agrees d (rd_tags R) T -> agrees d (rd_params R) P -> rd_root R = Some y -> item key d R T P y -> Forall (item key d R T P) items ->
  life k s m T P F -> t_index m TAGS <> Ok 0 -> t_index m PARAMS <> Ok 0 -> sound s m F -> p_root m = Ok r0 -> r0 = 0 \/ In r0 (members F) -> (List.length (members F) <= fuel)%nat -> CopyPath key fuel whole fl disk d R m (Some y) items = rret (r, m') ->
  exists k' s' F', life k' s' m' T P F' /\ grew k s m F k' s' m' F' /\ (r0 <> 0 -> p_root m' = Ok r0) /\
  forall res, r = Some res -> In res (members F') /\ (In res (members F) \/ whole = false \/ part_of d R T P k' s' m' F' (last items y) res) /\
    forall fuel', (List.length (members F') <= fuel')%nat -> EqualKeys key fuel' fl d m' res (last items y) = rret true /\ forall whole' disk', CopyPath key fuel' whole' fl disk' d R m' (Some y) items = rret (Some res, m').
Proof. exact path_copied. Qed.
Print Assumptions C70_partial.
Example C70_met : bytes doc1 /\ zlen doc1 <= INT_MAX /\ agrees doc1 (rd_tags reader1) tags1 /\ agrees doc1 (rd_params reader1) params1 /\ rd_root reader1 = Some 192 /\ item all_keys doc1 reader1 tags1 params1 192 /\ Forall (item all_keys doc1 reader1 tags1 params1) [kid1] /\
  life ku su u4 tags1 params1 Fu /\ t_index u4 TAGS <> Ok 0 /\ t_index u4 PARAMS <> Ok 0 /\ sound su u4 Fu /\ p_root u4 = Ok 0 /\ (List.length (members Fu) <= 9)%nat /\ CopyPath all_keys 9 true fl0 true doc1 reader1 u4 (Some 192) [kid1] = rret (Some w2_at, w2).
Proof.
  split; [exact doc1_bytes|]. split; [vm_compute; discriminate|]. split; [exact doc1_tags|]. split; [exact doc1_params|]. split; [reflexivity|]. split; [apply item_root|]. split; [constructor; [apply item_kid|constructor]|]. split; [exact u4_life|].
  split; [vm_compute; discriminate|]. split; [vm_compute; discriminate|]. split; [exact u4_sound|]. split; [vm_compute; reflexivity|]. split; [cbn; lia|apply w2_made].
Qed.
(** The child "root" of the document is taken for the child "zz" of the pool. *)
Theorem C70_name_refuted : forall fl, getNodeName z7 zkid = Ok (lit "zz") /\ it_name doc1 kid1 = Ok 0 /\ getSymbol doc1 (rd_tags reader1) 0 = Ok (lit "root") /\ CopyPath no_keys 9 true fl true doc1 reader1 z7 (Some 192) [kid1] = rret (Some zkid, z7).
Proof. exact z7_other. Qed.
Print Assumptions C70_name_refuted.
(** The way to an item is copied, then the item: its attribute does not get into the pool. *)
Theorem C70_content_refuted : forall fl, CopyPath no_keys 9 false fl true doc1 reader1 u4 (Some 192) [kid1] = rret (Some w3_at, w3) /\ CopyPath no_keys 9 true fl true doc1 reader1 w3 (Some 192) [kid1] = rret (Some w3_at, w3) /\
  item_attrs doc1 kid1 = Ok [id9] /\ el_attr w3 w3_at = Ok 0.
Proof. intro fl. split; [apply w3_made|]. split; [apply w3_again|]. split; [exact kid_attrs|apply w3_again, fl]. Qed.
Print Assumptions C70_content_refuted.
(** A pool without a root, and a full disk *)
Theorem C70_disk_refuted : forall fl key whole, p_root u3 = Ok 0 /\ CopyPath key 9 whole fl false doc1 reader1 u3 (Some 192) [kid1] = Some Ub.
Proof. exact u3_full. Qed.
Print Assumptions C70_disk_refuted.
