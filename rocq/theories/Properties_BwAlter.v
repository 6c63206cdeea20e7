(** Other types for elements and names of XBW pools. *)
From Verif Require Import Base Types Sort Xb XbWrite Bw BwSpec BwHist BwSym BwNamesSpec BwFileExamples BwAlter BwLifeSpec BwAttr BwTagExamples BwAlterSpec BwAlterTop BwAlterExamples.

(** C75: in a pool with any history, an element gets another type exactly if values of the two types look the same.  Then its name, its value and its place are the same, getData delivers the same
    data under the new type, and all other elements are byte for byte as before.  Otherwise nothing changes.
    Missing: blobs as texts (C75_text_refuted). *)
Theorem C75_partial : forall k s m T P F e ty ok m', life k s m T P F -> In e (members F) -> 0 <= ty < 256 -> retype m e ty = Ok (ok, m') ->
  exists old, el_type m e = Ok old /\ (ok = true <-> alike old ty) /\ (ok = false -> m' = m) /\ (ok = true -> retyped s m F e old ty m') /\ ((ty = XBT_BLOB_STRING -> 44 <= s e) -> life k s m' T P F).
Proof. exact retype_top. Qed.
Print Assumptions C75_partial.
Theorem C75_total : forall k s m T P F e ty, life k s m T P F -> In e (members F) -> exists ok m', retype m e ty = Ok (ok, m').
Proof. exact retype_works. Qed.
Print Assumptions C75_total.
Example C75_met : life kv sv v5 tags4 [] Fv /\ In 164 (members Fv) /\ 0 <= XBT_FLOAT < 256 /\ alike XBT_INT32 XBT_FLOAT /\ el_type v5 164 = Ok XBT_INT32 /\ ~ alike XBT_INT32 XBT_STRING.
Proof. exact v5_met. Qed.
(** A registered name gets another type exactly if the types convert.  The tables list the same names, all other types are the same, and all elements are byte for byte as before. *)
Theorem C75_tags : forall k s m T P F fuel id ty ok m', life k s m T P F -> alterTag fuel m id ty = rret (ok, m') ->
  (ok = true <-> may_alter T id ty) /\ (ok = false -> m' = m) /\ life k s m' (if ok then altered (Z.to_nat id) ty T else T) P F /\ (forall e, In e (members F) -> rd m' e (s e) = rd m e (s e)).
Proof. exact alterTag_top. Qed.
Print Assumptions C75_tags.
Theorem C75_params : forall k s m T P F fuel id ty ok m', life k s m T P F -> alterAttr fuel m id ty = rret (ok, m') ->
  (ok = true <-> may_alter P id ty) /\ (ok = false -> m' = m) /\ life k s m' T (if ok then altered (Z.to_nat id) ty P else P) F /\ (forall e, In e (members F) -> rd m' e (s e) = rd m e (s e)).
Proof. exact alterAttr_top. Qed.
Print Assumptions C75_params.
(** Both always come to an end. *)
Theorem C75_names_total : forall k s m T P F id ty, life k s m T P F -> (exists fuel ok m', alterTag fuel m id ty = rret (ok, m')) /\ (exists fuel ok m', alterAttr fuel m id ty = rret (ok, m')).
Proof. exact alter_total. Qed.
Print Assumptions C75_names_total.
Example C75_names_met : life kv sv v5 tags4 [] Fv /\ may_alter tags4 1 XBT_STRING /\ ~ may_alter tags4 0 XBT_INT32 /\ altered 1 XBT_STRING tags4 = [(lit "root", XBT_NULL); (lit "int", XBT_STRING); (lit "any", XBT_VARIANT); (lit "text", XBT_BLOB_STRING)].
Proof. split; [exact v5_life|]. split; [apply v7_may|]. split; [apply v7_may|reflexivity]. Qed.
(** A blob of four bytes becomes a text: getStr delivers these and what follows the element. *)
Theorem C75_text_refuted : exists k s m T P F m', life k s m T P F /\ bw_getData m 192 = Ok (XBT_BLOB, le 4 4 ++ lit "abcd", lit "abcd") /\ retype m 192 XBT_BLOB_STRING = Ok (true, m') /\ bw_getStr m' 192 = Ok (Some (lit "abcd" ++ [224])).
Proof. exists kv, sv, v5, tags4, [], Fv, v6. split; [exact v5_life|exact v6_text]. Qed.
Print Assumptions C75_text_refuted.
(** The type of a name is changed to one its values convert to, but they are not converted: the number of an element with this name cannot be read any more, neither as number nor as text. *)
Theorem C75_value_refuted : exists k s m T P F m', life k s m T P F /\ alterTag 20 m 1 XBT_STRING = rret (true, m') /\ bw_getInt32 m 164 = Ok (Some 6) /\ bw_getInt32 m' 164 = Ok None /\ bw_getStr m' 164 = Ok None.
Proof. exists kv, sv, v5, tags4, [], Fv, v7. split; [exact v5_life|exact v7_lost]. Qed.
Print Assumptions C75_value_refuted.
