(** A number and a blob in the pool of BwTagExamples get other types; an attribute gets a longer text. *)
From Verif Require Import Base Types Sort Xb XbWrite Bw BwSpec BwHist BwSym BwFile BwReg BwFileSpec BwExamples BwFileExamples BwNamesSpec BwNamesTop BwAlter BwLifeSpec BwSet BwSetExamples BwAttr BwAttrExamples BwTag BwTagSpec BwTagTop BwTagExamples BwSource BwSourceSpec BwSourceExamples BwSetStr BwSetStrExamples BwAlterSpec.

Definition v1 := Eval vm_compute in amem (fresh true g6 1 XBT_INT32 0 ELEMENT).
Definition v2 := Eval vm_compute in mem_of (wr v1 188 (le 4 6)).
Definition v3 := Eval vm_compute in amem (fresh true v2 2 XBT_BLOB 4 ELEMENT).
Definition v4 := Eval vm_compute in mem_of (wr v3 216 (le 4 4 ++ lit "abcd")).
Definition v5 := Eval vm_compute in amem (fresh true v4 0 XBT_NULL 0 ELEMENT).
Definition v6 := Eval vm_compute in mem_of (obind (retype v5 192 XBT_BLOB_STRING) (fun '(_, m) => Ok m)).
Definition kv := set (set (set kg 164 true) 192 true) 224 true.
Definition sv := set (set (set sg 164 28) 192 32) 224 24.
Definition Fv : forest := [(None, [224]); (None, [192]); (None, [164]); (None, [140])].
Lemma v5_life : life kv sv v5 tags4 [] Fv.
Proof.
  assert (L1 : life (set kg 164 true) (set sg 164 28) v1 tags4 [] [(None, [164]); (None, [140])]) by (apply (life_new _ _ g6 tags4 [] Fg true 1 XBT_INT32 0 4 ELEMENT 164 v1 g6_life); small).
  assert (L2 : life (set kg 164 true) (set sg 164 28) v2 tags4 [] [(None, [164]); (None, [140])]) by (apply (life_write _ _ v1 _ _ _ 164 188 (le 4 6) _ L1); [left; reflexivity|small|vm_compute; discriminate|vm_compute; reflexivity]).
  assert (L3 : life (set (set kg 164 true) 192 true) (set (set sg 164 28) 192 32) v3 tags4 [] [(None, [192]); (None, [164]); (None, [140])]) by (apply (life_new _ _ v2 tags4 [] _ true 2 XBT_BLOB 4 8 ELEMENT 192 v3 L2); small).
  assert (L4 : life (set (set kg 164 true) 192 true) (set (set sg 164 28) 192 32) v4 tags4 [] [(None, [192]); (None, [164]); (None, [140])]) by (apply (life_write _ _ v3 _ _ _ 192 216 (le 4 4 ++ lit "abcd") _ L3); [left; reflexivity|small|vm_compute; discriminate|vm_compute; reflexivity]).
  apply (life_new _ _ v4 tags4 [] _ true 0 XBT_NULL 0 0 ELEMENT 224 v5 L4); small.
Qed.
Lemma v5_met : life kv sv v5 tags4 [] Fv /\ In 164 (members Fv) /\ 0 <= XBT_FLOAT < 256 /\ alike XBT_INT32 XBT_FLOAT /\ el_type v5 164 = Ok XBT_INT32 /\ ~ alike XBT_INT32 XBT_STRING.
Proof. split; [exact v5_life|]. split; [vm_compute; tauto|]. split; [vm_compute; split; [discriminate|reflexivity]|]. split; [right; left; split; vm_compute; tauto|]. split; [vm_compute; reflexivity|]. intros [Q|[[_ Q]|[[_ Q]|[_ Q]]]]; vm_compute in Q; intuition discriminate. Qed.
(** The blob is not closed by a zero; as text it goes on with the next element. *)
Lemma v6_text : bw_getData v5 192 = Ok (XBT_BLOB, le 4 4 ++ lit "abcd", lit "abcd") /\ retype v5 192 XBT_BLOB_STRING = Ok (true, v6) /\ bw_getStr v6 192 = Ok (Some (lit "abcd" ++ [224])).
Proof. split; [vm_compute; reflexivity|]. split; vm_compute; reflexivity. Qed.
(** The name of a number becomes one for texts: the number can be had neither way. *)
Definition v7 := Eval vm_compute in rmem (alterTag 20 v5 1 XBT_STRING).
Lemma v7_lost : alterTag 20 v5 1 XBT_STRING = rret (true, v7) /\ bw_getInt32 v5 164 = Ok (Some 6) /\ bw_getInt32 v7 164 = Ok None /\ bw_getStr v7 164 = Ok None.
Proof. split; [vm_compute; reflexivity|]. split; [vm_compute; reflexivity|]. split; vm_compute; reflexivity. Qed.
Lemma v7_may : may_alter tags4 1 XBT_STRING /\ ~ may_alter tags4 0 XBT_INT32.
Proof. split; [split; [vm_compute; split; [discriminate|reflexivity]|]; split; [lia|]; exists (lit "int"), XBT_INT32; split; [reflexivity|]; right; right; right; left; repeat split; discriminate|]. intros (_ & _ & nm & old & E & C). injection E as <- <-. destruct C as [Q|[Q|[Q|[[Q _]|[_ [Q|Q]]]]]]; discriminate. Qed.

(** An attribute with a text: [w3]. *)
Definition w1 := Eval vm_compute in amem (fresh true t8 2 XBT_STRING 2 0).
Definition w2 := Eval vm_compute in mem_of (wr w1 268 (lit "ab" ++ [0])).
Definition w3 := Eval vm_compute in trace_of w2 (add w2 164 244).
Definition w4 := Eval vm_compute in mem_of (obind (setStr true w3 244 164 long) (fun '(_, m) => Ok m)).
Lemma w3_life : life (set k8 244 false) (set s8 244 28) w3 tags4 [] ((Some (164, false), [244]) :: F8).
Proof.
  assert (L1 : life (set k8 244 false) (set s8 244 28) w1 tags4 [] ((None, [244]) :: F8)) by (apply (life_new _ _ t8 tags4 [] _ true 2 XBT_STRING 2 3 0 244 w1 t8_life); small).
  assert (L2 : life (set k8 244 false) (set s8 244 28) w2 tags4 [] ((None, [244]) :: F8)) by (apply (life_write _ _ w1 _ _ _ 244 268 (lit "ab" ++ [0]) _ L1); [left; reflexivity|small|vm_compute; discriminate|vm_compute; reflexivity]).
  linked w2 w3 164 244 E. eapply life_add; [exact L2|right; right; left; reflexivity| |exact E]. apply (adds_first (set k8 244 false) 164 244 _ [] [] F8); [reflexivity|]. intros L [Q|[Q|[Q|[]]]]; discriminate.
Qed.
Lemma w4_tag : el_attr w3 164 = Ok 244 /\ bw_getStr w3 244 = Ok (Some (lit "ab")) /\ el_child w3 164 = Ok 220 /\ el_next w3 220 = Ok 220 /\ setStr true w3 244 164 long = Ok (true, w4) /\
  el_attr w4 164 = Ok 0 /\ el_next w4 220 = Ok 272 /\ bw_getStr w4 272 = Ok (Some long).
Proof. repeat split; vm_compute; reflexivity. Qed.
