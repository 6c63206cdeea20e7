(** JSON as a source of documents: C52-C56 and C60.

    Texts are shorter than 2^31 bytes; the fuel bounds the number of steps and is never used up. *)
From Verif Require Import Base BaseFacts Types Sort Jsmn JsmnProofs JsmnParse JsonSpec JsonTotal JsonSource JsonNames JsonTree JsonTop JsonExamples.

(** ** C52: every token of a text that was parsed lies inside the text, has a parent before it, starts behind all tokens before it, and
    lies behind each of them or, if that is an object or array, inside it.  That it lies inside its parent is not so. *)
Theorem C52_tokens_partial : forall fuel js num r p, zlen js <= INT_MAX -> 2 * zlen js < Z.of_nat fuel -> jsmn_parse fuel js true num = rret (r, p) -> 0 <= r ->
  exists ts, toks p = Some ts /\ zlen ts = r /\ (forall i t, is_token ts i t -> 0 <= st t <= en t /\ en t <= zlen js /\ -1 <= par t < i) /\
  forall i j t u, is_token ts i t -> is_token ts j u -> i < j -> st t < st u /\ (en t <= st u \/ ((ty t = JSMN_OBJECT \/ ty t = JSMN_ARRAY) /\ en u <= en t)).
Proof. exact tokens_nest. Qed.
Print Assumptions C52_tokens_partial.
Example C52_met : let js := vtext shelf in exists p, zlen js <= INT_MAX /\ 2 * zlen js < Z.of_nat 300 /\ jsmn_parse 300 js true 20 = rret (17, p) /\ exists ts, toks p = Some ts /\ is_token ts 9 (T JSMN_STRING 36 37 0 7 None).
Proof. cbv zeta. eexists. split; [vm_compute; discriminate|]. split; [vm_compute; reflexivity|]. split; [vm_compute; reflexivity|]. eexists. split; [reflexivity|]. split; [lia|reflexivity]. Qed.
(** The 1 in [{}:1] has the object for its parent. *)
Theorem C52_parent_refuted : exists p ts X Y, jsmn_parse 20 (lit "{}:1") true 4 = rret (2, p) /\ toks p = Some ts /\ is_token ts 0 X /\ is_token ts 1 Y /\ par Y = 0 /\ en X < st Y.
Proof. do 4 eexists. split; [vm_compute; reflexivity|]. split; [reflexivity|]. split; [split; [lia|reflexivity]|]. split; [split; [lia|reflexivity]|]. split; reflexivity. Qed.
Print Assumptions C52_parent_refuted.

(** ** C53: the counting pass and the filling pass end for every text; if the filling pass succeeds it has filled as many tokens as were
    counted, and an array of that many is never too small. *)
Theorem C53_count : forall fuel js, zlen js <= INT_MAX -> 2 * zlen js < Z.of_nat fuel -> exists n q, jsmn_parse fuel js false 0 = rret (n, q) /\
  forall num, exists r p ts, jsmn_parse fuel js true num = rret (r, p) /\ toks p = Some ts /\ zlen ts <= Z.max 0 num /\ (0 <= r -> r = n /\ zlen ts = n) /\ (0 <= n <= num -> r <> ERROR_NOMEM).
Proof. exact passes_agree. Qed.
Print Assumptions C53_count.
(** Too few tokens, a text the filling pass rejects, one that both reject, and one that is cut off *)
Example C53_met : (exists q, jsmn_parse 300 (vtext shelf) false 0 = rret (17, q)) /\ (exists p, jsmn_parse 300 (vtext shelf) true 16 = rret (ERROR_NOMEM, p)) /\
  (exists q p, jsmn_parse 20 (lit "[}") false 0 = rret (1, q) /\ jsmn_parse 20 (lit "[}") true 1 = rret (ERROR_INVAL, p)) /\
  (exists q p, jsmn_parse 20 (lit """a") false 0 = rret (ERROR_PART, q) /\ jsmn_parse 20 (lit """a") true 5 = rret (ERROR_PART, p)).
Proof. split; [eexists; vm_compute; reflexivity|]. split; [eexists; vm_compute; reflexivity|]. split; do 2 eexists; split; vm_compute; reflexivity. Qed.

(** ** C54: the tokens of a JSON text are those of its value. *)
Theorem C54_tree : forall v a b num fuel, json v -> white a -> white b -> zlen (a ++ vtext v ++ b) <= INT_MAX -> vcount v <= num -> zlen (a ++ vtext v ++ b) + num < Z.of_nat fuel ->
  (exists p, jsmn_parse fuel (a ++ vtext v ++ b) true num = rret (vcount v, p) /\ toks p = Some (vtoks false v (zlen a) 0 (-1))) /\
  prepare_total_size fuel (vtoks false v (zlen a) 0 (-1)) 0 = rret (vcount v, vtoks true v (zlen a) 0 (-1)).
Proof. exact tokens_of_value. Qed.
Print Assumptions C54_tree.
Example C54_met : json shelf /\ white [] /\ white [10] /\ zlen ([] ++ vtext shelf ++ [10]) <= INT_MAX /\ vcount shelf <= 17 /\ zlen ([] ++ vtext shelf ++ [10]) + 17 < Z.of_nat 300.
Proof. split; [exact shelf_json|]. split; [constructor|]. split; [constructor; [lia|constructor]|]. split; [vm_compute; discriminate|]. split; vm_compute; [discriminate|reflexivity]. Qed.

(** ** C55: Initialize succeeds for every JSON text.  For other texts, which the tokenizer accepts, it may read outside the array. *)
Theorem C55_json_partial : forall v a b fuel fill, json v -> white a -> white b -> zlen (a ++ vtext v ++ b) <= INT_MAX -> 3 * zlen (a ++ vtext v ++ b) < Z.of_nat fuel -> zlen (a ++ vtext v ++ b) + 5 <= zlen fill ->
  exists s, Initialize fuel (a ++ vtext v ++ b) fill = rret (Some s) /\ text s = a ++ vtext v ++ b /\ tokens s = vtoks true v (zlen a) 0 (-1).
Proof. exact json_opens. Qed.
Print Assumptions C55_json_partial.
Example C55_met : json shelf /\ 3 * zlen ([] ++ vtext shelf ++ [10]) < Z.of_nat 400 /\ zlen ([] ++ vtext shelf ++ [10]) + 5 <= zlen (zrepeat 170 200).
Proof. split; [exact shelf_json|]. split; vm_compute; [reflexivity|discriminate]. Qed.
(** A key without a value, no token at all, and an unclosed string (a negative number of tokens is allocated) *)
Theorem C55_refuted : forall fill, (exists q p, jsmn_parse 20 (lit "{""a""}") false 0 = rret (2, q) /\ jsmn_parse 20 (lit "{""a""}") true 2 = rret (2, p)) /\
  Initialize 20 (lit "{""a""}") fill = rub /\ Initialize 20 (lit " ") fill = rub /\ Initialize 20 (lit """a") fill = rub.
Proof. intros fill. split; [do 2 eexists; split; vm_compute; reflexivity|]. repeat split; vm_compute; reflexivity. Qed.
Print Assumptions C55_refuted.

(** ** C56: in every source that was opened, whatever is in its buffer, getNodeName stays inside the buffer and gives the name the tokens
    say, unless the element is an item of an array with an empty key. *)
Theorem C56_names_partial : forall fuel js fill s, bytes js -> 2 * zlen js < Z.of_nat fuel -> zlen js + 5 <= zlen fill -> Initialize fuel js fill = rret (Some s) ->
  forall buffer i X, zlen buffer = zlen (last_str s) -> is_token (tokens s) i X ->
  (forall P K, is_token (tokens s) (par X) P -> ty P = JSMN_ARRAY -> is_token (tokens s) (par P) K -> ty K = JSMN_STRING -> st K < en K) ->
  exists n buffer', named js (tokens s) i n /\ getNodeName (S_ js (tokens s) buffer) i = Ok (n, S_ js (tokens s) buffer') /\ zlen buffer' = zlen buffer.
Proof. exact names_fit. Qed.
Print Assumptions C56_names_partial.
(** No other name is the name the tokens say. *)
Theorem C56_one_name : forall js ts i n m, named js ts i n -> named js ts i m -> n = m.
Proof. exact named_fun. Qed.
Print Assumptions C56_one_name.
Example C56_met : exists s, bytes (vtext shelf) /\ Initialize 400 (vtext shelf) (zrepeat 170 200) = rret (Some s) /\
  (exists s', getNodeName s 3 = Ok (Some (lit "book"), s')) /\ (exists s', getNodeName s 14 = Ok (Some (lit "shelf"), s')) /\ named (vtext shelf) (tokens s) 14 (Some (lit "shelf")).
Proof.
  eexists. split; [apply (proj1 json_bytes), shelf_json|]. split; [vm_compute; reflexivity|]. split; [eexists; vm_compute; reflexivity|]. split; [eexists; vm_compute; reflexivity|].
  match goal with |- named ?js ?ts 14 _ => refine (named_item js ts 14 (T JSMN_PRIMITIVE 67 68 0 13 (Some 1)) (T JSMN_ARRAY 66 69 1 12 (Some 2)) (T JSMN_STRING 55 64 1 0 (Some 1)) (conj _ eq_refl) (conj _ eq_refl) eq_refl (conj _ eq_refl) eq_refl); cbn; lia end.
Qed.
(** With an empty key the byte before the buffer is read. *)
Theorem C56_empty_key_refuted : exists s, Initialize 40 (lit "{"""":[1]}") (zrepeat 170 40) = rret (Some s) /\ getNodeName s 3 = Ub.
Proof. eexists. split; vm_compute; reflexivity. Qed.
Print Assumptions C56_empty_key_refuted.
(** The name of items *)
Theorem C56_item_name : forall k v, (item_name (v ++ lit "s") = v) /\ (v <> [] -> item_name (v ++ lit "List") = v) /\
  ((forall u, k <> u ++ lit "s") -> (forall u, u <> [] -> k <> u ++ lit "List") -> item_name k = k ++ lit "Item").
Proof. exact item_names. Qed.
Print Assumptions C56_item_name.

(** ** C60: a source opened from a JSON text shows the tree of the value; the recursive walk meets its elements in the order of the text. *)
Theorem C60_tree_partial : forall v a b fuel fill, json v -> keyed v -> white a -> white b -> zlen (a ++ vtext v ++ b) <= INT_MAX -> 3 * zlen (a ++ vtext v ++ b) < Z.of_nat fuel -> zlen (a ++ vtext v ++ b) + 5 <= zlen fill ->
  exists s, Initialize fuel (a ++ vtext v ++ b) fill = rret (Some s) /\ shows s 0 (tree v) /\
  forall n deep, (height (tree v) <= n)%nat -> exists l, ForAllChildrenRecursively n s 0 deep = rret l /\ Forall2 (fun x y => snd x = snd y /\ shows s (fst x) (fst y)) l (preorder deep (tree v)).
Proof. exact source_tree. Qed.
Print Assumptions C60_tree_partial.
Example C60_met : json shelf /\ keyed shelf /\ height (tree shelf) = 5%nat /\ exists s, Initialize 400 (vtext shelf ++ [10]) (zrepeat 170 200) = rret (Some s) /\ ForAllChildren s 0 = Ok [1; 12; 15].
Proof. split; [exact shelf_json|]. split; [exact shelf_keyed|]. split; [reflexivity|]. eexists. split; vm_compute; reflexivity. Qed.
