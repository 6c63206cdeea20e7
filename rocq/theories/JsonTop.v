(** The facts about JSON sources in the form of the properties. *)
From Verif Require Import Base BaseFacts ListFacts Types Sort SortProofs Xb XbSpec XbFacts XbWrite WriteProofs Jsmn JsmnProofs JsmnParse JsonSpec JsonProofs JsonTotal JsonSource JsonNames JsonTree.

Lemma tokens_nest : forall fuel js num r p, zlen js <= INT_MAX -> 2 * zlen js < Z.of_nat fuel -> jsmn_parse fuel js true num = rret (r, p) -> 0 <= r ->
  exists ts, toks p = Some ts /\ zlen ts = r /\ (forall i t, is_token ts i t -> 0 <= st t <= en t /\ en t <= zlen js /\ -1 <= par t < i) /\
  forall i j t u, is_token ts i t -> is_token ts j u -> i < j -> st t < st u /\ (en t <= st u \/ ((ty t = JSMN_OBJECT \/ ty t = JSMN_ARRAY) /\ en u <= en t)).
Proof.
  intros fuel js num r p SH F E R. unfold jsmn_parse in E. replace (INT_MAX <? zlen js) with false in E by lia. pose proof (zlen_nonneg js).
  destruct (parse_ok js num 0 fuel fuel 0 (-1) []) as (r' & p' & n & p0 & E1 & _ & Q & _); [lia|apply good_nil|apply super_start|change (zlen (@nil tok)) with 0; lia|lia|].
  change (zlen (@nil tok)) with 0 in E1. cbv iota in E. rewrite E in E1. injection E1 as <- <-. destruct (Q R) as (-> & ts & TE & L & G & NO). exists ts. split; [exact TE|]. split; [exact L|]. split.
  - intros i t TK. destruct (g_tok _ _ G _ _ TK) as (A & B & [[C _]|[C _]]); [destruct (NO _ _ TK C)|]. lia.
  - intros i j t u TI TJ IJ. destruct (g_pair _ _ G _ _ _ _ TI TJ IJ) as (A & [B|[B|(B & _ & C)]]); [destruct (NO _ _ TI B)|auto|]. split; [exact A|]. right. split; [exact B|exact C].
Qed.
Lemma put_len {A} (ts : list A) i u ts' : put ts i u = rret ts' -> zlen ts' = zlen ts.
Proof.
  unfold put. destruct (Z.ltb_spec i 0); [discriminate|]. destruct (Z.leb_spec (zlen ts) i); [discriminate|]. intros E. injection E as <-. rewrite zlen_app, zlen_cons, zlen_take, zlen_skip by lia. lia.
Qed.
Lemma close_len : forall fuel ts type super x i ts' s, close fuel ts type super x i = rret (Some (ts', s)) -> zlen ts' = zlen ts.
Proof.
  induction fuel as [|k IH]; intros ts type super x i ts' s E; [discriminate|]. cbn [close] in E. apply rbind_inv in E as (t & E1 & E). destruct (is_open t).
  - destruct (negb (ty t =? type)); [discriminate|]. apply rbind_inv in E as (ts1 & E2 & E). injection E as <- <-. eapply put_len; eauto.
  - destruct (par t =? -1); [|eauto]. destruct (negb (ty t =? type) || (super =? -1)); [discriminate|]. injection E as <- <-. reflexivity.
Qed.
(** Never more tokens than the array holds *)
Definition within (num : Z) (p : parser) : Prop := exists ts, toks p = Some ts /\ zlen ts <= Z.max 0 num.
Lemma grow_within num p q : grow_super p = rret q -> within num p -> within num q.
Proof.
  unfold grow_super. intros E (ts & TE & L). rewrite TE in E. destruct (toksuper p =? -1); [injection E as <-; exists ts; auto|]. apply rbind_inv in E as (ts1 & E1 & E). injection E as <-. exists ts1. split; [reflexivity|].
  unfold grow in E1. apply rbind_inv in E1 as (t & _ & E1). rewrite (put_len _ _ _ _ E1). exact L.
Qed.
Lemma one_within fuel js num p count c r : within num p -> one fuel js num p count c = rret r -> match r with Go p' _ => within num p' | Return _ p' => within num p' end.
Proof.
  intros W O. pose proof W as (ts & TE & L). unfold one in O. rewrite TE in O. unfold toknext in O. rewrite ?TE in O.
  destruct (isin c [123; 91]).
  { unfold alloc_token in O. destruct (Z.leb_spec num (zlen ts)); [injection O as <-; exact W|]. apply rbind_inv in O as (q & G & O). injection O as <-. apply (grow_within num) in G; [destruct G as (ts1 & A & B); exists ts1; auto|].
    exists (ts ++ [T (if c =? 123 then JSMN_OBJECT else JSMN_ARRAY) (pos p) (-1) 0 (toksuper p) None]). split; [reflexivity|]. rewrite zlen_app. unfold zlen at 2. cbn. lia. }
  destruct (isin c [125; 93]).
  { destruct (zlen ts <? 1); [injection O as <-; exact W|]. apply rbind_inv in O as ([[ts1 s1]|] & G & O); injection O as <-; [|exact W]. exists ts1. split; [reflexivity|]. rewrite (close_len _ _ _ _ _ _ _ _ G). exact L. }
  destruct (c =? 34).
  { unfold parse_string in O. rewrite TE in O. destruct (string_end Plain (zskip (pos p + 1) js) (pos p + 1)) as [e|e] eqn:SE.
    - unfold alloc_token in O. destruct (Z.leb_spec num (zlen ts)); [injection O as <-; exact W|]. change (0 <? 0) with false in O. cbv iota in O. apply rbind_inv in O as (q & G & O). injection O as <-. apply (grow_within num) in G; [exact G|].
      eexists. split; [reflexivity|]. rewrite zlen_app. unfold zlen at 2. cbn. lia.
    - destruct (string_end_error _ _ _ _ SE) as [-> | ->]; injection O as <-; exact W. }
  destruct (isin c [9; 13; 10; 32]); [injection O as <-; exact W|].
  destruct (c =? 58); [injection O as <-; exists ts; auto|].
  destruct (c =? 44).
  { destruct (toksuper p =? -1); [injection O as <-; exact W|]. apply rbind_inv in O as (t & _ & O). destruct (isin (ty t) _); injection O as <-; [exact W|exists ts; auto]. }
  unfold parse_primitive in O. rewrite TE in O. destruct (primitive_end (zskip (pos p) js) (pos p)) as [e|]; [|injection O as <-; exact W]. unfold alloc_token in O. destruct (Z.leb_spec num (zlen ts)); [injection O as <-; exact W|].
  change (0 <? 0) with false in O. cbv iota in O. apply rbind_inv in O as (q & G & O). injection O as <-. apply (grow_within num) in G; [exact G|]. eexists. split; [reflexivity|]. rewrite zlen_app. unfold zlen at 2. cbn. lia.
Qed.
Lemma loop_within js num : forall fuel p count r p', within num p -> parse_loop fuel js num p count = rret (r, p') -> within num p'.
Proof.
  induction fuel as [|k IH]; intros p count r p' W E; [discriminate|]. cbn [parse_loop] in E. destruct (zskip (pos p) js) as [|c s]; [injection E as <- <-; exact W|]. destruct (c =? 0); [injection E as <- <-; exact W|].
  apply rbind_inv in E as (t & O & E). apply one_within in O; [|exact W]. destruct t as [q n|e q]; [|injection E as <- <-; exact O]. eapply IH; [|exact E]. exact O.
Qed.
Lemma passes_agree : forall fuel js, zlen js <= INT_MAX -> 2 * zlen js < Z.of_nat fuel -> exists n q, jsmn_parse fuel js false 0 = rret (n, q) /\
  forall num, exists r p ts, jsmn_parse fuel js true num = rret (r, p) /\ toks p = Some ts /\ zlen ts <= Z.max 0 num /\ (0 <= r -> r = n /\ zlen ts = n) /\ (0 <= n <= num -> r <> ERROR_NOMEM).
Proof.
  intros fuel js SH F. pose proof (zlen_nonneg js). unfold jsmn_parse. replace (INT_MAX <? zlen js) with false by lia.
  assert (PK : forall num, exists r p n p0, parse_loop fuel js num (P 0 (-1) (Some [])) 0 = rret (r, p) /\ parse_loop fuel js 0 (P 0 (-1) None) 0 = rret (n, p0) /\
    (0 <= r -> r = n /\ exists ts', toks p = Some ts' /\ zlen ts' = n /\ good ts' (zlen js) /\ no_open ts') /\ (r < 0 -> r = ERROR_NOMEM \/ r = ERROR_INVAL \/ r = ERROR_PART) /\ (r = ERROR_NOMEM -> 0 <= n -> num < n)).
  { intros num. apply (parse_ok js num 0 fuel fuel 0 (-1) []); [lia|apply good_nil|apply super_start|change (zlen (@nil tok)) with 0; lia|lia]. }
  destruct (PK 0) as (_ & _ & n & q & _ & E0 & _). exists n, q. split; [exact E0|]. intros num. destruct (PK num) as (r & p & n' & q' & E1 & E0' & R & _ & NM). rewrite E0 in E0'. injection E0' as <- <-.
  destruct (loop_within js num fuel (P 0 (-1) (Some [])) 0 r p) as (ts & TE & L); [exists []; split; [reflexivity|]; change (zlen (@nil tok)) with 0; lia|exact E1|].
  exists r, p, ts. split; [exact E1|]. split; [exact TE|]. split; [exact L|]. split; [|intros N RN; specialize (NM RN); lia]. intros R0. destruct (R R0) as (-> & ts' & TE' & L' & _). rewrite TE in TE'. injection TE' as <-. auto.
Qed.
Lemma tokens_of_value : forall v a b num fuel, json v -> white a -> white b -> zlen (a ++ vtext v ++ b) <= INT_MAX -> vcount v <= num -> zlen (a ++ vtext v ++ b) + num < Z.of_nat fuel ->
  (exists p, jsmn_parse fuel (a ++ vtext v ++ b) true num = rret (vcount v, p) /\ toks p = Some (vtoks false v (zlen a) 0 (-1))) /\
  prepare_total_size fuel (vtoks false v (zlen a) 0 (-1)) 0 = rret (vcount v, vtoks true v (zlen a) 0 (-1)).
Proof.
  intros v a b num fuel J WA WB SH N F. split; [apply parse_value; auto|]. pose proof (zlen_nonneg (a ++ vtext v ++ b)).
  pose proof (proj1 totals v fuel [] [] (zlen a) 0 (-1) ltac:(lia)) as TT. cbn [app] in TT. rewrite !app_nil_r in TT. exact TT.
Qed.
Lemma json_opens : forall v a b fuel fill, json v -> white a -> white b -> zlen (a ++ vtext v ++ b) <= INT_MAX -> 3 * zlen (a ++ vtext v ++ b) < Z.of_nat fuel -> zlen (a ++ vtext v ++ b) + 5 <= zlen fill ->
  exists s, Initialize fuel (a ++ vtext v ++ b) fill = rret (Some s) /\ text s = a ++ vtext v ++ b /\ tokens s = vtoks true v (zlen a) 0 (-1).
Proof. intros v a b fuel fill J WA WB SH F FL. destruct (opened v a b fuel fill J WA WB SH F FL) as (s & E & A & B & _). exists s. auto. Qed.
Lemma names_fit : forall fuel js fill s, bytes js -> 2 * zlen js < Z.of_nat fuel -> zlen js + 5 <= zlen fill -> Initialize fuel js fill = rret (Some s) ->
  forall buffer i X, zlen buffer = zlen (last_str s) -> is_token (tokens s) i X ->
  (forall P K, is_token (tokens s) (par X) P -> ty P = JSMN_ARRAY -> is_token (tokens s) (par P) K -> ty K = JSMN_STRING -> st K < en K) ->
  exists n buffer', named js (tokens s) i n /\ getNodeName (S_ js (tokens s) buffer) i = Ok (n, S_ js (tokens s) buffer') /\ zlen buffer' = zlen buffer.
Proof.
  intros fuel js fill s B F FL E buffer i X LB TK NE. destruct (accepted_usable fuel js fill s B F FL E) as [TX U].
  assert (S : same s (S_ js (tokens s) buffer)) by (split; [cbn; congruence|split; [reflexivity|exact LB]]).
  destruct (node_name (S_ js (tokens s) buffer) i X (same_usable _ _ S U) TK NE) as (n & [tx tks b'] & N & G & (A1 & A2 & A3)). cbn in A1, A2, A3. subst. exists n, b'. auto.
Qed.
Lemma item_names : forall k v, (item_name (v ++ lit "s") = v) /\ (v <> [] -> item_name (v ++ lit "List") = v) /\
  ((forall u, k <> u ++ lit "s") -> (forall u, u <> [] -> k <> u ++ lit "List") -> item_name k = k ++ lit "Item").
Proof.
  intros k v. split; [unfold item_name; rewrite without_app; reflexivity|]. split.
  - intros N. unfold item_name. destruct (without (lit "s") (v ++ lit "List")) as [u|] eqn:E.
    + apply without_inv in E. change (lit "List") with ([76; 105; 115] ++ [116]) in E. rewrite app_assoc in E. apply app_inj_tail in E as [_ E]. discriminate E.
    + rewrite without_app. destruct v; [contradiction|reflexivity].
  - intros A B. unfold item_name. destruct (without (lit "s") k) as [u|] eqn:E; [apply without_inv in E; destruct (A u E)|]. destruct (without (lit "List") k) as [[|c u]|] eqn:E2; [reflexivity| |reflexivity]. apply without_inv in E2. destruct (B (c :: u) ltac:(discriminate) E2).
Qed.
Lemma source_tree : forall v a b fuel fill, json v -> keyed v -> white a -> white b -> zlen (a ++ vtext v ++ b) <= INT_MAX -> 3 * zlen (a ++ vtext v ++ b) < Z.of_nat fuel -> zlen (a ++ vtext v ++ b) + 5 <= zlen fill ->
  exists s, Initialize fuel (a ++ vtext v ++ b) fill = rret (Some s) /\ shows s 0 (tree v) /\
  forall n deep, (height (tree v) <= n)%nat -> exists l, ForAllChildrenRecursively n s 0 deep = rret l /\ Forall2 (fun x y => snd x = snd y /\ shows s (fst x) (fst y)) l (preorder deep (tree v)).
Proof.
  intros v a b fuel fill J K WA WB SH F FL. destruct (source_shows v a b fuel fill J K WA WB SH F FL) as (s & E & S). exists s. split; [exact E|]. split; [exact S|]. intros n deep H. exact (walk s n 0 (tree v) deep S H).
Qed.
