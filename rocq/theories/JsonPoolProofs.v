(** No JSON text becomes a pool: its root has no name. *)
From Verif Require Import Base BaseFacts Types Sort Symtab Xb XbWrite Bw BwSym BwFile BwMake Jsmn JsonMake JsonPool JsonSource.
Local Open Scope Z_scope.

(** The first token has no parent. *)
Definition rooted (ts : list tok) : Prop := match ts with [] => True | t :: _ => par t = -1 end.
Definition sane (p : parser) : Prop := match toks p with None => True | Some ts => rooted ts /\ (ts = [] -> toksuper p = -1) end.

Lemma rooted_app ts t : rooted ts -> (ts = [] -> par t = -1) -> rooted (ts ++ [t]).
Proof. destruct ts; cbn; auto. Qed.
Lemma put_rooted ts i t t' ts' : at_ ts i = rret t -> put ts i t' = rret ts' -> par t' = par t -> rooted ts -> rooted ts' /\ (ts' <> []).
Proof.
  unfold at_, put. intros A B E R. destruct (i <? 0) eqn:I; [discriminate|]. apply Z.ltb_ge in I. cbn [orb] in B. destruct (zlen ts <=? i) eqn:L; [discriminate|]. apply Z.leb_gt in L.
  injection B as <-. split; [|intro F; apply app_eq_nil in F as [_ F]; discriminate].
  destruct (Z.eq_dec i 0) as [->|N].
  - destruct ts as [|u ts]; [discriminate A|]. cbn in A. injection A as <-. cbn in *. congruence.
  - destruct ts as [|u ts]; [unfold zlen in L; cbn in L; lia|]. unfold ztake. destruct (Z.to_nat i) eqn:K; [lia|]. exact R.
Qed.
Lemma grow_rooted ts i ts' : grow ts i = rret ts' -> rooted ts -> rooted ts' /\ ts' <> [].
Proof. intros E R. apply rbind_inv in E as (t & A & E). eapply put_rooted; [exact A|exact E|reflexivity|exact R]. Qed.
Lemma grow_super_sane p p' : grow_super p = rret p' -> sane p -> sane p' /\ pos p' = pos p /\ (forall ts, toks p = Some ts -> ts <> [] -> exists ts', toks p' = Some ts' /\ ts' <> []).
Proof.
  unfold grow_super, sane. intros E S. destruct (toks p) as [ts|] eqn:T.
  - destruct (toksuper p =? -1) eqn:U; [injection E as <-; rewrite T; split; [exact S|]; split; [reflexivity|]; intros u V; injection V as <-; eauto|].
    apply rbind_inv in E as (ts' & G & E). injection E as <-. cbn. destruct (grow_rooted _ _ _ G (proj1 S)) as [R N]. split; [split; [exact R|intros ->; contradiction]|]. split; [reflexivity|]. intros u V _. eauto.
  - injection E as <-. rewrite T. split; [exact I|]. split; [reflexivity|]. intros u V. discriminate.
Qed.
Lemma alloc_rooted num ts t ts' super : alloc_token num ts t = Some ts' -> par t = super -> rooted ts -> (ts = [] -> super = -1) -> rooted ts' /\ ts' <> [].
Proof.
  unfold alloc_token. destruct (num <=? zlen ts); [discriminate|]. intros E <- R S. injection E as <-. split; [apply rooted_app; auto|intro F; apply app_eq_nil in F as [_ F]; discriminate].
Qed.
Lemma primitive_sane js num p r p' : parse_primitive js num p = (r, p') -> sane p -> sane p'.
Proof.
  unfold parse_primitive, sane. intros E S. destruct (primitive_end _ _); [|injection E as <- <-; exact S]. destruct (toks p) as [ts|] eqn:T.
  - destruct (alloc_token _ _ _) as [ts'|] eqn:A; injection E as <- <-; cbn; [|rewrite T; exact S].
    destruct (alloc_rooted _ _ _ _ _ A eq_refl (proj1 S) (proj2 S)) as [R N]. split; [exact R|contradiction].
  - injection E as <- <-. cbn. rewrite T. exact I.
Qed.
Lemma string_sane js num p r p' : parse_string js num p = (r, p') -> sane p -> sane p'.
Proof.
  unfold parse_string, sane. intros E S. destruct (string_end _ _ _); [|injection E as <- <-; exact S]. destruct (toks p) as [ts|] eqn:T.
  - destruct (alloc_token _ _ _) as [ts'|] eqn:A; injection E as <- <-; cbn; [|rewrite T; exact S].
    destruct (alloc_rooted _ _ _ _ _ A eq_refl (proj1 S) (proj2 S)) as [R N]. split; [exact R|contradiction].
  - injection E as <- <-. cbn. rewrite T. exact I.
Qed.
Lemma close_rooted : forall fuel ts type super x i ts' super', close fuel ts type super x i = rret (Some (ts', super')) -> rooted ts -> rooted ts' /\ ts' <> [].
Proof.
  induction fuel as [|k IH]; intros ts type super x i ts' super' E R; [discriminate|]. cbn [close] in E. apply rbind_inv in E as (t & A & E).
  assert (N : ts <> []). { intros ->. unfold at_ in A. destruct (i <? 0); [discriminate|]. destruct (Z.to_nat i); discriminate. }
  destruct (is_open t).
  - destruct (negb _); [discriminate|]. apply rbind_inv in E as (u & B & E). injection E as <- _. eapply put_rooted; [exact A|exact B|reflexivity|exact R].
  - destruct (par t =? -1); [|exact (IH _ _ _ _ _ _ _ E R)]. destruct (_ || _); [discriminate|]. injection E as <- _. auto.
Qed.
Lemma one_sane fuel js num p count c p' n : one fuel js num p count c = rret (Go p' n) -> sane p -> sane p'.
Proof.
  unfold one. intros E S. destruct (isin c [123; 91]).
  { destruct (toks p) as [ts|] eqn:T; [|injection E as <- _; exact S]. destruct (alloc_token _ _ _) as [ts'|] eqn:A; [|discriminate].
    unfold sane in S. rewrite T in S. destruct (alloc_rooted _ _ _ _ _ A eq_refl (proj1 S) (proj2 S)) as [R N].
    apply rbind_inv in E as (q & G & E). injection E as <- _. apply grow_super_sane in G as (G & _ & K); [|unfold sane; cbn; split; [exact R|contradiction]].
    destruct (K ts' eq_refl N) as (u & U & V). unfold sane in *. cbn. rewrite U in *. split; [apply G|contradiction]. }
  destruct (isin c [125; 93]).
  { destruct (toks p) as [ts|] eqn:T; [|injection E as <- _; exact S]. destruct (toknext p <? 1); [discriminate|]. apply rbind_inv in E as ([[u super]|] & G & E); [|discriminate].
    injection E as <- _. unfold sane in *. rewrite T in S. cbn. destruct (close_rooted _ _ _ _ _ _ _ _ G (proj1 S)). split; [assumption|contradiction]. }
  destruct (c =? 34).
  { destruct (parse_string js num p) as [r q] eqn:Q. destruct (r <? 0); [discriminate|]. apply rbind_inv in E as (u & G & E). injection E as <- _. exact (proj1 (grow_super_sane _ _ G (string_sane _ _ _ _ _ Q S))). }
  destruct (isin c [9; 13; 10; 32]); [injection E as <- _; exact S|].
  destruct (c =? 58).
  { injection E as <- _. unfold sane, toknext in *. cbn. destruct (toks p) as [ts|]; [|exact I]. split; [apply S|]. intros ->. reflexivity. }
  destruct (c =? 44).
  { destruct (toks p) as [ts|] eqn:T; [|injection E as <- _; exact S]. destruct (toksuper p =? -1) eqn:U; [injection E as <- _; exact S|]. apply rbind_inv in E as (t & A & E).
    destruct (isin _ _); injection E as <- _; [exact S|]. unfold sane in *. rewrite T in S. cbn. split; [apply S|]. intros F. apply (proj2 S) in F. apply Z.eqb_neq in U. contradiction. }
  destruct (parse_primitive js num p) as [r q] eqn:Q. destruct (r <? 0); [discriminate|]. apply rbind_inv in E as (u & G & E). injection E as <- _. exact (proj1 (grow_super_sane _ _ G (primitive_sane _ _ _ _ _ Q S))).
Qed.
(** The other way out of the loop: the tokens are dropped unless the numbers of tokens agree, which an error, being negative, does not. *)
Lemma one_return fuel js num p count c r q : one fuel js num p count c = rret (Return r q) -> r < 0.
Proof.
  unfold one. intros E. unfold rret in E.
  repeat match type of E with
  | context [if ?b then _ else _] => destruct b eqn:?; try discriminate E
  | context [match toks p with _ => _ end] => destruct (toks p); try discriminate E
  | context [match alloc_token ?a ?b ?t with _ => _ end] => destruct (alloc_token a b t); try discriminate E
  | context [let '(_, _) := ?x in _] => destruct x
  | rbind _ _ = _ => apply rbind_inv in E as (? & ? & E)
  | context [match ?x with Some _ => _ | None => _ end] => destruct x; try discriminate E
  | context [let (_, _) := ?x in _] => destruct x
  end; try discriminate E; try (injection E as <- <-; first [reflexivity|apply Z.ltb_lt; assumption]).
Qed.
Lemma loop_sane : forall fuel js num p count r p', parse_loop fuel js num p count = rret (r, p') -> 0 <= r -> sane p -> sane p'.
Proof.
  induction fuel as [|k IH]; intros js num p count r p' E R S; [discriminate|]. cbn [parse_loop] in E. destruct (zskip (pos p) js) as [|c w]; [injection E as <- <-; exact S|].
  destruct (c =? 0); [injection E as <- <-; exact S|]. apply rbind_inv in E as ([q n|r' q] & G & E).
  - apply (IH _ _ _ _ _ _ E R). exact (one_sane _ _ _ _ _ _ _ _ G S).
  - injection E as <- <-. apply one_return in G. lia.
Qed.
Lemma set_total_rooted ts i n r ts' : set_total ts i n = rret (r, ts') -> rooted ts -> rooted ts'.
Proof. intros E R. apply rbind_inv in E as (t & A & E). apply rbind_inv in E as (u & B & E). injection E as <- <-. exact (proj1 (put_rooted _ _ _ _ _ A B eq_refl R)). Qed.
Lemma total_loop_rooted call : (forall ts i r ts', call ts i = rret (r, ts') -> rooted ts -> rooted ts') ->
  forall k ts i n r ts', total_loop k call ts i n = rret (r, ts') -> rooted ts -> rooted ts'.
Proof.
  intros C. induction k as [|k IH]; intros ts i n r ts' E R; [injection E as <- <-; exact R|]. cbn [total_loop] in E. apply rbind_inv in E as ([a u] & G & E). exact (IH _ _ _ _ _ E (C _ _ _ _ G R)).
Qed.
Lemma prepare_rooted : forall fuel ts i r ts', prepare_total_size fuel ts i = rret (r, ts') -> rooted ts -> rooted ts'.
Proof.
  induction fuel as [|k IH]; intros ts i r ts' E R; [discriminate|]. cbn [prepare_total_size] in E. apply rbind_inv in E as (t & A & E).
  destruct (isin _ _); [exact (set_total_rooted _ _ _ _ _ E R)|].
  destruct (ty t =? JSMN_OBJECT); [|destruct (ty t =? JSMN_ARRAY); [|discriminate]]; apply rbind_inv in E as ([a u] & G & E); exact (set_total_rooted _ _ _ _ _ E (total_loop_rooted _ IH _ _ _ _ _ _ G R)).
Qed.
Lemma source_rooted fuel js fill s : Jsmn.Initialize fuel js fill = rret (Some s) -> rooted (tokens s).
Proof.
  unfold Jsmn.Initialize. destruct (zlen js <=? 0); [discriminate|]. intros E. apply rbind_inv in E as ([n0 p0] & G0 & E). cbn [fst] in E. destruct (n0 <? 0) eqn:L; [discriminate|].
  apply Z.ltb_ge in L. apply rbind_inv in E as ([n1 p] & G1 & E). destruct (n0 =? n1) eqn:Q; [|discriminate]. apply Z.eqb_eq in Q. cbn [negb] in E.
  unfold jsmn_parse in G1. destruct (_ <? zlen js); [discriminate|]. apply loop_sane in G1; [|lia|unfold sane; cbn; auto]. unfold sane in G1. destruct (toks p) as [ts|]; [|discriminate].
  apply rbind_inv in E as ([a u] & G & E). destruct (negb _); [discriminate|]. destruct (wr _ _ _); try discriminate. injection E as <-. cbn. exact (prepare_rooted _ _ _ _ _ G (proj1 G1)).
Qed.

Lemma root_nameless s r : rooted (tokens s) -> getNodeName s 0 = Ok r -> r = (None, s).
Proof.
  unfold rooted, getNodeName, token. intros R E. change (0 <? 0) with false in E. change (Z.to_nat 0) with O in E. destruct (tokens s) as [|t l]; [discriminate|]. cbn [nth_error obind] in E. rewrite R in E. change (-1 <? 0) with true in E. cbn [orb] in E. injection E as <-. reflexivity.
Qed.
Lemma copied_tokens m s r : in_buffer m s = Ok r -> tokens (snd r) = tokens s.
Proof. unfold in_buffer. destruct (rd_str m 0); try discriminate. intros E. injection E as <-. reflexivity. Qed.
Lemma name_tokens s i r : getNodeName s i = Ok r -> tokens (snd r) = tokens s.
Proof.
  unfold getNodeName. intros E.
  repeat match type of E with
  | in_buffer _ _ = _ => apply copied_tokens in E; exact E
  | Ok _ = _ => injection E as <-; reflexivity
  | Ub = _ => discriminate E
  | obind ?x _ = _ => destruct x; cbn [obind] in E; try discriminate E
  | (if ?b then _ else _) = _ => destruct b
  end.
Qed.
Lemma value_tokens s i r : getNodeValue s i = Ok r -> tokens (snd r) = tokens s.
Proof.
  unfold getNodeValue. intros E.
  repeat match type of E with
  | in_buffer _ _ = _ => apply copied_tokens in E; exact E
  | Ok _ = _ => injection E as <-; reflexivity
  | Ub = _ => discriminate E
  | obind ?x _ = _ => destruct x; cbn [obind] in E; try discriminate E
  | (if ?b then _ else _) = _ => destruct b
  end.
Qed.
Lemma arguments_tokens o s i n v s' : arguments o s i = Ok (n, v, s') -> tokens s' = tokens s.
Proof.
  unfold arguments. intros E. destruct o.
  - destruct (getNodeName s i) as [[a s1]| |] eqn:A; try discriminate. cbn [obind] in E. destruct (getNodeValue s1 i) as [[b s2]| |] eqn:B; try discriminate. cbn [obind] in E.
    apply name_tokens in A. apply value_tokens in B. cbn in A, B. assert (F : s' = s2); [|congruence].
    destruct a, b; try (injection E as _ _ <-; reflexivity). destruct (in_last s2 i); try discriminate. injection E as _ _ <-. reflexivity.
  - destruct (getNodeValue s i) as [[a s1]| |] eqn:A; try discriminate. cbn [obind] in E. destruct (getNodeName s1 i) as [[b s2]| |] eqn:B; try discriminate. cbn [obind] in E.
    apply value_tokens in A. apply name_tokens in B. cbn in A, B. assert (F : s' = s2); [|congruence].
    destruct a, b; try (injection E as _ _ <-; reflexivity). destruct (in_last s2 i); try discriminate. injection E as _ _ <-. reflexivity.
Qed.
Lemma pass_tokens o : forall l s t s' t', name_pass o s t l = rret (s', t') -> tokens s' = tokens s.
Proof.
  induction l as [|i l IH]; intros s t s' t' E; [injection E as <- <-; reflexivity|]. cbn [name_pass] in E. apply rbind_inv in E as ([[n v] s1] & A & E). apply rbind_inv in E as ([id t1] & _ & E).
  apply IH in E. injection A as A. apply arguments_tokens in A. congruence.
Qed.
Theorem no_json_pool o fl fuel disk js fill f ok f' : JsonMake_xbw o fl fuel disk js fill f = rret (ok, f') -> ok = false.
Proof.
  unfold JsonMake_xbw. intros E. apply rbind_inv in E as ([s|] & S & E); [|injection E as <- <-; reflexivity]. apply source_rooted in S.
  apply rbind_inv in E as (l & _ & E). apply rbind_inv in E as ([s' tags] & T & E). apply pass_tokens in T. rewrite <- T in S. clear T.
  apply rbind_inv in E as ([a m] & _ & E). destruct (negb a); [injection E as <- _; reflexivity|]. apply rbind_inv in E as (m1 & _ & E). apply rbind_inv in E as ([b m2] & _ & E).
  destruct (negb b); [injection E as <- _; reflexivity|]. apply rbind_inv in E as ([[x m3] u] & G & E).
  destruct fuel as [|k]; [discriminate G|]. cbn [json_item] in G. apply rbind_inv in G as ([n s1] & N & G). injection N as N. apply root_nameless in N; [|exact S]. injection N as -> ->. injection G as <- _ _.
  injection E as <- _. reflexivity.
Qed.
