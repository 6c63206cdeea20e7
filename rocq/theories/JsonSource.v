(** What a JSON source that Initialize accepted looks like, and the names and values it gives. *)
From Verif Require Import Base BaseFacts ListFacts Types Sort SortProofs Xb XbSpec XbFacts XbWrite WriteProofs Jsmn JsmnProofs JsmnParse JsonSpec JsonProofs JsonTotal.

(** ** No NUL in what was read; strings start behind a quote *)
Definition nz (js : list Z) (x : Z) : Prop := Forall (fun c => c <> 0) (ztake x js).
Lemma take_add {A} (l : list A) x n : 0 <= x -> 0 <= n -> ztake (x + n) l = ztake x l ++ ztake n (zskip x l).
Proof.
  intros X N. rewrite <- (ztake_zskip x l) at 1. destruct (Z.leb_spec (zlen l) x) as [L|L].
  - rewrite zskip_all, app_nil_r by lia. rewrite (ztake_all x l) by lia. rewrite ztake_all by lia. unfold ztake. rewrite firstn_nil, app_nil_r. reflexivity.
  - rewrite ztake_app_ge by (rewrite zlen_take by lia; lia). f_equal. f_equal. rewrite zlen_take by lia. lia.
Qed.
Lemma nz_more js x n : 0 <= x -> 0 <= n -> nz js x -> Forall (fun c => c <> 0) (ztake n (zskip x js)) -> nz js (x + n).
Proof. intros X N A B. unfold nz. rewrite take_add by lia. apply Forall_app. auto. Qed.
Lemma take_cons {A} (c : A) r n : 0 <= n -> ztake (n + 1) (c :: r) = c :: ztake n r.
Proof. intros N. unfold ztake. replace (Z.to_nat (n + 1)) with (Datatypes.S (Z.to_nat n)) by lia. reflexivity. Qed.
Lemma primitive_nz : forall s n e, primitive_end s n = Some e -> Forall (fun c => c <> 0) (ztake (e - n) s).
Proof.
  induction s as [|c r IH]; intros n e E; cbn [primitive_end] in E; [unfold ztake; rewrite firstn_nil; constructor|].
  destruct (Z.eqb_spec c 0); cbn [orb] in E; [injection E as <-; rewrite Z.sub_diag; constructor|]. destruct (ends_primitive c); [injection E as <-; rewrite Z.sub_diag; constructor|].
  destruct ((s8 c <? 32) || (127 <=? s8 c)); [discriminate|]. pose proof (primitive_end_range _ _ _ E). apply IH in E. replace (e - n) with (e - (n + 1) + 1) by lia. rewrite take_cons by lia. constructor; auto.
Qed.
Lemma string_nz : forall s q n e, string_end q s n = At e -> Forall (fun c => c <> 0) (ztake (e - n + 1) s).
Proof.
  induction s as [|c r IH]; intros q n e E; cbn [string_end] in E; [discriminate|].
  assert (ST : forall q, string_end q r (n + 1) = At e -> c <> 0 -> Forall (fun c => c <> 0) (ztake (e - n + 1) (c :: r))).
  { intros q' E' N. pose proof (string_end_range _ _ _ _ E'). apply IH in E'. rewrite take_cons by lia. constructor; [exact N|]. replace (e - n) with (e - (n + 1) + 1) by lia. exact E'. }
  assert (PL : (if c =? 0 then Error ERROR_PART else if c =? 34 then At n else if c =? 92 then string_end Escape r (n + 1) else string_end Plain r (n + 1)) = At e -> Forall (fun c => c <> 0) (ztake (e - n + 1) (c :: r))).
  { destruct (Z.eqb_spec c 0); [discriminate|]. destruct (c =? 34); [|destruct (c =? 92); eauto]. intros X; injection X as <-. rewrite Z.sub_diag. change (0 + 1) with 1. change (ztake 1 (c :: r)) with [c]. constructor; auto. }
  destruct q as [| |[|k]]; [exact (PL E)| |exact (PL E)|].
  - destruct (isin c _) eqn:IS; [apply (ST _ E); intros ->; discriminate IS|]. destruct (Z.eqb_spec c 117); [apply (ST _ E); lia|discriminate].
  - destruct (Z.eqb_spec c 0); [discriminate|]. destruct (is_xdigit (s8 c)); [eauto|discriminate].
Qed.
Definition strs (ts : list tok) : Prop := forall t, In t ts -> ty t = JSMN_STRING -> 1 <= st t.
Lemma put_in {A} (ts : list A) i u ts' t : put ts i u = rret ts' -> In t ts' -> t = u \/ In t ts.
Proof.
  unfold put. destruct ((i <? 0) || (zlen ts <=? i)); [discriminate|]. intros E I. injection E as <-. apply in_app_or in I as [I|[I|I]]; [|auto|].
  - right. rewrite <- (ztake_zskip i ts). apply in_or_app. auto.
  - right. rewrite <- (ztake_zskip (i + 1) ts). apply in_or_app. auto.
Qed.
Lemma at_in_ {A} (ts : list A) i t : at_ ts i = rret t -> In t ts.
Proof. unfold at_. destruct (i <? 0); [discriminate|]. destruct (nth_error ts (Z.to_nat i)) eqn:E; [|discriminate]. intro X. injection X as <-. eapply nth_error_In; eauto. Qed.
Lemma rbind_inv {A B} (m : run A) (f : A -> run B) y : rbind m f = rret y -> exists x, m = rret x /\ f x = rret y.
Proof. destruct m as [[x| |]|]; cbn; try discriminate. intros E. exists x. split; [reflexivity|exact E]. Qed.
Lemma grow_strs p q : grow_super p = rret q -> (forall ts, toks p = Some ts -> strs ts) -> (forall ts, toks q = Some ts -> strs ts) /\ pos q = pos p.
Proof.
  unfold grow_super. destruct (toks p) as [ts|] eqn:TE; [|intros E; injection E as <-; rewrite TE; auto]. destruct (toksuper p =? -1); [intros E; injection E as <-; rewrite TE; auto|].
  intros E S. apply rbind_inv in E as (ts1 & E1 & E2). injection E2 as <-. split; [|reflexivity]. cbn. intros ts2 TE2. injection TE2 as <-. unfold grow in E1. apply rbind_inv in E1 as (t & E1 & E2).
  intros u U TU. destruct (put_in _ _ _ _ _ E2 U) as [->|I]; [|exact (S _ eq_refl _ I TU)]. cbn in *. apply (S _ eq_refl t); [eapply at_in_; eauto|exact TU].
Qed.
Lemma close_strs : forall fuel ts type super x i ts' s, close fuel ts type super x i = rret (Some (ts', s)) -> strs ts -> strs ts'.
Proof.
  induction fuel as [|k IH]; intros ts type super x i ts' s E S; [discriminate|]. cbn [close] in E. apply rbind_inv in E as (t & E1 & E). destruct (is_open t).
  - destruct (negb (ty t =? type)); [discriminate|]. apply rbind_inv in E as (ts1 & E2 & E). injection E as <- <-. intros u U TU. destruct (put_in _ _ _ _ _ E2 U) as [->|I]; [|exact (S _ I TU)].
    cbn in *. apply (S t); [eapply at_in_; eauto|exact TU].
  - destruct (par t =? -1); [|eauto]. destruct (negb (ty t =? type) || (super =? -1)); [discriminate|]. injection E as <- <-. exact S.
Qed.
Lemma strs_snoc ts t : strs ts -> (ty t = JSMN_STRING -> 1 <= st t) -> strs (ts ++ [t]).
Proof. intros S H u U. apply in_app_or in U as [U|[<-|[]]]; auto. Qed.
Lemma one_extra fuel js num x s ts count c r p' c' : zskip x js = c :: r -> c <> 0 -> 0 <= x -> one fuel js num (P x s (Some ts)) count c = rret (Go p' c') -> nz js x -> strs ts ->
  nz js (pos p' + 1) /\ forall ts', toks p' = Some ts' -> strs ts'.
Proof.
  intros E C0 X O NZ S. destruct (skip_head _ _ _ _ X E) as (XL & SK & LR).
  assert (N1 : nz js (x + 1)). { apply nz_more; auto; [lia|]. rewrite E. constructor; [exact C0|]. unfold ztake. cbn. constructor. }
  unfold one in O. cbn [toks toksuper pos toknext] in O.
  destruct (isin c [123; 91]).
  { unfold alloc_token in O. destruct (num <=? zlen ts); [discriminate|]. apply rbind_inv in O as (q & G & O). injection O as <- <-. cbn [toks pos]. destruct (grow_strs _ _ G) as [S1 PE].
    - cbn [toks]. intros ts1 TE. injection TE as <-. apply strs_snoc; [exact S|]. cbn. destruct (c =? 123); discriminate.
    - rewrite PE. auto. }
  destruct (isin c [125; 93]) eqn:CB.
  { destruct (zlen ts <? 1); [discriminate|]. apply rbind_inv in O as ([[ts1 s1]|] & G & O); [|discriminate]. injection O as <- <-. cbn [toks pos]. split; [exact N1|]. intros ts' TE. injection TE as <-. eapply close_strs; eauto. }
  destruct (Z.eqb_spec c 34) as [->|NQ].
  { unfold parse_string in O. cbn [pos toks toksuper] in O. rewrite SK in O. destruct (string_end Plain r (x + 1)) as [e|e] eqn:SE.
    - pose proof (string_end_range _ _ _ _ SE) as RG. pose proof (string_nz _ _ _ _ SE) as NS. unfold alloc_token in O. destruct (num <=? zlen ts); [discriminate|]. change (0 <? 0) with false in O. cbv iota in O.
      apply rbind_inv in O as (q & G & O). injection O as <- <-. destruct (grow_strs _ _ G) as [S1 PE].
      + cbn [toks]. intros ts1 TE. injection TE as <-. apply strs_snoc; [exact S|]. cbn. lia.
      + rewrite PE. cbn [pos]. split; [|exact S1]. replace (e + 1) with (x + 1 + (e - (x + 1) + 1)) by lia. apply nz_more; [lia|lia|exact N1|]. rewrite SK. exact NS.
    - destruct (string_end_error _ _ _ _ SE) as [-> | ->]; discriminate. }
  destruct (isin c [9; 13; 10; 32]) eqn:WS. { injection O as <- <-. cbn [pos toks]. split; [exact N1|]. intros ts' TE. injection TE as <-. exact S. }
  destruct (Z.eqb_spec c 58) as [->|NC]. { injection O as <- <-. cbn [pos toks]. split; [exact N1|]. intros ts' TE. injection TE as <-. exact S. }
  destruct (Z.eqb_spec c 44) as [->|NM].
  { destruct (s =? -1). { injection O as <- <-. cbn [pos toks]. split; [exact N1|]. intros ts' TE. injection TE as <-. exact S. }
    apply rbind_inv in O as (t & _ & O). destruct (isin (ty t) _); injection O as <- <-; cbn [pos toks]; (split; [exact N1|]); intros ts' TE; injection TE as <-; exact S. }
  unfold parse_primitive in O. cbn [pos toks toksuper] in O. rewrite E in O. destruct (primitive_end (c :: r) x) as [e|] eqn:PE; [|discriminate].
  pose proof (primitive_nz _ _ _ PE) as NS. pose proof (primitive_end_range _ _ _ PE) as RG. unfold alloc_token in O. destruct (num <=? zlen ts); [discriminate|]. change (0 <? 0) with false in O. cbv iota in O.
  apply rbind_inv in O as (q & G & O). injection O as <- <-. destruct (grow_strs _ _ G) as [S1 PQ].
  - cbn [toks]. intros ts1 TE. injection TE as <-. apply strs_snoc; [exact S|]. cbn. discriminate.
  - rewrite PQ. cbn [pos]. split; [|exact S1]. replace (e - 1 + 1) with (x + (e - x)) by lia. apply nz_more; [lia|lia|exact NZ|]. rewrite E. exact NS.
Qed.
(** The whole parse: every token lies in a NUL-free part of the text. *)
Definition read_ok (js : list Z) (ts : list tok) : Prop := exists x, 0 <= x <= zlen js /\ good ts x /\ nz js x /\ strs ts /\ no_open ts.
Lemma parse_read js num : forall fuel x s ts r p, 0 <= x <= zlen js -> good ts x -> super_ok ts s -> zlen ts + 2 * (zlen js - x) < Z.of_nat fuel -> nz js x -> strs ts ->
  parse_loop fuel js num (P x s (Some ts)) (zlen ts) = rret (r, p) -> 0 <= r -> exists ts', toks p = Some ts' /\ read_ok js ts'.
Proof.
  induction fuel as [|k IH]; intros x s ts r p X G SO F NZ S E R; [discriminate|]. cbn [parse_loop pos] in E.
  assert (FIN : rret (finish (P x s (Some ts)) (zlen ts), P x s (Some ts)) = rret (r, p) -> exists ts', toks p = Some ts' /\ read_ok js ts').
  { intros Q. injection Q as <- <-. exists ts. split; [reflexivity|]. exists x. split; [exact X|]. split; [exact G|]. split; [exact NZ|]. split; [exact S|]. cbn [finish toks] in R. destruct (existsb is_open ts) eqn:OP; [unfold ERROR_PART in R; lia|].
    intros i t T0 O. pose proof (good_open _ _ _ _ G T0) as Q. rewrite O in Q. change (-1 =? -1) with true in Q.
    assert (existsb is_open ts = true) by (apply existsb_exists; exists t; split; [eapply tk_in; eauto|exact Q]). congruence. }
  destruct (zskip x js) as [|c rr] eqn:E0; [exact (FIN E)|]. destruct (Z.eqb_spec c 0) as [_|C0]; [exact (FIN E)|]. clear FIN.
  destruct (one_ok (Datatypes.S k) 0 js num 0 x s ts (zlen ts) c rr E0 C0 (proj1 X) G SO) as (t & t0 & E1 & _ & ST); [lia|]. rewrite E1 in E. cbn [rbind rret] in E.
  destruct t as [p' count'|e p']; cbn [stepped] in ST.
  - destruct ST as (_ & RG & L & ts' & TE & L1 & G1 & S1). destruct (one_extra _ _ _ _ _ _ _ _ _ _ _ E0 C0 (proj1 X) E1 NZ S) as [N2 S2]. unfold at_pos in E. rewrite TE in E. replace count' with (zlen ts') in E by lia.
    apply (IH (pos p' + 1) (toksuper p') ts' r p); auto; lia.
  - injection E as <- <-. unfold ERROR_NOMEM, ERROR_INVAL, ERROR_PART in ST. lia.
Qed.

(** ** jsmn_prepare_total_size changes nothing but the totals *)
Definition alike (t t' : tok) : Prop := ty t' = ty t /\ st t' = st t /\ en t' = en t /\ sz t' = sz t /\ par t' = par t.
Lemma alike_refl ts : Forall2 alike ts ts.
Proof. induction ts; constructor; auto. repeat split. Qed.
Lemma alike_trans a b c : Forall2 alike a b -> Forall2 alike b c -> Forall2 alike a c.
Proof. intros H. revert c. induction H as [|x y a b E _ IH]; intros c H2; inversion H2; subst; constructor; auto. unfold alike in *. intuition congruence. Qed.
Lemma set_alike ts i n m ts' : set_total ts i n = rret (m, ts') -> Forall2 alike ts ts'.
Proof.
  unfold set_total. intros E. apply rbind_inv in E as (t & E1 & E). apply rbind_inv in E as (ts1 & E2 & E). injection E as <- <-.
  unfold at_ in E1. destruct (Z.ltb_spec i 0); [discriminate|]. destruct (nth_error ts (Z.to_nat i)) eqn:N; [|discriminate]. injection E1 as ->. apply nth_error_split in N as (a & b & -> & L).
  rewrite put_app in E2 by (unfold zlen; lia). injection E2 as <-. apply Forall2_app; [apply alike_refl|]. constructor; [repeat split|apply alike_refl].
Qed.
Lemma loop_alike call : (forall ts i n ts', call ts i = rret (n, ts') -> Forall2 alike ts ts') -> forall k ts i total n ts', total_loop k call ts i total = rret (n, ts') -> Forall2 alike ts ts'.
Proof.
  intros C. induction k as [|k IH]; intros ts i total n ts' E; [injection E as <- <-; apply alike_refl|]. cbn [total_loop] in E. apply rbind_inv in E as ([m ts1] & E1 & E). cbn [fst snd] in E.
  eapply alike_trans; [eapply C; eauto|eapply IH; eauto].
Qed.
Lemma total_alike : forall fuel ts i n ts', prepare_total_size fuel ts i = rret (n, ts') -> Forall2 alike ts ts'.
Proof.
  induction fuel as [|f IH]; intros ts i n ts' E; [discriminate|]. cbn [prepare_total_size] in E. apply rbind_inv in E as (t & E1 & E). destruct (isin (ty t) [JSMN_STRING; JSMN_PRIMITIVE]); [eapply set_alike; eauto|].
  destruct (ty t =? JSMN_OBJECT); [|destruct (ty t =? JSMN_ARRAY); [|discriminate]].
  all: apply rbind_inv in E as ([m ts1] & E2 & E); cbn [fst snd] in E; eapply alike_trans; [eapply loop_alike; eauto|eapply set_alike; eauto].
Qed.
Lemma alike_in ts ts' t' : Forall2 alike ts ts' -> In t' ts' -> exists t, In t ts /\ alike t t'.
Proof. induction 1 as [|x y a b E _ IH]; [contradiction|]. intros [<-|I]; [exists x; split; [left; reflexivity|exact E]|]. destruct (IH I) as (t & J & A). exists t. split; [right; exact J|exact A]. Qed.
Lemma alike_tk : forall ts ts', Forall2 alike ts ts' -> forall i t', tk ts' i t' -> exists t, tk ts i t /\ alike t t'.
Proof.
  intros ts ts' H i t' (R & N). assert (Q : forall n, nth_error ts' n = Some t' -> exists t, nth_error ts n = Some t /\ alike t t').
  { clear N. induction H as [|x y a b E _ IH]; intros [|n] N; try discriminate; [injection N as <-; exists x; auto|]. exact (IH n N). }
  destruct (Q _ N) as (t & T0 & A). exists t. split; [split; auto|exact A].
Qed.

(** ** The buffer *)
Lemma wr_eq m p bs : 0 <= p -> p + zlen bs <= zlen m -> wr m p bs = Ok (bput m p bs).
Proof. intros P B. unfold wr. replace ((0 <=? p) && (p + zlen bs <=? zlen m)) with true by lia. reflexivity. Qed.
Lemma wr_len m p bs m' : wr m p bs = Ok m' -> zlen m' = zlen m.
Proof. unfold wr. destruct (Z.leb_spec 0 p); [|discriminate]. destruct (Z.leb_spec (p + zlen bs) (zlen m)); [|discriminate]. intros E. injection E as <-. apply bput_len; lia. Qed.
Definition token_text (s : source) (t : tok) : list Z := slice (text s) (st t) (en t - st t).
(** A token that can be copied to the buffer. *)
Definition copyable (s : source) (t : tok) : Prop :=
  0 <= st t <= en t /\ en t <= zlen (text s) /\ (ty t = JSMN_STRING -> 1 <= st t < zlen (text s)) /\ cstring (token_text s t) /\ en t - st t + 5 <= zlen (last_str s).
Definition usable (s : source) : Prop := (forall t, In t (tokens s) -> is_scalar t = true -> copyable s t) /\ forall i t, tk (tokens s) i t -> -1 <= par t < i.
Lemma max_fold : forall ts m, (forall t, In t ts -> is_scalar t = true -> en t - st t <= fold_left (fun m t => if is_scalar t then (if m <? en t - st t then en t - st t else m) else m) ts m) /\
  m <= fold_left (fun m t => if is_scalar t then (if m <? en t - st t then en t - st t else m) else m) ts m.
Proof.
  induction ts as [|u ts IH]; intros m; [split; [contradiction|cbn; lia]|]. cbn [fold_left]. destruct (IH (if is_scalar u then if m <? en u - st u then en u - st u else m else m)) as [A B]. split.
  - intros t [<-|I] SC; [|auto]. rewrite SC in *. destruct (Z.ltb_spec m (en u - st u)); lia.
  - destruct (is_scalar u); [|exact B]. destruct (Z.ltb_spec m (en u - st u)); lia.
Qed.
Lemma scalar_is t : is_scalar t = true <-> scalar t.
Proof. unfold is_scalar, scalar, isin. cbn [existsb]. lia. Qed.
Lemma slice_nz js x p n : 0 <= p -> 0 <= n -> p + n <= x -> nz js x -> Forall (fun c => c <> 0) (slice js p n).
Proof.
  intros P0 N L NZ. unfold nz in NZ. replace x with (p + (n + (x - p - n))) in NZ by lia. rewrite take_add in NZ by lia. apply Forall_app in NZ as [_ NZ]. rewrite take_add in NZ by lia. apply Forall_app in NZ as [NZ _]. exact NZ.
Qed.
Lemma accepted_usable fuel js fill s : bytes js -> 2 * zlen js < Z.of_nat fuel -> zlen js + 5 <= zlen fill -> Initialize fuel js fill = rret (Some s) -> text s = js /\ usable s.
Proof.
  intros B F FL E. unfold Initialize in E. destruct (Z.leb_spec (zlen js) 0); [discriminate|]. apply rbind_inv in E as ([n0 q] & E0 & E). cbn [fst] in E. destruct (Z.ltb_spec n0 0); [discriminate|].
  apply rbind_inv in E as ([n1 p] & E1 & E). destruct (Z.eqb_spec n0 n1) as [->|]; [|discriminate]. cbn [negb] in E. destruct (toks p) as [ts|] eqn:TE; [|discriminate].
  apply rbind_inv in E as ([total ts1] & E2 & E). destruct (Z.eqb_spec total n1) as [->|]; [|discriminate]. cbn [negb] in E.
  destruct (wr (ztake (max_str_len ts1 + 5) fill) (max_str_len ts1) [0]) as [b| |] eqn:W; try discriminate. injection E as <-. cbn [text]. split; [reflexivity|].
  unfold jsmn_parse in E0, E1. destruct (Z.ltb_spec INT_MAX (zlen js)); [discriminate|].
  assert (RK : exists ts', toks p = Some ts' /\ read_ok js ts').
  { apply (parse_read js n1 fuel 0 (-1) [] n1 p); [lia|apply good_nil|apply super_start|change (zlen (@nil tok)) with 0; lia|exact (Forall_nil _)|intros ? []|exact E1|lia]. }
  destruct RK as (ts' & TE' & x & X & G & NZ & SS & NO). rewrite TE in TE'. injection TE' as <-. pose proof (total_alike _ _ _ _ _ E2) as AL.
  assert (M : forall i t, tk ts1 i t -> is_scalar t = true -> 0 <= st t <= en t /\ en t <= x /\ (ty t = JSMN_STRING -> 1 <= st t < x)).
  { intros i t T1 SC. destruct (alike_tk _ _ AL _ _ T1) as (u & T0 & Q1 & Q2 & Q3 & Q4 & Q5). rewrite Q1, Q2, Q3. destruct (g_tok _ _ G _ _ T0) as (A1 & A2 & [[A3 _]|[A3 _]]); [destruct (NO _ _ T0 A3)|].
    split; [lia|]. split; [lia|]. intros Y. specialize (SS u (tk_in _ _ _ T0) Y). lia. }
  pose proof (wr_len _ _ _ _ W) as W3.
  split; cbn [tokens text last_str].
  - intros t I SC. destruct (in_tk _ _ I) as (i & T1). destruct (M _ _ T1 SC) as (M1 & M2 & M3). unfold copyable, token_text. cbn [text last_str]. split; [lia|]. split; [lia|]. split; [lia|].
    assert (LE : zlen (ztake (max_str_len ts1 + 5) fill) = max_str_len ts1 + 5).
    { unfold max_str_len. assert (BD : forall us, (forall t, In t us -> In t ts1) -> forall m, 0 <= m <= zlen js -> 0 <= fold_left (fun m t => if is_scalar t then (if m <? en t - st t then en t - st t else m) else m) us m <= zlen js).
      { induction us as [|u us IH]; intros SU m R; [exact R|]. cbn [fold_left]. apply IH; [intros v V; apply SU; right; exact V|]. destruct (is_scalar u) eqn:SU'; [|exact R]. destruct (in_tk _ _ (SU u (or_introl eq_refl))) as (k & TK). destruct (M _ _ TK SU') as (? & ? & _).
        destruct (Z.ltb_spec m (en u - st u)); lia. }
      specialize (BD ts1 (fun t H => H) 0 ltac:(pose proof (zlen_nonneg js); lia)). rewrite zlen_take; lia. }
    split.
    + pose proof (slice_nz js x (st t) (en t - st t) ltac:(lia) ltac:(lia) ltac:(lia) NZ) as SN. apply Forall_forall. intros c C. pose proof (proj1 (Forall_forall _ _) SN c C) as C0. cbn in C0.
      assert (IB : is_byte c). { apply (proj1 (Forall_forall _ _) B). rewrite <- (ztake_zskip (st t) js). apply in_or_app. right. rewrite <- (ztake_zskip (en t - st t) (zskip (st t) js)). apply in_or_app. left. exact C. }
      unfold is_byte, is_cchar in *. lia.
    + rewrite W3, LE. destruct (max_fold ts1 0) as [MF _]. specialize (MF t I SC). unfold max_str_len. lia.
  - intros i t T1. destruct (alike_tk _ _ AL _ _ T1) as (u & T0 & Q1 & Q2 & Q3 & Q4 & Q5). rewrite Q5. destruct (g_tok _ _ G _ _ T0) as (_ & A2 & _). exact A2.
Qed.
