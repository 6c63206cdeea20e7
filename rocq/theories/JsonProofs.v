(** jsmn_parse on the text of a JSON value. *)
From Verif Require Import Base BaseFacts ListFacts Types Sort SortProofs Xb XbWrite Jsmn JsmnProofs JsmnParse JsonSpec.

Section Parse.
Variables (js : list Z) (num : Z).

Inductive steps : nat -> parser -> Z -> parser -> Z -> Prop :=
| steps_0 p c : steps 0 p c p c
| steps_S n p c ch r p1 c1 p2 c2 : zskip (pos p) js = ch :: r -> ch <> 0 -> (forall f, num <= Z.of_nat f -> one f js num p c ch = rret (Go p1 c1)) ->
    steps n (at_pos p1 (pos p1 + 1)) c1 p2 c2 -> steps (Datatypes.S n) p c p2 c2.
Lemma steps_app n p c p1 c1 m p2 c2 : steps n p c p1 c1 -> steps m p1 c1 p2 c2 -> steps (n + m) p c p2 c2.
Proof. intros A B. induction A; [exact B|]. econstructor; eauto. Qed.
Lemma steps_one p c ch r p1 c1 : zskip (pos p) js = ch :: r -> ch <> 0 -> (forall f, num <= Z.of_nat f -> one f js num p c ch = rret (Go p1 c1)) -> steps 1 p c (at_pos p1 (pos p1 + 1)) c1.
Proof. intros. econstructor; eauto. constructor. Qed.
Lemma steps_loop n p c p2 c2 : steps n p c p2 c2 -> forall f, num <= Z.of_nat f -> parse_loop (n + f) js num p c = parse_loop f js num p2 c2.
Proof.
  induction 1 as [|n p c ch r p1 c1 p2 c2 E N O _ IH]; intros f F; [reflexivity|]. cbn [Nat.add parse_loop]. rewrite E. replace (ch =? 0) with false by lia.
  rewrite O by lia. cbn [rbind rret]. apply IH, F.
Qed.
Definition ok (p : parser) : Prop := 0 <= pos p /\ exists ts, toks p = Some ts /\ good ts (pos p) /\ super_ok ts (toksuper p).
Lemma steps_ok n p c p2 c2 : steps n p c p2 c2 -> ok p -> ok p2.
Proof.
  induction 1 as [|n p c ch r p1 c1 p2 c2 E N O _ IH]; auto. intros (X & ts & TE & G & S). apply IH. destruct p as [x s o]. cbn [pos toks toksuper] in *. subst o.
  destruct (one_ok (Z.to_nat (Z.max num (zlen ts))) 0 js num 0 x s ts c ch r E N X G S) as (t & t0 & E1 & _ & ST); [lia|]. rewrite O in E1 by lia. injection E1 as <-. cbn [stepped] in ST.
  destruct ST as (_ & R & _ & ts' & TE & _ & G1 & S1). split; [cbn; lia|]. exists ts'. split; [exact TE|]. split; [exact G1|exact S1].
Qed.

(** Sizes *)
Definition more (t : tok) (n : Z) : tok := T (ty t) (st t) (en t) (sz t + n) (par t) (tot t).
Fixpoint add_size (i : nat) (n : Z) (ts : list tok) : list tok :=
  match ts, i with
  | [], _ => []
  | t :: r, O => more t n :: r
  | t :: r, S i => t :: add_size i n r
  end.
Definition add_super (s n : Z) (ts : list tok) : list tok := if s <? 0 then ts else add_size (Z.to_nat s) n ts.
Lemma add_size_at i n : forall a t b, List.length a = i -> add_size i n (a ++ t :: b) = a ++ more t n :: b.
Proof. induction i as [|i IH]; intros [|u a] t b L; cbn in L; try discriminate; [reflexivity|]. cbn. f_equal. apply IH. lia. Qed.
Lemma add_size_app i n : forall a b, (i < List.length a)%nat -> add_size i n (a ++ b) = add_size i n a ++ b.
Proof. induction i as [|i IH]; intros [|u a] b L; cbn in L; try lia; [reflexivity|]. cbn. f_equal. apply IH. lia. Qed.
Lemma add_size_len i n : forall a, List.length (add_size i n a) = List.length a.
Proof. induction i as [|i IH]; intros [|u a]; cbn; auto. Qed.
Lemma add_size_0 i : forall a, add_size i 0 a = a.
Proof. induction i as [|i IH]; intros [|u a]; cbn; auto; [|f_equal; apply IH]. f_equal. destruct u. unfold more. cbn. f_equal. lia. Qed.
Lemma add_size_add i n m : forall a, add_size i m (add_size i n a) = add_size i (n + m) a.
Proof. induction i as [|i IH]; intros [|u a]; cbn; auto; [|f_equal; apply IH]. f_equal. unfold more. cbn. f_equal. lia. Qed.
Lemma add_super_app s n a b : s < zlen a -> add_super s n (a ++ b) = add_super s n a ++ b.
Proof. intros L. unfold add_super. destruct (Z.ltb_spec s 0); [reflexivity|]. apply add_size_app. unfold zlen in L. lia. Qed.
Lemma add_super_at s n a t b : s = zlen a -> add_super s n (a ++ t :: b) = a ++ more t n :: b.
Proof. intros ->. unfold add_super. pose proof (zlen_nonneg a). replace (zlen a <? 0) with false by lia. apply add_size_at. unfold zlen. lia. Qed.
Lemma add_super_len s n a : zlen (add_super s n a) = zlen a.
Proof. unfold add_super, zlen. destruct (s <? 0); [reflexivity|]. rewrite add_size_len. reflexivity. Qed.
Lemma add_super_0 s a : add_super s 0 a = a.
Proof. unfold add_super. destruct (s <? 0); [reflexivity|]. apply add_size_0. Qed.
Lemma add_super_add s n m a : add_super s m (add_super s n a) = add_super s (n + m) a.
Proof. unfold add_super. destruct (s <? 0); [reflexivity|]. apply add_size_add. Qed.
Lemma tk_split ts i t : tk ts i t -> exists a b, ts = a ++ t :: b /\ zlen a = i.
Proof. intros [I E]. apply nth_error_split in E as (a & b & -> & L). exists a, b. split; [reflexivity|]. unfold zlen. lia. Qed.
Lemma grow_super_eq x s ts : -1 <= s < zlen ts -> grow_super (P x s (Some ts)) = rret (P x s (Some (add_super s 1 ts))).
Proof.
  intros R. unfold grow_super. cbn [toks toksuper pos]. destruct (Z.eqb_spec s (-1)) as [->|N]; [reflexivity|]. destruct (tk_some ts s) as (t & T0); [lia|].
  destruct (tk_split _ _ _ T0) as (a & b & -> & L). unfold grow. rewrite at_app by lia. cbn [rbind rret]. rewrite put_app by lia. cbn [rbind rret]. rewrite add_super_at by lia. reflexivity.
Qed.

(** White space and scalars *)
Lemma skip_more x a r : 0 <= x -> zskip x js = a ++ r -> zskip (x + zlen a) js = r.
Proof. intros X E. rewrite Z.add_comm, <- zskip_zskip by (try lia; apply zlen_nonneg). rewrite E. apply zskip_app_len. reflexivity. Qed.
Lemma skip_cons x c r : 0 <= x -> zskip x js = c :: r -> zskip (x + 1) js = r.
Proof. intros X E. apply (skip_more x [c] r X E). Qed.
Lemma white_steps w : white w -> forall x s ts c r, 0 <= x -> zskip x js = w ++ r -> steps (List.length w) (P x s (Some ts)) c (P (x + zlen w) s (Some ts)) c.
Proof.
  induction 1 as [|ch w W _ IH]; intros x s ts c r X E; [unfold zlen; cbn; rewrite Z.add_0_r; constructor|]. cbn [app] in E. rewrite zlen_cons. replace (x + (1 + zlen w)) with (x + 1 + zlen w) by lia.
  apply (steps_S _ _ _ ch (w ++ r) (P x s (Some ts)) c); [exact E|lia| |eapply (IH (x + 1)); [lia|eapply skip_cons; eauto]].
  intros f F. destruct W as [->|[->|[->| ->]]]; reflexivity.
Qed.
Definition stops (r : list Z) : Prop := match r with [] => True | c :: _ => ends_primitive c = true end.
Lemma white_stops w r : white w -> stops r -> stops (w ++ r).
Proof. destruct 1 as [|c w W _]; [auto|]. intros _. cbn. destruct W as [->|[->|[->| ->]]]; reflexivity. Qed.
Lemma primitive_char c : is_alnum c = true \/ c = 43 \/ c = 45 \/ c = 46 ->
  c <> 0 /\ isin c [123; 91] = false /\ isin c [125; 93] = false /\ c <> 34 /\ isin c [9; 13; 10; 32] = false /\ c <> 58 /\ c <> 44 /\ ends_primitive c = false /\ (s8 c <? 32) || (127 <=? s8 c) = false.
Proof. unfold is_alnum, is_alpha, is_upper, is_lower, is_digit, ends_primitive, isin, s8. cbn [existsb]. intros H. repeat split; lia. Qed.
Lemma primitive_stop s r : Forall (fun c => is_alnum c = true \/ c = 43 \/ c = 45 \/ c = 46) s -> stops r -> forall n, primitive_end (s ++ r) n = Some (n + zlen s).
Proof.
  intros H R. induction H as [|c s C _ IH]; intros n.
  - unfold zlen. cbn [app List.length Z.of_nat]. rewrite Z.add_0_r. destruct r as [|c r]; [reflexivity|]. cbn in R |- *. rewrite R, orb_true_r. reflexivity.
  - cbn [app primitive_end]. destruct (primitive_char c C) as (A & _ & _ & _ & _ & _ & _ & B & D). replace (c =? 0) with false by lia. rewrite B, D. cbn [orb]. rewrite IH, zlen_cons. f_equal. lia.
Qed.
Lemma primitive_steps s : primitive s -> forall x p ts c r, 0 <= x -> zskip x js = s ++ r -> stops r -> -1 <= p < zlen ts -> zlen ts + 1 <= num ->
  steps 1 (P x p (Some ts)) c (P (x + zlen s) p (Some (add_super p 1 ts ++ [T JSMN_PRIMITIVE x (x + zlen s) 0 p None]))) (c + 1).
Proof.
  intros [NE H] x p ts c r X E R PR N. destruct s as [|ch s]; [congruence|]. pose proof (primitive_stop _ _ H R x) as PE. inversion H as [|? ? C]; subst. destruct (primitive_char ch C) as (A & B1 & B2 & B3 & B4 & B5 & B6 & _).
  cbn [app] in E, PE.
  set (q := P (x + zlen (ch :: s) - 1) p (Some (add_super p 1 ts ++ [T JSMN_PRIMITIVE x (x + zlen (ch :: s)) 0 p None]))).
  replace (P (x + zlen (ch :: s)) p (Some (add_super p 1 ts ++ [T JSMN_PRIMITIVE x (x + zlen (ch :: s)) 0 p None]))) with (at_pos q (pos q + 1)) by (unfold at_pos, q; cbn [pos toks toksuper]; f_equal; lia).
  apply (steps_one _ _ ch (s ++ r)); [exact E|exact A|]. intros f F. unfold one. rewrite B1, B2, B4. replace (ch =? 34) with false by lia. replace (ch =? 58) with false by lia. replace (ch =? 44) with false by lia.
  unfold parse_primitive. cbn [pos toks toksuper]. rewrite E, PE. unfold alloc_token. replace (num <=? zlen ts) with false by lia. change (0 <? 0) with false. cbv iota.
  rewrite grow_super_eq by (rewrite zlen_app; change (zlen [_]) with 1; lia). cbn [rbind rret]. rewrite add_super_app by lia. reflexivity.
Qed.
Lemma string_stop s r : chars s -> forall n, string_end Plain (s ++ 34 :: r) n = At (n + zlen s).
Proof.
  induction 1 as [|c s B Q K _ IH|c s C _ IH|a b c d s A B C D _ IH]; intros n.
  - cbn. unfold zlen. cbn. rewrite Z.add_0_r. reflexivity.
  - cbn [app string_end]. replace (c =? 0) with false by lia. replace (c =? 34) with false by lia. replace (c =? 92) with false by lia. rewrite IH, zlen_cons. f_equal. lia.
  - cbn [app string_end]. change (92 =? 0) with false. change (92 =? 34) with false. change (92 =? 92) with true. cbv iota.
    replace (isin c [34; 47; 92; 98; 102; 114; 110; 116]) with true; [rewrite IH, !zlen_cons; f_equal; lia|]. symmetry. apply isin_true. cbn in *. tauto.
  - assert (X : forall h, is_xdigit h = true -> h =? 0 = false /\ is_xdigit (s8 h) = true) by (intros h; unfold is_xdigit, is_digit, s8; lia).
    destruct (X a A) as [A1 A2]. destruct (X b B) as [B1 B2]. destruct (X c C) as [C1 C2]. destruct (X d D) as [D1 D2].
    cbn [app string_end]. change (92 =? 0) with false. change (92 =? 34) with false. change (92 =? 92) with true. change (isin 117 [34; 47; 92; 98; 102; 114; 110; 116]) with false. change (117 =? 117) with true. cbv iota.
    rewrite A1, A2, B1, B2, C1, C2, D1, D2, IH, !zlen_cons. f_equal. lia.
Qed.
Lemma string_steps s : chars s -> forall x p ts c r, 0 <= x -> zskip x js = 34 :: s ++ 34 :: r -> -1 <= p < zlen ts -> zlen ts + 1 <= num ->
  steps 1 (P x p (Some ts)) c (P (x + zlen s + 2) p (Some (add_super p 1 ts ++ [T JSMN_STRING (x + 1) (x + 1 + zlen s) 0 p None]))) (c + 1).
Proof.
  intros H x p ts c r X E PR N.
  set (q := P (x + 1 + zlen s) p (Some (add_super p 1 ts ++ [T JSMN_STRING (x + 1) (x + 1 + zlen s) 0 p None]))).
  replace (P (x + zlen s + 2) p (Some (add_super p 1 ts ++ [T JSMN_STRING (x + 1) (x + 1 + zlen s) 0 p None]))) with (at_pos q (pos q + 1)) by (unfold at_pos, q; cbn [pos toks toksuper]; f_equal; lia).
  apply (steps_one _ _ 34 (s ++ 34 :: r)); [exact E|lia|]. intros f F. unfold one. change (isin 34 [123; 91]) with false. change (isin 34 [125; 93]) with false. change (34 =? 34) with true. cbv iota.
  unfold parse_string. cbn [pos toks toksuper]. rewrite (skip_cons _ _ _ X E), (string_stop s r H). unfold alloc_token. replace (num <=? zlen ts) with false by lia. change (0 <? 0) with false. cbv iota.
  rewrite grow_super_eq by (rewrite zlen_app; change (zlen [_]) with 1; lia). cbn [rbind rret]. rewrite add_super_app by lia. reflexivity.
Qed.

(** The tokens of a value are as many as counted, and closed. *)
Lemma toks_count : (forall v tt x i p, zlen (vtoks tt v x i p) = vcount v) /\ (forall l tt f x i p, zlen (itoks tt f l x i p) = icount l) /\ (forall l tt f x i p, zlen (mtoks tt f l x i p) = mcount l).
Proof.
  apply json_ind; intros; cbn [vtoks itoks mtoks vcount icount mcount]; rewrite ?zlen_cons, ?zlen_app, ?H, ?H0; try reflexivity; lia.
Qed.
Lemma counts_pos : (forall v, 1 <= vcount v) /\ (forall l, 0 <= icount l) /\ (forall l, 0 <= mcount l).
Proof. apply json_ind; intros; cbn [vcount icount mcount]; lia. Qed.
Lemma toks_closed : (forall v tt x i p, 0 <= x -> Forall (fun t => en t <> -1) (vtoks tt v x i p)) /\ (forall l tt f x i p, 0 <= x -> Forall (fun t => en t <> -1) (itoks tt f l x i p)) /\
  (forall l tt f x i p, 0 <= x -> Forall (fun t => en t <> -1) (mtoks tt f l x i p)).
Proof.
  apply json_ind; intros; cbn [vtoks itoks mtoks].
  - constructor; [cbn; pose proof (zlen_nonneg s); lia|constructor].
  - constructor; [cbn; pose proof (zlen_nonneg s); lia|constructor].
  - constructor; [cbn [en]; pose proof (zlen_nonneg (vtext (Arr w l))); lia|]. apply H. pose proof (zlen_nonneg w). lia.
  - constructor; [cbn [en]; pose proof (zlen_nonneg (vtext (Obj w l))); lia|]. apply H. pose proof (zlen_nonneg w). lia.
  - constructor.
  - pose proof (zlen_nonneg (comma f)). pose proof (zlen_nonneg a). pose proof (zlen_nonneg b). pose proof (zlen_nonneg (vtext v)). apply Forall_app. split; [apply H; lia|apply H0; lia].
  - constructor.
  - pose proof (zlen_nonneg (comma f)). pose proof (zlen_nonneg a). pose proof (zlen_nonneg b). pose proof (zlen_nonneg c). pose proof (zlen_nonneg d). pose proof (zlen_nonneg k). pose proof (zlen_nonneg (vtext v)).
    constructor; [cbn [en]; lia|]. apply Forall_app. split; [apply H; lia|apply H0; lia].
Qed.

(** Opening and closing brackets *)
Lemma open_steps ch type x p ts c r : 0 <= x -> zskip x js = ch :: r -> (ch = 123 /\ type = JSMN_OBJECT) \/ (ch = 91 /\ type = JSMN_ARRAY) -> -1 <= p < zlen ts -> zlen ts + 1 <= num ->
  steps 1 (P x p (Some ts)) c (P (x + 1) (zlen ts) (Some (add_super p 1 ts ++ [T type x (-1) 0 p None]))) (c + 1).
Proof.
  intros X E C PR N. set (q := P x (zlen ts) (Some (add_super p 1 ts ++ [T type x (-1) 0 p None]))). apply (steps_one _ _ ch r q _); [exact E|lia|]. intros f F. unfold one.
  replace (isin ch [123; 91]) with true by (destruct C as [[-> _]|[-> _]]; reflexivity). cbn [toks pos toksuper]. unfold alloc_token. replace (num <=? zlen ts) with false by lia.
  replace (if ch =? 123 then JSMN_OBJECT else JSMN_ARRAY) with type by (destruct C as [[-> ->]|[-> ->]]; reflexivity).
  rewrite grow_super_eq by (rewrite zlen_app; change (zlen [_]) with 1; lia). cbn [rbind rret]. unfold toknext. cbn [pos toks]. rewrite add_super_len, zlen_app. change (zlen [_]) with 1. rewrite add_super_app by lia.
  unfold q. do 3 f_equal. lia.
Qed.
Lemma close_steps ch type x s ts1 u ts2 c r : zskip x js = ch :: r -> (ch = 125 /\ type = JSMN_OBJECT) \/ (ch = 93 /\ type = JSMN_ARRAY) -> ok (P x s (Some (ts1 ++ u :: ts2))) ->
  en u = -1 -> ty u = type -> Forall (fun t => en t <> -1) ts2 -> zlen (ts1 ++ u :: ts2) <= num ->
  steps 1 (P x s (Some (ts1 ++ u :: ts2))) c (P (x + 1) (par u) (Some (ts1 ++ closed u x :: ts2))) c.
Proof.
  intros E C (X & ts & TE & G & SO) O TY F2 N. cbn [toks pos toksuper] in *. injection TE as <-.
  set (q := P x (par u) (Some (ts1 ++ closed u x :: ts2))). apply (steps_one _ _ ch r q _); [exact E|lia|]. intros f F. unfold one.
  replace (isin ch [123; 91]) with false by (destruct C as [[-> _]|[-> _]]; reflexivity). replace (isin ch [125; 93]) with true by (destruct C as [[-> _]|[-> _]]; reflexivity). cbn [toks pos toksuper toknext].
  replace (if ch =? 125 then JSMN_OBJECT else JSMN_ARRAY) with type by (destruct C as [[-> ->]|[-> ->]]; reflexivity).
  assert (L : zlen (ts1 ++ u :: ts2) = zlen ts1 + 1 + zlen ts2) by (rewrite zlen_app, zlen_cons; lia). pose proof (zlen_nonneg ts1). pose proof (zlen_nonneg ts2).
  replace (zlen (ts1 ++ u :: ts2) <? 1) with false by lia.
  assert (U : tk (ts1 ++ u :: ts2) (zlen ts1) u). { apply tk_app. right. split; [lia|]. rewrite Z.sub_diag. split; [lia|reflexivity]. }
  destruct (close_ok _ _ type s x G f (zlen (ts1 ++ u :: ts2) - 1)) as (q0 & E1 & _ & MX); [lia|lia|].
  destruct (MX (zlen ts1) u U O) as (ts' & E2 & ->).
  - eapply g_last; eauto.
  - intros a t T0 TO. apply tk_app in T0 as [T0|[LE T0]]; [pose proof (tk_range _ _ _ T0); lia|]. destruct (Z.eq_dec a (zlen ts1)) as [->|NA]; [lia|].
    exfalso. apply (tk_app [u] ts2) in T0 as [T0|[_ T0]]; [pose proof (tk_range _ _ _ T0) as TR; change (zlen [u]) with 1 in TR; lia|]. apply tk_in in T0. rewrite Forall_forall in F2. exact (F2 _ T0 TO).
  - exact TY.
  - rewrite E1. cbn [rbind rret]. rewrite put_app in E2 by lia. injection E2 as <-. reflexivity.
Qed.
Lemma comma_steps x s ts c r : 0 <= x -> zskip x js = 44 :: r -> 0 <= s < zlen ts -> forall t, tk ts s t -> steps 1 (P x s (Some ts)) c (P (x + 1) (if isin (ty t) [JSMN_ARRAY; JSMN_OBJECT] then s else par t) (Some ts)) c.
Proof.
  intros X E R t T0. set (q := P x (if isin (ty t) [JSMN_ARRAY; JSMN_OBJECT] then s else par t) (Some ts)). apply (steps_one _ _ 44 r q _); [exact E|lia|]. intros f F. unfold one. change (isin 44 [123; 91]) with false.
  change (isin 44 [125; 93]) with false. change (44 =? 34) with false. change (isin 44 [9; 13; 10; 32]) with false. change (44 =? 58) with false. change (44 =? 44) with true. cbv iota. cbn [toks toksuper].
  replace (s =? -1) with false by lia. rewrite (tk_at _ _ _ T0). cbn [rbind rret]. unfold q. destruct (isin (ty t) [JSMN_ARRAY; JSMN_OBJECT]); reflexivity.
Qed.
Lemma colon_steps x s ts c r : zskip x js = 58 :: r -> steps 1 (P x s (Some ts)) c (P (x + 1) (zlen ts - 1) (Some ts)) c.
Proof. intros E. set (q := P x (zlen ts - 1) (Some ts)). apply (steps_one _ _ 58 r q _); [exact E|lia|]. intros f F. reflexivity. Qed.

(** ** Values *)
Definition value_steps (v : value) : Prop := json v -> forall x s ts c r, zskip x js = vtext v ++ r -> stops r -> ok (P x s (Some ts)) -> zlen ts + vcount v <= num ->
  exists n, (n <= List.length (vtext v))%nat /\ steps n (P x s (Some ts)) c (P (x + zlen (vtext v)) s (Some (add_super s 1 ts ++ vtoks false v x (zlen ts) s))) (c + vcount v).
Definition items_steps (l : items) : Prop := jitems l -> forall first x s ts c r u, zskip x js = itext first l ++ r -> stops r -> r <> [] -> ok (P x s (Some ts)) -> tk ts s u -> ty u = JSMN_ARRAY -> zlen ts + icount l <= num ->
  exists n, (n <= List.length (itext first l))%nat /\ steps n (P x s (Some ts)) c (P (x + zlen (itext first l)) s (Some (add_super s (ilen l) ts ++ itoks false first l x (zlen ts) s))) (c + icount l).
Definition super_of (ts : list tok) (first : bool) (e s : Z) : Prop := if first then e = s else exists t, tk ts e t /\ ty t = JSMN_STRING /\ par t = s.
Definition members_steps (l : members) : Prop := jmembers l -> forall first x e s ts c r u, zskip x js = mtext first l ++ r -> stops r -> r <> [] -> ok (P x e (Some ts)) -> super_of ts first e s -> tk ts s u -> ty u = JSMN_OBJECT -> zlen ts + mcount l <= num ->
  exists n e', (n <= List.length (mtext first l))%nat /\ steps n (P x e (Some ts)) c (P (x + zlen (mtext first l)) e' (Some (add_super s (mlen l) ts ++ mtoks false first l x (zlen ts) s))) (c + mcount l).
Lemma steps_value : (forall v, value_steps v) /\ (forall l, items_steps l) /\ (forall l, members_steps l).
Proof.
  destruct toks_count as (TV & TI & TM). destruct counts_pos as (CV & CI & CM).
  apply json_ind; unfold value_steps, items_steps, members_steps.
  - (* a primitive *)
    intros s H x p ts c r E R (X & ts0 & TE & G & SO) N. cbn [pos toks toksuper] in *. injection TE as <-. cbn [vtext vcount vtoks] in *. exists 1%nat. split.
    + destruct H as [NE _]. destruct s; [congruence|cbn; lia].
    + apply (primitive_steps s H x p ts c r X E R); [apply SO|exact N].
  - (* a string *)
    intros s H x p ts c r E R (X & ts0 & TE & G & SO) N. cbn [pos toks toksuper] in *. injection TE as <-. cbn [vtext vcount vtoks] in *. exists 1%nat. split; [cbn; lia|].
    cbn [app] in E. rewrite <- app_assoc in E. cbn [app] in E. rewrite zlen_cons, zlen_app. change (zlen [34]) with 1. replace (x + (1 + (zlen s + 1))) with (x + zlen s + 2) by lia.
    apply (string_steps s H x p ts c r X E); [apply SO|exact N].
  - (* an array *)
    intros w l IH (W & J) x p ts c r E R OK N. pose proof OK as (X & ts0 & TE & G & SO). cbn [pos toks toksuper] in *. injection TE as <-. cbn [vtext vcount] in *. pose proof (CI l) as CIl.
    cbn [app] in E. rewrite <- !app_assoc in E. cbn [app] in E.
    pose proof (open_steps 91 JSMN_ARRAY x p ts c _ X E (or_intror (conj eq_refl eq_refl)) (proj1 SO)) as S1. specialize (S1 ltac:(lia)). set (u := T JSMN_ARRAY x (-1) 0 p None) in *.
    apply skip_cons in E; [|exact X]. pose proof (white_steps w W (x + 1) (zlen ts) (add_super p 1 ts ++ [u]) (c + 1) _ ltac:(lia) E) as S2.
    apply skip_more in E; [|lia]. assert (OK2 : ok (P (x + 1 + zlen w) (zlen ts) (Some (add_super p 1 ts ++ [u])))) by (eapply steps_ok; [exact S2|eapply steps_ok; [exact S1|exact OK]]).
    assert (LU : zlen (add_super p 1 ts ++ [u]) = zlen ts + 1) by (rewrite zlen_app, add_super_len; reflexivity).
    destruct (IH J true (x + 1 + zlen w) (zlen ts) (add_super p 1 ts ++ [u]) (c + 1) (93 :: r) u) as (n & NL & S3); auto; [reflexivity|discriminate| |lia|].
    { apply tk_snoc. right. rewrite add_super_len. auto. }
    rewrite LU in S3. rewrite add_super_at in S3 by (rewrite add_super_len; reflexivity). rewrite <- app_assoc in S3. cbn [app] in S3.
    assert (OK3 := steps_ok _ _ _ _ _ S3 OK2). pose proof (zlen_nonneg w). pose proof (zlen_nonneg (itext true l)).
    pose proof (close_steps 93 JSMN_ARRAY _ _ _ _ _ (c + 1 + icount l) r (skip_more (x + 1 + zlen w) _ _ ltac:(lia) E) (or_intror (conj eq_refl eq_refl)) OK3 eq_refl eq_refl) as S4.
    specialize (S4 (proj1 (proj2 toks_closed) l false true (x + 1 + zlen w) _ _ ltac:(lia))). rewrite zlen_app, zlen_cons, add_super_len, TI in S4. specialize (S4 ltac:(lia)).
    exists (1 + List.length w + n + 1)%nat. split; [cbn [List.length]; rewrite !app_length; cbn [List.length]; lia|].
    pose proof (steps_app _ _ _ _ _ _ _ _ (steps_app _ _ _ _ _ _ _ _ (steps_app _ _ _ _ _ _ _ _ S1 S2) S3) S4) as ALL.
    rewrite zlen_cons, !zlen_app. change (zlen [93]) with 1. replace (x + (1 + (zlen w + (zlen (itext true l) + 1)))) with (x + 1 + zlen w + zlen (itext true l) + 1) by lia.
    replace (c + (1 + icount l)) with (c + 1 + icount l) by lia.
    replace (vtoks false (Arr w l) x (zlen ts) p) with (closed (more u (ilen l)) (x + 1 + zlen w + zlen (itext true l)) :: itoks false true l (x + 1 + zlen w) (zlen ts + 1) (zlen ts)); [exact ALL|].
    cbn [vtoks]. f_equal. unfold closed, more, u, tot_. cbn [ty st en sz par tot vtext]. rewrite zlen_cons, !zlen_app. change (zlen [93]) with 1. f_equal; lia.
  - (* an object *)
    intros w l IH (W & J) x p ts c r E R OK N. pose proof OK as (X & ts0 & TE & G & SO). cbn [pos toks toksuper] in *. injection TE as <-. cbn [vtext vcount] in *. pose proof (CM l) as CMl.
    cbn [app] in E. rewrite <- !app_assoc in E. cbn [app] in E.
    pose proof (open_steps 123 JSMN_OBJECT x p ts c _ X E (or_introl (conj eq_refl eq_refl)) (proj1 SO)) as S1. specialize (S1 ltac:(lia)). set (u := T JSMN_OBJECT x (-1) 0 p None) in *.
    apply skip_cons in E; [|exact X]. pose proof (white_steps w W (x + 1) (zlen ts) (add_super p 1 ts ++ [u]) (c + 1) _ ltac:(lia) E) as S2.
    apply skip_more in E; [|lia]. assert (OK2 : ok (P (x + 1 + zlen w) (zlen ts) (Some (add_super p 1 ts ++ [u])))) by (eapply steps_ok; [exact S2|eapply steps_ok; [exact S1|exact OK]]).
    assert (LU : zlen (add_super p 1 ts ++ [u]) = zlen ts + 1) by (rewrite zlen_app, add_super_len; reflexivity).
    destruct (IH J true (x + 1 + zlen w) (zlen ts) (zlen ts) (add_super p 1 ts ++ [u]) (c + 1) (125 :: r) u) as (n & e' & NL & S3); auto; [reflexivity|discriminate|reflexivity| |lia|].
    { apply tk_snoc. right. rewrite add_super_len. auto. }
    rewrite LU in S3. rewrite add_super_at in S3 by (rewrite add_super_len; reflexivity). rewrite <- app_assoc in S3. cbn [app] in S3.
    assert (OK3 := steps_ok _ _ _ _ _ S3 OK2). pose proof (zlen_nonneg w). pose proof (zlen_nonneg (mtext true l)).
    pose proof (close_steps 125 JSMN_OBJECT _ _ _ _ _ (c + 1 + mcount l) r (skip_more (x + 1 + zlen w) _ _ ltac:(lia) E) (or_introl (conj eq_refl eq_refl)) OK3 eq_refl eq_refl) as S4.
    specialize (S4 (proj2 (proj2 toks_closed) l false true (x + 1 + zlen w) _ _ ltac:(lia))). rewrite zlen_app, zlen_cons, add_super_len, TM in S4. specialize (S4 ltac:(lia)).
    exists (1 + List.length w + n + 1)%nat. split; [cbn [List.length]; rewrite !app_length; cbn [List.length]; lia|].
    pose proof (steps_app _ _ _ _ _ _ _ _ (steps_app _ _ _ _ _ _ _ _ (steps_app _ _ _ _ _ _ _ _ S1 S2) S3) S4) as ALL.
    rewrite zlen_cons, !zlen_app. change (zlen [125]) with 1. replace (x + (1 + (zlen w + (zlen (mtext true l) + 1)))) with (x + 1 + zlen w + zlen (mtext true l) + 1) by lia.
    replace (c + (1 + mcount l)) with (c + 1 + mcount l) by lia.
    replace (vtoks false (Obj w l) x (zlen ts) p) with (closed (more u (mlen l)) (x + 1 + zlen w + zlen (mtext true l)) :: mtoks false true l (x + 1 + zlen w) (zlen ts + 1) (zlen ts)); [exact ALL|].
    cbn [vtoks]. f_equal. unfold closed, more, u, tot_. cbn [ty st en sz par tot vtext]. rewrite zlen_cons, !zlen_app. change (zlen [125]) with 1. f_equal; lia.
  - (* no items *)
    intros _ first x s ts c r u E R RN OK U TY N. exists 0%nat. split; [lia|]. cbn [itext itoks ilen icount]. change (zlen []) with 0. rewrite add_super_0, app_nil_r, !Z.add_0_r. constructor.
  - (* an item *)
    intros a v IHv b l IHl (WA & JV & WB & JL) first x s ts c r u E R RN OK U TY N. cbn [itext icount ilen itoks] in *. pose proof (CI l). pose proof (CV v). pose proof OK as (X & _). cbn [pos] in X.
    rewrite <- !app_assoc in E. pose proof (tk_range _ _ _ U) as UR.
    assert (S0 : exists n, (n <= List.length (comma first))%nat /\ steps n (P x s (Some ts)) c (P (x + zlen (comma first)) s (Some ts)) c).
    { destruct first; cbn [comma].
      - exists 0%nat. split; [lia|]. change (zlen []) with 0. rewrite Z.add_0_r. constructor.
      - exists 1%nat. split; [cbn; lia|]. pose proof (comma_steps x s ts c _ X E UR u U) as S0. rewrite TY in S0. exact S0. }
    destruct S0 as (n0 & L0 & S0). apply skip_more in E; [|exact X]. pose proof (zlen_nonneg (comma first)). pose proof (zlen_nonneg a). pose proof (zlen_nonneg b). pose proof (zlen_nonneg (vtext v)).
    pose proof (white_steps a WA (x + zlen (comma first)) s ts c _ ltac:(lia) E) as S1. apply skip_more in E; [|lia].
    assert (OK1 := steps_ok _ _ _ _ _ S1 (steps_ok _ _ _ _ _ S0 OK)).
    assert (ST : stops (b ++ itext false l ++ r)). { apply white_stops; [exact WB|]. destruct l; cbn; [exact R|reflexivity]. }
    destruct (IHv JV _ s ts c _ E ST OK1) as (n2 & L2 & S2); [lia|]. set (ts2 := add_super s 1 ts ++ vtoks false v (x + zlen (comma first) + zlen a) (zlen ts) s) in *.
    apply skip_more in E; [|lia]. pose proof (white_steps b WB (x + zlen (comma first) + zlen a + zlen (vtext v)) s ts2 (c + vcount v) _ ltac:(lia) E) as S3. apply skip_more in E; [|lia].
    assert (OK3 := steps_ok _ _ _ _ _ S3 (steps_ok _ _ _ _ _ S2 OK1)).
    assert (LE2 : zlen ts2 = zlen ts + vcount v) by (unfold ts2; rewrite zlen_app, add_super_len, TV; reflexivity).
    assert (U2 : tk ts2 s (more u 1)). { destruct (tk_split _ _ _ U) as (t1 & t2 & -> & L). unfold ts2. rewrite add_super_at by lia. rewrite <- app_assoc. apply tk_app. right. split; [lia|]. replace (s - zlen t1) with 0 by lia. split; [lia|reflexivity]. }
    destruct (IHl JL false _ s ts2 (c + vcount v) r (more u 1) E R RN OK3 U2 TY) as (n4 & L4 & S4); [lia|].
    exists (n0 + List.length a + n2 + List.length b + n4)%nat. split; [rewrite !app_length; lia|].
    pose proof (steps_app _ _ _ _ _ _ _ _ (steps_app _ _ _ _ _ _ _ _ (steps_app _ _ _ _ _ _ _ _ (steps_app _ _ _ _ _ _ _ _ S0 S1) S2) S3) S4) as ALL.
    rewrite !zlen_app. replace (x + (zlen (comma first) + (zlen a + (zlen (vtext v) + (zlen b + zlen (itext false l)))))) with (x + zlen (comma first) + zlen a + zlen (vtext v) + zlen b + zlen (itext false l)) by lia.
    replace (c + (vcount v + icount l)) with (c + vcount v + icount l) by lia. rewrite LE2 in ALL. unfold ts2 in ALL. rewrite add_super_app in ALL by (rewrite add_super_len; lia). rewrite add_super_add, <- app_assoc in ALL. exact ALL.
  - (* no members *)
    intros _ first x e s ts c r u E R RN OK SU U TY N. exists 0%nat, e. split; [lia|]. cbn [mtext mtoks mlen mcount]. change (zlen []) with 0. rewrite add_super_0, app_nil_r, !Z.add_0_r. constructor.
  - (* a member *)
    intros a k b d v IHv e0 l IHl (WA & CK & WB & WC & JV & WD & JL) first x e s ts c r u E R RN OK SU U TY N. cbn [mtext mcount mlen mtoks] in *. pose proof (CM l). pose proof (CV v). pose proof OK as (X & _). cbn [pos] in X.
    rewrite <- !app_assoc in E. cbn [app] in E. rewrite <- !app_assoc in E. cbn [app] in E. rewrite <- !app_assoc in E. cbn [app] in E. rewrite <- !app_assoc in E. pose proof (tk_range _ _ _ U) as UR.
    assert (S0 : exists n, (n <= List.length (comma first))%nat /\ steps n (P x e (Some ts)) c (P (x + zlen (comma first)) s (Some ts)) c).
    { destruct first; cbn [comma].
      - cbn in SU. subst e. exists 0%nat. split; [lia|]. change (zlen []) with 0. rewrite Z.add_0_r. constructor.
      - destruct SU as (t & T0 & T1 & T2). exists 1%nat. split; [cbn; lia|]. pose proof (comma_steps x e ts c _ X E (tk_range _ _ _ T0) t T0) as S0. rewrite T1, T2 in S0. exact S0. }
    destruct S0 as (n0 & L0 & S0). apply skip_more in E; [|exact X]. pose proof (zlen_nonneg (comma first)). pose proof (zlen_nonneg a). pose proof (zlen_nonneg b). pose proof (zlen_nonneg d). pose proof (zlen_nonneg e0). pose proof (zlen_nonneg k). pose proof (zlen_nonneg (vtext v)).
    pose proof (white_steps a WA (x + zlen (comma first)) s ts c _ ltac:(lia) E) as S1. apply skip_more in E; [|lia].
    set (x1 := x + zlen (comma first) + zlen a) in *.
    pose proof (string_steps k CK x1 s ts c _ ltac:(lia) E ltac:(lia) ltac:(lia)) as S2. set (key := T JSMN_STRING (x1 + 1) (x1 + 1 + zlen k) 0 s None) in *.
    replace (34 :: k ++ 34 :: b ++ 58 :: d ++ vtext v ++ e0 ++ mtext false l ++ r) with ((34 :: k ++ [34]) ++ b ++ 58 :: d ++ vtext v ++ e0 ++ mtext false l ++ r) in E by (cbn; rewrite <- app_assoc; reflexivity).
    apply skip_more in E; [|lia]. rewrite zlen_cons, zlen_app in E. change (zlen [34]) with 1 in E. replace (x1 + (1 + (zlen k + 1))) with (x1 + zlen k + 2) in E by lia.
    pose proof (white_steps b WB (x1 + zlen k + 2) s (add_super s 1 ts ++ [key]) (c + 1) _ ltac:(lia) E) as S3. apply skip_more in E; [|lia].
    pose proof (colon_steps _ s (add_super s 1 ts ++ [key]) (c + 1) _ E) as S4. apply skip_cons in E; [|lia].
    assert (LK : zlen (add_super s 1 ts ++ [key]) = zlen ts + 1) by (rewrite zlen_app, add_super_len; reflexivity).
    rewrite LK in S4. replace (zlen ts + 1 - 1) with (zlen ts) in S4 by lia.
    pose proof (white_steps d WC (x1 + zlen k + 2 + zlen b + 1) (zlen ts) (add_super s 1 ts ++ [key]) (c + 1) _ ltac:(lia) E) as S5. apply skip_more in E; [|lia].
    assert (OK5 := steps_ok _ _ _ _ _ S5 (steps_ok _ _ _ _ _ S4 (steps_ok _ _ _ _ _ S3 (steps_ok _ _ _ _ _ S2 (steps_ok _ _ _ _ _ S1 (steps_ok _ _ _ _ _ S0 OK)))))).
    assert (ST : stops (e0 ++ mtext false l ++ r)). { apply white_stops; [exact WD|]. destruct l; cbn; [exact R|reflexivity]. }
    destruct (IHv JV _ (zlen ts) (add_super s 1 ts ++ [key]) (c + 1) _ E ST OK5) as (n6 & L6 & S6); [lia|].
    rewrite LK in S6. rewrite add_super_at in S6 by (rewrite add_super_len; reflexivity).
    set (x2 := x1 + zlen k + 2 + zlen b + 1 + zlen d) in *. set (ts2 := (add_super s 1 ts ++ [more key 1]) ++ vtoks false v x2 (zlen ts + 1) (zlen ts)) in *.
    apply skip_more in E; [|lia]. pose proof (white_steps e0 WD (x2 + zlen (vtext v)) (zlen ts) ts2 (c + 1 + vcount v) _ ltac:(lia) E) as S7. apply skip_more in E; [|lia].
    assert (OK7 := steps_ok _ _ _ _ _ S7 (steps_ok _ _ _ _ _ S6 OK5)).
    assert (LE2 : zlen ts2 = zlen ts + 1 + vcount v) by (unfold ts2; rewrite !zlen_app, add_super_len, TV; reflexivity).
    assert (U2 : tk ts2 s (more u 1)).
    { destruct (tk_split _ _ _ U) as (t1 & t2 & -> & L). unfold ts2. rewrite add_super_at by lia. rewrite <- !app_assoc. apply tk_app. right. split; [lia|]. replace (s - zlen t1) with 0 by lia. split; [lia|reflexivity]. }
    assert (SU2 : super_of ts2 false (zlen ts) s).
    { exists (more key 1). split; [|split; reflexivity]. unfold ts2. apply tk_app. left. apply tk_snoc. right. rewrite add_super_len. auto. }
    destruct (IHl JL false _ (zlen ts) s ts2 (c + 1 + vcount v) r (more u 1) E R RN OK7 SU2 U2 TY) as (n8 & e' & L8 & S8); [lia|].
    exists (n0 + List.length a + 1 + List.length b + 1 + List.length d + n6 + List.length e0 + n8)%nat, e'. split; [rewrite !app_length; cbn [List.length]; rewrite !app_length; cbn [List.length]; rewrite !app_length; cbn [List.length]; rewrite !app_length; lia|].
    pose proof (steps_app _ _ _ _ _ _ _ _ (steps_app _ _ _ _ _ _ _ _ (steps_app _ _ _ _ _ _ _ _ (steps_app _ _ _ _ _ _ _ _ (steps_app _ _ _ _ _ _ _ _ (steps_app _ _ _ _ _ _ _ _ (steps_app _ _ _ _ _ _ _ _ (steps_app _ _ _ _ _ _ _ _ S0 S1) S2) S3) S4) S5) S6) S7) S8) as ALL.
    rewrite !zlen_app, !zlen_cons, !zlen_app, !zlen_cons, !zlen_app, !zlen_cons, !zlen_app.
    replace (x + (zlen (comma first) + (zlen a + (1 + (zlen k + (1 + (zlen b + (1 + (zlen d + (zlen (vtext v) + (zlen e0 + zlen (mtext false l)))))))))))) with (x2 + zlen (vtext v) + zlen e0 + zlen (mtext false l)) by (unfold x2, x1; lia).
    replace (c + (1 + vcount v + mcount l)) with (c + 1 + vcount v + mcount l) by lia. fold x1. replace (x1 + 1 + zlen k + 1 + zlen b + 1 + zlen d) with x2 by (unfold x2; lia).
    rewrite LE2 in ALL. unfold ts2 in ALL. rewrite <- !app_assoc in ALL. cbn [app] in ALL. rewrite add_super_app in ALL by (rewrite add_super_len; lia). rewrite add_super_add in ALL. rewrite <- app_assoc in ALL. cbn [app] in ALL. exact ALL.
Qed.
End Parse.
