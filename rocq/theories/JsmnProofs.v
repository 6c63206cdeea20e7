(** The tokens jsmn_parse hands out. *)
From Verif Require Import Base BaseFacts ListFacts Types Sort SortProofs Xb XbWrite Jsmn.

Definition tk (ts : list tok) (i : Z) (t : tok) : Prop := 0 <= i /\ nth_error ts (Z.to_nat i) = Some t.
Lemma tk_at ts i t : tk ts i t -> at_ ts i = rret t.
Proof. intros [I E]. unfold at_. replace (i <? 0) with false by lia. rewrite E. reflexivity. Qed.
Lemma tk_range ts i t : tk ts i t -> 0 <= i < zlen ts.
Proof. intros [I E]. assert (Z.to_nat i < List.length ts)%nat by (apply nth_error_Some; congruence). unfold zlen. lia. Qed.
Lemma tk_some ts i : 0 <= i < zlen ts -> exists t, tk ts i t.
Proof. unfold zlen. intros I. destruct (nth_error ts (Z.to_nat i)) as [t|] eqn:E; [exists t; split; [lia|exact E]|]. apply nth_error_None in E. lia. Qed.
Lemma tk_fun ts i t u : tk ts i t -> tk ts i u -> t = u.
Proof. intros [_ E] [_ F]. congruence. Qed.
Lemma tk_in ts i t : tk ts i t -> In t ts.
Proof. intros [_ E]. eapply nth_error_In; eauto. Qed.
Lemma in_tk ts t : In t ts -> exists i, tk ts i t.
Proof. intros I. apply In_nth_error in I as (n & E). exists (Z.of_nat n). split; [lia|]. rewrite Nat2Z.id. exact E. Qed.
Lemma tk_app ts us i t : tk (ts ++ us) i t <-> tk ts i t \/ (zlen ts <= i /\ tk us (i - zlen ts) t).
Proof.
  unfold tk, zlen. split.
  - intros [I E]. destruct (Z.ltb_spec i (Z.of_nat (List.length ts))).
    + left. rewrite nth_error_app1 in E by lia. auto.
    + right. rewrite nth_error_app2 in E by lia. split; [lia|]. split; [lia|]. rewrite <- E. f_equal. lia.
  - intros [[I E]|[L [I E]]].
    + split; [exact I|]. rewrite nth_error_app1; [exact E|]. apply nth_error_Some. congruence.
    + split; [lia|]. rewrite nth_error_app2 by lia. rewrite <- E. f_equal. lia.
Qed.
Lemma tk_one u i t : tk [u] i t <-> i = 0 /\ t = u.
Proof.
  split.
  - intros T0. pose proof (tk_range _ _ _ T0) as R. change (zlen [u]) with 1 in R. assert (i = 0) by lia. subst. destruct T0 as [_ E]. change (Z.to_nat 0) with 0%nat in E. cbn in E. split; congruence.
  - intros [-> ->]. split; [lia|reflexivity].
Qed.
Lemma tk_snoc ts u i t : tk (ts ++ [u]) i t <-> tk ts i t \/ (i = zlen ts /\ t = u).
Proof. rewrite tk_app, tk_one. pose proof (zlen_nonneg ts). split; (intros [A|[A B]]; [auto|right]); [destruct B; split; [lia|assumption]|subst; split; [lia|]; split; [lia|reflexivity]]. Qed.
Lemma tk_put ts i t u : tk ts i t -> exists ts', put ts i u = rret ts' /\ zlen ts' = zlen ts /\ forall j v, tk ts' j v <-> (j = i /\ v = u) \/ (j <> i /\ tk ts j v).
Proof.
  intros T0. pose proof (tk_range _ _ _ T0) as R. unfold put. replace ((i <? 0) || (zlen ts <=? i)) with false by lia. eexists. split; [reflexivity|].
  assert (LT : zlen (ztake i ts) = i) by (rewrite zlen_take by lia; lia). split.
  - rewrite !zlen_app, LT. change (zlen [u]) with 1. rewrite zlen_skip by lia. lia.
  - intros j v. rewrite <- (ztake_zskip i ts) at 3. rewrite tk_app, tk_app, tk_app, tk_one. rewrite LT. change (zlen [u]) with 1.
    replace (zskip i ts) with (t :: zskip (i + 1) ts).
    + rewrite (tk_app [t] (zskip (i + 1) ts)), tk_one. change (zlen [t]) with 1. split.
      * intros [A|[A [B|B]]].
        -- right. pose proof (tk_range _ _ _ A). rewrite LT in *. split; [lia|auto].
        -- left. destruct B. split; [lia|auto].
        -- right. split; [lia|]. right. split; [lia|]. right. exact B.
      * intros [[-> ->]|[N [A|[A [[B ->]|B]]]]]; [right; split; [lia|]; left; split; [lia|reflexivity]|auto|lia|]. right. split; [lia|]. right. exact B.
    + destruct T0 as [_ E]. unfold zskip. apply nth_error_split in E as (a & b & -> & L). replace (Z.to_nat (i + 1)) with (Datatypes.S (List.length a)) by lia. rewrite <- L.
      rewrite (skipn_app (List.length a) a), skipn_all, Nat.sub_diag. rewrite (skipn_app (Datatypes.S (List.length a)) a), (skipn_all2 (n := Datatypes.S (List.length a))) by lia. replace (Datatypes.S (List.length a) - List.length a)%nat with 1%nat by lia. reflexivity.
Qed.

(** Ancestors along the parents. *)
Inductive anc (ts : list tok) (a : Z) : Z -> Prop :=
| anc_self : anc ts a a
| anc_up j t : tk ts j t -> par t <> -1 -> anc ts a (par t) -> anc ts a j.
Definition same_parents (ts ts' : list tok) : Prop := forall j t, tk ts j t -> exists t', tk ts' j t' /\ par t' = par t.
Lemma anc_same ts ts' a j : same_parents ts ts' -> anc ts a j -> anc ts' a j.
Proof. intros S A. induction A as [|j t T0 N _ IH]; [constructor|]. destruct (S _ _ T0) as (t' & T' & E). apply (anc_up _ _ _ t' T'); rewrite E; auto. Qed.
Lemma same_snoc ts u : same_parents ts (ts ++ [u]).
Proof. intros j t T0. exists t. split; [apply tk_snoc; auto|reflexivity]. Qed.

Definition container (t : tok) : Prop := ty t = JSMN_OBJECT \/ ty t = JSMN_ARRAY.
Definition scalar (t : tok) : Prop := ty t = JSMN_STRING \/ ty t = JSMN_PRIMITIVE.
Lemma not_both t : container t -> scalar t -> False.
Proof. unfold container, scalar, JSMN_OBJECT, JSMN_ARRAY, JSMN_STRING, JSMN_PRIMITIVE. lia. Qed.
Definition tok_ok (i : Z) (t : tok) (x : Z) : Prop :=
  0 <= st t < x /\ -1 <= par t < i /\ ((en t = -1 /\ container t) \/ (st t <= en t <= x /\ (container t \/ scalar t))).
Lemma tok_later i t x y : tok_ok i t x -> x <= y -> tok_ok i t y.
Proof. intros (A & B & [C|[C D]]) L; split; [lia| |lia|]; (split; [lia|]); [left; exact C|right; split; [lia|exact D]]. Qed.
(** What holds of the tokens before position [x] is read. *)
Record good (ts : list tok) (x : Z) : Prop := Good {
  g_tok : forall i t, tk ts i t -> tok_ok i t x;
  g_pair : forall i j t u, tk ts i t -> tk ts j u -> i < j -> st t < st u /\ (en t = -1 \/ en t <= st u \/ (container t /\ en u <> -1 /\ en u <= en t));
  g_last : forall a t, tk ts a t -> en t = -1 -> anc ts a (zlen ts - 1) }.
Definition super_ok (ts : list tok) (s : Z) : Prop := -1 <= s < zlen ts /\ forall a t, tk ts a t -> en t = -1 -> s <> -1 /\ anc ts a s.
Lemma good_open ts x i t : good ts x -> tk ts i t -> is_open t = (en t =? -1).
Proof. intros G T0. destruct (g_tok _ _ G _ _ T0) as (S & _). unfold is_open. replace (st t =? -1) with false by lia. reflexivity. Qed.
Lemma anc_le ts x a j : good ts x -> anc ts a j -> a <= j.
Proof. intros G A. induction A as [|j t T0 _ _ IH]; [lia|]. destruct (g_tok _ _ G _ _ T0) as (_ & Q & _). lia. Qed.
Lemma good_later ts x y : x <= y -> good ts x -> good ts y.
Proof. intros L [A B C]. split; [|exact B|exact C]. intros i t T0. exact (tok_later _ _ _ _ (A i t T0) L). Qed.
Lemma good_nil x : good [] x.
Proof. split; intros i; intros; exfalso; match goal with H : tk [] _ _ |- _ => apply tk_range in H; unfold zlen in H; cbn in H; lia end. Qed.

(** Tokens that differ in their sizes only. *)
Definition like (ts ts' : list tok) : Prop :=
  zlen ts' = zlen ts /\ (forall j t, tk ts j t -> exists t', tk ts' j t' /\ ty t' = ty t /\ st t' = st t /\ en t' = en t /\ par t' = par t).
Lemma like_back ts ts' j t' : like ts ts' -> tk ts' j t' -> exists t, tk ts j t /\ ty t' = ty t /\ st t' = st t /\ en t' = en t /\ par t' = par t.
Proof.
  intros [L F] T0. pose proof (tk_range _ _ _ T0) as R. destruct (tk_some ts j) as (t & T1); [lia|]. destruct (F _ _ T1) as (u & T2 & E). rewrite (tk_fun _ _ _ _ T0 T2). eauto.
Qed.
Lemma like_same ts ts' : like ts ts' -> same_parents ts ts'.
Proof. intros [_ F] j t T0. destruct (F _ _ T0) as (t' & T1 & _ & _ & _ & E). eauto. Qed.
Lemma like_good ts ts' x : like ts ts' -> good ts x -> good ts' x.
Proof.
  intros K G. pose proof (like_same _ _ K) as S. destruct G as [A B C]. split.
  - intros i t T0. destruct (like_back _ _ _ _ K T0) as (u & T1 & E1 & E2 & E3 & E4). unfold tok_ok, container, scalar. rewrite E1, E2, E3, E4. exact (A _ _ T1).
  - intros i j t u T0 U0 I. destruct (like_back _ _ _ _ K T0) as (t1 & T1 & E1 & E2 & E3 & E4). destruct (like_back _ _ _ _ K U0) as (u1 & U1 & F1 & F2 & F3 & F4).
    unfold container. rewrite E1, E2, E3, F2, F3. exact (B _ _ _ _ T1 U1 I).
  - intros a t T0 O. destruct (like_back _ _ _ _ K T0) as (t1 & T1 & E1 & E2 & E3 & E4). rewrite (proj1 K). apply (anc_same ts); [exact S|]. apply (C _ t1 T1). congruence.
Qed.
Lemma like_super ts ts' s : like ts ts' -> super_ok ts s -> super_ok ts' s.
Proof.
  intros K [R F]. split; [rewrite (proj1 K); exact R|]. intros a t T0 O. destruct (like_back _ _ _ _ K T0) as (t1 & T1 & E1 & E2 & E3 & E4).
  destruct (F _ t1 T1) as [N A]; [congruence|]. split; [exact N|]. apply (anc_same ts); [apply like_same, K|exact A].
Qed.
Lemma grow_like ts i : 0 <= i < zlen ts -> exists ts', grow ts i = rret ts' /\ like ts ts'.
Proof.
  intros R. destruct (tk_some ts i R) as (t & T0). unfold grow. rewrite (tk_at _ _ _ T0). cbn [rbind rret].
  destruct (tk_put ts i t (T (ty t) (st t) (en t) (sz t + 1) (par t) (tot t)) T0) as (ts' & E & L & F). exists ts'. split; [exact E|]. split; [exact L|].
  intros j u U. destruct (Z.eq_dec j i) as [->|N].
  - rewrite (tk_fun _ _ _ _ U T0). eexists. split; [apply F; left; auto|]. cbn. auto.
  - exists u. split; [apply F; auto|auto].
Qed.
Lemma grow_super_ok x s ts : -1 <= s < zlen ts -> exists ts', grow_super (P x s (Some ts)) = rret (P x s (Some ts')) /\ like ts ts'.
Proof.
  intros R. unfold grow_super. cbn [toks toksuper pos]. destruct (Z.eqb_spec s (-1)) as [->|N].
  - exists ts. split; [reflexivity|]. split; [reflexivity|]. intros j t T0. exists t. auto.
  - destruct (grow_like ts s) as (ts' & E & K); [lia|]. rewrite E. exists ts'. split; [reflexivity|exact K].
Qed.

(** A new token: closed and scalar, or an open container that becomes toksuper. *)
Lemma good_scalar ts x y u : 0 <= x -> good ts x -> super_ok ts (par u) -> x <= st u -> st u < y -> st u <= en u <= y -> scalar u -> good (ts ++ [u]) y.
Proof.
  intros X0 [A B C] [R F] X Y E SC. split.
  - intros i t T0. apply tk_snoc in T0 as [T0|[-> ->]]; [apply (tok_later _ _ x _ (A _ _ T0)); lia|]. split; [lia|]. split; [lia|]. right. auto.
  - intros i j t v T0 V0 I. apply tk_snoc in T0 as [T0|[-> ->]]; apply tk_snoc in V0 as [V0|[-> ->]].
    + exact (B _ _ _ _ T0 V0 I).
    + destruct (A _ _ T0) as (A1 & _ & [[A2 _]|[A2 _]]); (split; [lia|]); [left; exact A2|right; left; lia].
    + pose proof (tk_range _ _ _ V0). lia.
    + lia.
  - intros a t T0 O. rewrite zlen_app. change (zlen [u]) with 1. replace (zlen ts + 1 - 1) with (zlen ts) by lia. apply tk_snoc in T0 as [T0|[-> ->]].
    + destruct (F _ _ T0 O) as [N A0]. apply (anc_up _ _ _ u); [apply tk_snoc; auto|exact N|]. apply (anc_same ts); [apply same_snoc|exact A0].
    + lia.
Qed.
Lemma super_snoc ts s u : super_ok ts s -> en u <> -1 -> super_ok (ts ++ [u]) s.
Proof.
  intros [R F] E. split; [rewrite zlen_app; change (zlen [u]) with 1; lia|]. intros a t T0 O. apply tk_snoc in T0 as [T0|[-> ->]]; [|contradiction].
  destruct (F _ _ T0 O) as [N A]. split; [exact N|]. apply (anc_same ts); [apply same_snoc|exact A].
Qed.
Lemma good_container ts x u : good ts x -> super_ok ts (par u) -> 0 <= x -> st u = x -> en u = -1 -> container u -> good (ts ++ [u]) (x + 1) /\ super_ok (ts ++ [u]) (zlen ts).
Proof.
  intros [A B C] [R F] X S E K.
  assert (AN : forall a t, tk (ts ++ [u]) a t -> en t = -1 -> anc (ts ++ [u]) a (zlen ts)).
  { intros a t T0 O. apply tk_snoc in T0 as [T0|[-> ->]]; [|constructor].
    destruct (F _ _ T0 O) as [N A0]. apply (anc_up _ _ _ u); [apply tk_snoc; auto|exact N|]. apply (anc_same ts); [apply same_snoc|exact A0]. }
  split.
  - split.
    + intros i t T0. apply tk_snoc in T0 as [T0|[-> ->]]; [apply (tok_later _ _ x _ (A _ _ T0)); lia|]. split; [lia|]. split; [lia|]. left. auto.
    + intros i j t v T0 V0 I. apply tk_snoc in T0 as [T0|[-> ->]]; apply tk_snoc in V0 as [V0|[-> ->]].
      * exact (B _ _ _ _ T0 V0 I).
      * destruct (A _ _ T0) as (A1 & _ & [[A2 _]|[A2 _]]); (split; [lia|]); [left; exact A2|right; left; lia].
      * pose proof (tk_range _ _ _ V0). lia.
      * lia.
    + intros a t T0 O. rewrite zlen_app. change (zlen [u]) with 1. replace (zlen ts + 1 - 1) with (zlen ts) by lia. exact (AN _ _ T0 O).
  - split; [rewrite zlen_app; change (zlen [u]) with 1; pose proof (zlen_nonneg ts); lia|]. intros a t T0 O. split; [pose proof (zlen_nonneg ts); lia|exact (AN _ _ T0 O)].
Qed.

(** A closing bracket: the innermost open container is closed, if there is one. *)
Definition closed (t : tok) (x : Z) : tok := T (ty t) (st t) (x + 1) (sz t) (par t) (tot t).
Lemma close_ok ts y type super x : good ts y -> forall fuel i, 0 <= i < zlen ts -> i < Z.of_nat fuel ->
  exists r, close fuel ts type super x i = rret r /\
  match r with
  | None => True
  | Some (ts', s) =>
      (ts' = ts /\ s = super /\ forall a t, tk ts a t -> anc ts a i -> en t <> -1) \/
      (exists j t, tk ts j t /\ en t = -1 /\ ty t = type /\ put ts j (closed t x) = rret ts' /\ s = par t /\ anc ts j i /\ forall a u, tk ts a u -> en u = -1 -> anc ts a i -> anc ts a j)
  end /\ (forall j t, tk ts j t -> en t = -1 -> anc ts j i -> (forall a u, tk ts a u -> en u = -1 -> a <= j) -> ty t = type -> exists ts', put ts j (closed t x) = rret ts' /\ r = Some (ts', par t)).
Proof.
  intros G. induction fuel as [|k IH]; intros i R FU; [lia|]. cbn [close]. destruct (tk_some ts i R) as (t & T0). rewrite (tk_at _ _ _ T0). cbn [rbind rret].
  rewrite (good_open _ _ _ _ G T0). destruct (Z.eqb_spec (en t) (-1)) as [O|O].
  - destruct (tk_put ts i t (closed t x) T0) as (ts' & E & _). destruct (Z.eqb_spec (ty t) type) as [TY|TY]; cbn [negb].
    + unfold closed in E. rewrite E. cbn [rbind rret]. eexists. split; [reflexivity|]. split.
      * right. exists i, t. split; [exact T0|]. split; [exact O|]. split; [exact TY|]. split; [exact E|]. split; [reflexivity|]. split; [constructor|]. auto.
      * intros j u U UO A MX _. specialize (MX _ _ T0 O). assert (j = i) by (apply (anc_le _ _ _ _ G) in A; lia). subst j. rewrite (tk_fun _ _ _ _ U T0). exists ts'. split; [exact E|reflexivity].
    + eexists. split; [reflexivity|]. split; [exact I|]. intros j u U UO A MX TU. specialize (MX _ _ T0 O). assert (j = i) by (apply (anc_le _ _ _ _ G) in A; lia). subst j. rewrite (tk_fun _ _ _ _ U T0) in TU. contradiction.
  - destruct (g_tok _ _ G _ _ T0) as (_ & Q & _). destruct (Z.eqb_spec (par t) (-1)) as [PE|PE].
    + assert (NO : forall a u, tk ts a u -> anc ts a i -> en u <> -1).
      { intros a u U A. destruct A as [|i v V N _]; [rewrite (tk_fun _ _ _ _ U T0); exact O|]. rewrite (tk_fun _ _ _ _ V T0) in N. contradiction. }
      destruct (negb (ty t =? type) || (super =? -1)); (eexists; split; [reflexivity|]; split; [try exact I; left; auto|]); intros j u U UO A; exfalso; eapply NO; eauto.
    + destruct (IH (par t)) as (r & E & CL & MX); [lia|lia|]. exists r. split; [exact E|]. 
      assert (ST : forall a u, tk ts a u -> en u = -1 -> anc ts a i -> anc ts a (par t)).
      { intros a u U UO A. destruct A as [|i v V N A]; [rewrite (tk_fun _ _ _ _ U T0) in UO; contradiction|]. rewrite (tk_fun _ _ _ _ V T0) in A. exact A. }
      split.
      * destruct r as [[ts' s]|]; [|exact I]. destruct CL as [(-> & -> & N)|(j & u & U & UO & TY & E' & S' & A & F)].
        -- left. split; [reflexivity|]. split; [reflexivity|]. intros a u U A. intros UO. eapply N; [exact U| |exact UO]. eapply ST; eauto.
        -- right. exists j, u. repeat (split; [assumption|]). split; [|eauto]. apply (anc_up _ _ _ t T0 PE A).
      * intros j u U UO A. apply (MX j u U UO). eapply ST; eauto.
Qed.
Lemma good_close ts x j t ts' : good ts x -> 0 <= x -> tk ts j t -> en t = -1 -> put ts j (closed t x) = rret ts' -> (forall a u, tk ts a u -> en u = -1 -> anc ts a j) ->
  good ts' (x + 1) /\ super_ok ts' (par t) /\ zlen ts' = zlen ts.
Proof.
  intros G X T0 O E F. destruct (tk_put ts j t (closed t x) T0) as (ts1 & E1 & L & W). rewrite E in E1. injection E1 as <-.
  assert (SP : same_parents ts ts'). { intros a u U. destruct (Z.eq_dec a j) as [->|N]; [rewrite (tk_fun _ _ _ _ U T0); exists (closed t x); split; [apply W; auto|reflexivity]|exists u; split; [apply W; auto|reflexivity]]. }
  pose proof G as [A B C]. pose proof (A _ _ T0) as (S0 & Q0 & D0). assert (CT : container t) by (destruct D0 as [[_ ?]|[? _]]; [assumption|lia]). split; [|split; [|exact L]].
  - split.
    + intros a u U. apply W in U as [[-> ->]|[N U]]; [|apply (tok_later _ _ x _ (A _ _ U)); lia]. unfold tok_ok; cbn [st en par closed]. split; [lia|]. split; [lia|]. right. split; [lia|]. left. exact CT.
    + intros a b u v U V AB. apply W in U as [[-> ->]|[N U]]; apply W in V as [[-> ->]|[M V]].
      * lia.
      * destruct (B _ _ _ _ T0 V AB) as (S1 & _). cbn [st en closed]. split; [exact S1|]. right. right. split; [exact CT|]. pose proof (A _ _ V) as (V0 & _ & [[VO _]|[VE _]]); [|cbn; lia].
        pose proof (anc_le _ _ _ _ G (F _ _ V VO)). lia.
      * destruct (B _ _ _ _ U T0 AB) as (S1 & [D|[D|(D1 & D2 & D3)]]); cbn [st en closed]; (split; [exact S1|]); [auto|auto|]. contradiction.
      * exact (B _ _ _ _ U V AB).
    + intros a u U UO. apply W in U as [[-> ->]|[N U]]; [cbn in UO; lia|]. rewrite L. apply (anc_same ts); [exact SP|exact (C _ _ U UO)].
  - split; [pose proof (tk_range _ _ _ T0); rewrite L; lia|]. intros a u U UO. apply W in U as [[-> ->]|[N U]]; [cbn in UO; lia|]. pose proof (F _ _ U UO) as AA.
    inversion AA as [|? v V PV AV]; subst; [contradiction|]. rewrite (tk_fun _ _ _ _ V T0) in *. split; [exact PV|]. apply (anc_same ts); [exact SP|exact AV].
Qed.

(** ** The inner loops *)
Lemma primitive_end_range : forall s n e, primitive_end s n = Some e -> n <= e <= n + zlen s.
Proof.
  induction s as [|c r IH]; intros n e E; cbn [primitive_end] in E; [injection E as <-; unfold zlen; cbn; lia|]. rewrite zlen_cons. pose proof (zlen_nonneg r).
  destruct ((c =? 0) || ends_primitive c); [injection E as <-; lia|]. destruct ((s8 c <? 32) || (127 <=? s8 c)); [discriminate|]. apply IH in E. lia.
Qed.
Lemma string_end_range : forall s q n e, string_end q s n = At e -> n <= e < n + zlen s.
Proof.
  induction s as [|c r IH]; intros q n e E; cbn [string_end] in E; [discriminate|]. rewrite zlen_cons. pose proof (zlen_nonneg r).
  assert (PL : (if c =? 0 then Error ERROR_PART else if c =? 34 then At n else if c =? 92 then string_end Escape r (n + 1) else string_end Plain r (n + 1)) = At e -> n <= e < n + (1 + zlen r)).
  { destruct (c =? 0); [discriminate|]. destruct (c =? 34); [intros X; injection X as <-; lia|]. destruct (c =? 92); intros X; apply IH in X; lia. }
  destruct q as [| |[|k]]; [exact (PL E)| |exact (PL E)|].
  - destruct (isin c _); [apply IH in E; lia|]. destruct (c =? 117); [apply IH in E; lia|discriminate].
  - destruct (c =? 0); [discriminate|]. destruct (is_xdigit (s8 c)); [apply IH in E; lia|discriminate].
Qed.
Lemma string_end_error : forall s q n e, string_end q s n = Error e -> e = ERROR_PART \/ e = ERROR_INVAL.
Proof.
  induction s as [|c r IH]; intros q n e E; cbn [string_end] in E; [injection E as <-; auto|].
  assert (PL : (if c =? 0 then Error ERROR_PART else if c =? 34 then At n else if c =? 92 then string_end Escape r (n + 1) else string_end Plain r (n + 1)) = Error e -> e = ERROR_PART \/ e = ERROR_INVAL).
  { destruct (c =? 0); [intros X; injection X as <-; auto|]. destruct (c =? 34); [discriminate|]. destruct (c =? 92); intros X; apply IH in X; auto. }
  destruct q as [| |[|k]]; [exact (PL E)| |exact (PL E)|].
  - destruct (isin c _); [apply IH in E; auto|]. destruct (c =? 117); [apply IH in E; auto|injection E as <-; auto].
  - destruct (c =? 0); [injection E as <-; auto|]. destruct (is_xdigit (s8 c)); [apply IH in E; auto|injection E as <-; auto].
Qed.
Lemma skip_head (js : list Z) x c r : 0 <= x -> zskip x js = c :: r -> x < zlen js /\ zskip (x + 1) js = r /\ zlen r = zlen js - x - 1.
Proof.
  intros X E. assert (L : zlen (zskip x js) = 1 + zlen r) by (rewrite E; apply zlen_cons). rewrite zlen_skip in L by lia. pose proof (zlen_nonneg r). split; [lia|].
  split; [|lia]. replace (x + 1) with (1 + x) by lia. rewrite <- zskip_zskip by lia. rewrite E. reflexivity.
Qed.
