(** The tree a JSON source shows of a well-formed text. *)
From Verif Require Import Base BaseFacts ListFacts Types Sort SortProofs Xb XbSpec XbFacts XbWrite WriteProofs Jsmn JsmnProofs JsmnParse JsonSpec JsonProofs JsonTotal JsonSource JsonNames.

(** [shows s i e]: whatever is in the buffer of [s], the three functions deliver the element [e] for token [i]. *)
Inductive shows (s : source) : Z -> elem -> Prop :=
| Shows i n v is es :
    (forall s', same s s' -> exists s2, getNodeName s' i = Ok (n, s2) /\ same s s2) ->
    (forall s', same s s' -> exists s2, getNodeValue s' i = Ok (v, s2) /\ same s s2) ->
    (forall s', same s s' -> ForAllChildren s' i = Ok is) ->
    Forall2 (shows s) is es -> shows s i (El n v es).

(** ForAllChildren and getNodeValue behind the step from a key to its value *)
Definition kids_at (s : source) (i : Z) : outcome (list Z) :=
  obind (token s i) (fun X =>
  if ty X =? JSMN_OBJECT then children_loop (Z.to_nat (sz X)) true s (i + 1)
  else if ty X =? JSMN_ARRAY then children_loop (Z.to_nat (sz X)) false s (i + 1)
  else Ok []).
Definition value_at (s : source) (i : Z) : outcome (option (list Z) * source) :=
  obind (token s i) (fun X =>
  if negb (is_scalar X) then Ok (None, s) else
  obind (copy_token s X) (fun m => in_buffer m s)).

Section Tree.
Variable s : source.
Hypothesis U : usable s.

Lemma same_token s' i : same s s' -> token s' i = token s i.
Proof. intros (_ & T0 & _). unfold token. rewrite T0. reflexivity. Qed.
Lemma same_skip s' i : same s s' -> skip_one s' i = skip_one s i.
Proof. intros S. unfold skip_one. rewrite same_token by exact S. reflexivity. Qed.
Lemma same_value s' i : same s s' -> value_of s' i = value_of s i.
Proof. intros S. pose proof S as (_ & T0 & _). unfold value_of. rewrite same_token, T0 by exact S. destruct (token s i) as [X| |]; [|reflexivity..]. cbn [obind]. rewrite same_token, same_skip by exact S. reflexivity. Qed.
Lemma same_loop s' : same s s' -> forall k o i, children_loop k o s' i = children_loop k o s i.
Proof.
  intros S. induction k as [|k IH]; intros o i; [reflexivity|]. cbn [children_loop]. rewrite same_skip by exact S. destruct (skip_one s i) as [j| |]; [|reflexivity..]. cbn [obind]. rewrite same_skip by exact S.
  destruct (if o then skip_one s j else Ok j) as [j'| |]; [|reflexivity..]. cbn [obind]. rewrite IH. reflexivity.
Qed.
Lemma same_kids s' i : same s s' -> kids_at s' i = kids_at s i.
Proof. intros S. unfold kids_at. rewrite same_token by exact S. destruct (token s i); [|reflexivity..]. cbn [obind]. rewrite !(same_loop _ S). reflexivity. Qed.
Lemma skip_tk i t n : tk (tokens s) i t -> tot t = Some n -> skip_one s i = Ok (i + n).
Proof. intros TX E. unfold skip_one. rewrite (token_tk _ _ _ TX). cbn. rewrite E. reflexivity. Qed.
(** A scalar's text *)
Lemma value_scalar s' i t w : same s s' -> tk (tokens s) i t -> is_scalar t = true -> token_text s t = w -> exists s2, value_at s' i = Ok (Some w, s2) /\ same s s2.
Proof.
  intros S TX SC E. pose proof S as (S1 & S2 & S3). unfold value_at. rewrite same_token by exact S. rewrite (token_tk _ _ _ TX). cbn [obind]. rewrite SC. cbn [negb].
  assert (CP : copyable s' t). { apply (same_usable _ _ S U); [|exact SC]. rewrite S2. eapply tk_in; eauto. } destruct (copied _ _ CP) as (r & E2 & L & LK & R). rewrite E2. cbn [obind]. destruct CP as (_ & _ & _ & CS & _).
  assert (TT : token_text s' t = w) by (unfold token_text in *; rewrite S1; exact E). rewrite TT in *. rewrite in_buffer_eq by exact CS. eexists. split; [reflexivity|]. split; [cbn; exact S1|]. split; [cbn; exact S2|]. cbn [last_str]. rewrite zlen_app, zlen_cons. lia.
Qed.
Lemma value_none s' i t : same s s' -> tk (tokens s) i t -> is_scalar t = false -> exists s2, value_at s' i = Ok (None, s2) /\ same s s2.
Proof. intros S TX SC. unfold value_at. rewrite same_token by exact S. rewrite (token_tk _ _ _ TX). cbn [obind]. rewrite SC. cbn [negb]. exists s'. auto. Qed.
Lemma name_is i X n : tk (tokens s) i X -> named (text s) (tokens s) i n ->
  (forall P K, tk (tokens s) (par X) P -> ty P = JSMN_ARRAY -> tk (tokens s) (par P) K -> ty K = JSMN_STRING -> st K < en K) ->
  forall s', same s s' -> exists s2, getNodeName s' i = Ok (n, s2) /\ same s s2.
Proof.
  intros TX N NE s' S. pose proof S as (S1 & S2 & S3). destruct (node_name s' i X (same_usable _ _ S U)) as (n' & s2 & N' & E & S'); [rewrite S2; exact TX|rewrite S2; exact NE|]. rewrite S1, S2 in N'. pose proof (named_fun _ _ _ _ _ N N') as <-. exists s2. split; [exact E|]. exact (same_trans _ _ _ S S').
Qed.
(** Tokens by their place in the list *)
Lemma tk_here A t B i : tokens s = A ++ t :: B -> i = zlen A -> tk (tokens s) i t.
Proof. intros E ->. rewrite E. split; [apply zlen_nonneg|]. unfold zlen. rewrite Nat2Z.id, nth_error_app2, Nat.sub_diag by lia. reflexivity. Qed.

(** Where a value stands: it has no parent, it is the value of a key, it is an item of an array; and the name of its items. *)
Inductive place (p : Z) (v : value) : option (list Z) -> Prop :=
| place_root : p = -1 -> place p v None
| place_key K k : tk (tokens s) p K -> ty K = JSMN_STRING -> token_text s K = k -> (filled v -> k <> []) -> place p v (Some (item_name k))
| place_item P : tk (tokens s) p P -> ty P = JSMN_ARRAY -> place p v (Some (lit "__ARRAY_ITEM_NAME__")).
(** An array whose items are named [n] *)
Definition array_at (p : Z) (n : option (list Z)) (l : items) : Prop :=
  exists P, tk (tokens s) p P /\ ty P = JSMN_ARRAY /\ match l with INil => True | _ => 
    (par P = -1 /\ n = None) \/ (exists K, tk (tokens s) (par P) K /\ ((ty K = JSMN_STRING /\ st K < en K /\ n = Some (item_name (token_text s K))) \/ (ty K = JSMN_ARRAY /\ n = Some (lit "__ARRAY_ITEM_NAME__")))) end.
Lemma text_at x w r : 0 <= x -> zskip x (text s) = w ++ r -> slice (text s) x (zlen w) = w.
Proof. intros X E. unfold slice. rewrite E. apply ztake_app_len. reflexivity. Qed.
Lemma skip_past x n w r : 0 <= x -> n = zlen w -> zskip x (text s) = w ++ r -> zskip (x + n) (text s) = r.
Proof. intros X -> E. apply (skip_more _ x); auto. Qed.

Ltac past w H T := pose proof (fun X => skip_past _ _ w _ X eq_refl H) as T; specialize (T ltac:(lia)); try change (zlen [_]) with 1 in T.

Definition value_shown (v : value) : Prop := forall A B x p idx n r, tokens s = A ++ vtoks true v x idx p ++ B -> idx = zlen A -> 0 <= x -> zskip x (text s) = vtext v ++ r -> place p v n -> keyed v ->
  (exists is, kids_at s idx = Ok is /\ Forall2 (shows s) is (vkids n v)) /\ forall s', same s s' -> exists s2, value_at s' idx = Ok (scalar_text v, s2) /\ same s s2.
Definition items_shown (l : items) : Prop := forall A B first x p idx n r, tokens s = A ++ itoks true first l x idx p ++ B -> idx = zlen A -> 0 <= x -> zskip x (text s) = itext first l ++ r -> array_at p n l -> ikeyed l ->
  exists is, children_loop (Z.to_nat (ilen l)) false s idx = Ok is /\ Forall2 (shows s) is (ikids n l).
Definition members_shown (l : members) : Prop := forall A B first x p idx r P, tokens s = A ++ mtoks true first l x idx p ++ B -> idx = zlen A -> 0 <= x -> zskip x (text s) = mtext first l ++ r -> tk (tokens s) p P -> ty P = JSMN_OBJECT -> mkeyed l ->
  exists is, children_loop (Z.to_nat (mlen l)) true s idx = Ok is /\ Forall2 (shows s) is (mkids l).

Lemma head_tok v x idx p : exists t q, vtoks true v x idx p = t :: q /\ tot t = Some (vcount v) /\ par t = p /\ (ty t = JSMN_OBJECT \/ ty t = JSMN_ARRAY \/ is_scalar t = true).
Proof. destruct v; cbn [vtoks]; do 2 eexists; (split; [reflexivity|]); repeat split; auto. Qed.

Lemma tree_shown : (forall v, value_shown v) /\ (forall l, items_shown l) /\ (forall l, members_shown l).
Proof.
  destruct counts_pos as (CV & CI & CM). destruct toks_count as (TV & TI & TM).
  assert (IL : forall l, 0 <= ilen l) by (induction l; cbn [ilen]; lia). assert (ML : forall l, 0 <= mlen l) by (induction l; cbn [mlen]; lia).
  apply json_ind.
  - intros w A B x p idx n r E I X TX PL KD. cbn [vtoks app] in E. pose proof (tk_here _ _ _ _ E I) as TK. split.
    + exists []. split; [|constructor]. unfold kids_at. rewrite (token_tk _ _ _ TK). reflexivity.
    + intros s' S. eapply value_scalar; [exact S|exact TK|reflexivity|]. unfold token_text. cbn [st en]. replace (x + zlen w - x) with (zlen w) by lia. eapply text_at; eauto.
  - intros w A B x p idx n r E I X TX PL KD. cbn [vtoks app] in E. pose proof (tk_here _ _ _ _ E I) as TK. split.
    + exists []. split; [|constructor]. unfold kids_at. rewrite (token_tk _ _ _ TK). reflexivity.
    + intros s' S. eapply value_scalar; [exact S|exact TK|reflexivity|]. unfold token_text. cbn [st en]. replace (x + 1 + zlen w - (x + 1)) with (zlen w) by lia. cbn [vtext] in TX. rewrite <- app_comm_cons, <- app_assoc in TX.
      eapply text_at; [lia|]. apply (skip_past x 1 [34] _ X eq_refl TX).
  - intros w l IH A B x p idx n r E I X TX PL KD. cbn [vtoks] in E. rewrite <- app_comm_cons in E. pose proof (tk_here _ _ _ _ E I) as TK. split; [|intros s' S; eapply value_none; eauto].
    unfold kids_at. rewrite (token_tk _ _ _ TK). cbn [obind ty sz]. change (JSMN_ARRAY =? JSMN_OBJECT) with false. change (JSMN_ARRAY =? JSMN_ARRAY) with true. cbv iota. cbn [vkids keyed] in *.
    set (t := T JSMN_ARRAY _ _ _ _ _) in *. change (A ++ t :: ?q) with (A ++ [t] ++ q) in E. rewrite app_assoc in E. cbn [vtext] in TX. rewrite <- app_comm_cons, <- !app_assoc in TX.
    eapply (IH (A ++ [t]) B true _ idx _ n _ E); [rewrite zlen_app; change (zlen [t]) with 1; lia|pose proof (zlen_nonneg w); lia| | |exact KD].
    + apply (skip_past (x + 1) _ w _ ltac:(lia) eq_refl). exact (skip_past x 1 [91] _ X eq_refl TX).
    + exists t. split; [exact TK|]. split; [reflexivity|]. destruct l as [|wa v wb l]; [exact Logic.I|]. cbn [par]. destruct PL as [-> | K k TKK TS TT FK | P TP TA]; [left; auto|right; exists K; split; [exact TKK|]; left|right; exists P; split; [exact TP|]; right; auto].
      split; [exact TS|]. split; [|subst k; reflexivity]. pose proof (proj1 U K (tk_in _ _ _ TKK) (scalar_string _ TS)) as (Q1 & Q2 & _). specialize (FK Logic.I). destruct (Z.ltb_spec (st K) (en K)); [assumption|]. exfalso. apply FK. subst k. unfold token_text, slice. replace (en K - st K) with 0 by lia. reflexivity.
  - intros w l IH A B x p idx n r E I X TX PL KD. cbn [vtoks] in E. rewrite <- app_comm_cons in E. pose proof (tk_here _ _ _ _ E I) as TK. split; [|intros s' S; eapply value_none; eauto].
    unfold kids_at. rewrite (token_tk _ _ _ TK). cbn [obind ty sz]. change (JSMN_OBJECT =? JSMN_OBJECT) with true. cbv iota. cbn [vkids keyed] in *.
    set (t := T JSMN_OBJECT _ _ _ _ _) in *. change (A ++ t :: ?q) with (A ++ [t] ++ q) in E. rewrite app_assoc in E. cbn [vtext] in TX. rewrite <- app_comm_cons, <- !app_assoc in TX.
    eapply (IH (A ++ [t]) B true _ idx _ _ t E); [rewrite zlen_app; change (zlen [t]) with 1; lia|pose proof (zlen_nonneg w); lia| |exact TK|reflexivity|exact KD].
    apply (skip_past (x + 1) _ w _ ltac:(lia) eq_refl). exact (skip_past x 1 [123] _ X eq_refl TX).
  - intros A B first x p idx n r E I X TX PL KD. exists []. split; [reflexivity|constructor].
  - intros wa v IHv wb l IHl A B first x p idx n r E I X TX PL KD. cbn [itoks ilen ikids ikeyed itext] in *. destruct KD as [KV KL]. rewrite <- !app_assoc in E. rewrite <- !app_assoc in TX. specialize (CV v). specialize (CI l). specialize (IL l).
    pose proof (zlen_nonneg (comma first)). pose proof (zlen_nonneg wa). pose proof (zlen_nonneg wb). pose proof (zlen_nonneg (vtext v)).
    past (comma first) TX T1. past wa T1 T2. past (vtext v) T2 T3. past wb T3 T4.
    destruct PL as (P & TP & TA & PN). destruct (head_tok v (x + zlen (comma first) + zlen wa) idx p) as (t & q & HT & TT & PT & TY).
    assert (TK : tk (tokens s) idx t) by (rewrite HT in E; exact (tk_here _ _ _ _ E I)).
    destruct (IHv A _ _ p idx (Some (lit "__ARRAY_ITEM_NAME__")) (wb ++ itext false l ++ r) E I ltac:(lia) T2) as [(is1 & K1 & F1) V1]; [apply (place_item p v P TP TA)|exact KV|].
    pose proof E as E'. rewrite app_assoc in E'. destruct (IHl _ _ false _ p (idx + vcount v) n r E') as (is & K2 & F2); [rewrite zlen_app, TV; lia|lia|exact T4| |exact KL|].
    { exists P. split; [exact TP|]. split; [exact TA|]. destruct l; [exact Logic.I|exact PN]. }
    exists (idx :: is). replace (Z.to_nat (1 + ilen l)) with (Datatypes.S (Z.to_nat (ilen l))) by lia. cbn [children_loop]. rewrite (skip_tk _ _ _ TK TT). cbn [obind]. rewrite K2. cbn [obind]. split; [reflexivity|]. constructor; [|exact F2].
    assert (VO : value_of s idx = Ok idx). { unfold value_of. rewrite (token_tk _ _ _ TK). cbn [obind]. rewrite PT. destruct ((0 <=? p) && (p <? zlen (tokens s))); [|reflexivity]. rewrite (token_tk _ _ _ TP). cbn [obind]. rewrite TA. reflexivity. }
    econstructor; [| | |exact F1].
    + apply (name_is idx t n TK).
      * destruct PN as [[PP ->]|(K & TKK & [(TS & _ & ->)|[TS ->]])].
        -- eapply named_root_item; [exact TK|rewrite PT; exact TP|exact TA|lia].
        -- eapply named_item; [exact TK|rewrite PT; exact TP|exact TA|exact TKK|exact TS].
        -- eapply named_nested; [exact TK|rewrite PT; exact TP|exact TA|exact TKK|rewrite TS; discriminate].
      * intros P' K' TP' TA' TK' TS'. rewrite PT in TP'. pose proof (tk_fun _ _ _ _ TP TP') as <-. destruct PN as [[PP ->]|(K & TKK & [(TS & LT & ->)|[TS ->]])].
        -- apply tk_range in TK'. lia.
        -- pose proof (tk_fun _ _ _ _ TKK TK') as <-. exact LT.
        -- pose proof (tk_fun _ _ _ _ TKK TK') as <-. rewrite TS in TS'. discriminate.
    + intros s' S. unfold getNodeValue. rewrite same_value by exact S. rewrite VO. exact (V1 s' S).
    + intros s' S. unfold ForAllChildren. rewrite same_value by exact S. rewrite VO. cbn [obind]. fold (kids_at s' idx). rewrite same_kids by exact S. exact K1.
  - intros A B first x p idx r P E I X TX TP TO KD. exists []. split; [reflexivity|constructor].
  - intros wa k wb wc v IHv wd l IHl A B first x p idx r P E I X TX TP TO KD. cbn [mtoks mlen mkids mkeyed mtext] in *. destruct KD as (KF & KV & KL). specialize (CV v). specialize (CM l). specialize (ML l).
    repeat (rewrite <- ?app_comm_cons, <- ?app_assoc in TX). rewrite <- app_comm_cons, <- app_assoc in E.
    pose proof (zlen_nonneg (comma first)). pose proof (zlen_nonneg wa). pose proof (zlen_nonneg wb). pose proof (zlen_nonneg wc). pose proof (zlen_nonneg wd). pose proof (zlen_nonneg k). pose proof (zlen_nonneg (vtext v)).
    past (comma first) TX T1. past wa T1 T2. past [34] T2 T3. past k T3 T4.
    past [34] T4 T5. past wb T5 T6. past [58] T6 T7. past wc T7 T8.
    past (vtext v) T8 T9. past wd T9 T10.
    pose proof (tk_here _ _ _ _ E I) as TK. set (t := T JSMN_STRING _ _ 1 p _) in *. assert (TT : token_text s t = k). { unfold token_text, t. cbn [st en]. match goal with |- slice _ ?a (?b - ?c) = _ => replace (b - c) with (zlen k) by lia end. eapply text_at; [|exact T3]. lia. }
    set (x2 := x + zlen (comma first) + zlen wa + 1 + zlen k + 1 + zlen wb + 1 + zlen wc) in *. change (A ++ t :: ?q) with (A ++ [t] ++ q) in E. rewrite app_assoc in E.
    destruct (head_tok v x2 (idx + 1) idx) as (u & q & HT & TU & PU & _).
    destruct (IHv _ _ x2 idx (idx + 1) (Some (item_name k)) (wd ++ mtext false l ++ r) E) as [(is1 & K1 & F1) V1]; [rewrite zlen_app; change (zlen [t]) with 1; lia|lia|exact T8|apply (place_key idx v t k TK eq_refl TT KF)|exact KV|].
    pose proof E as E'. rewrite app_assoc in E'. destruct (IHl _ _ false _ p (idx + 1 + vcount v) r P E') as (is & K2 & F2); [rewrite !zlen_app, TV; change (zlen [t]) with 1; lia|lia|exact T10|exact TP|exact TO|exact KL|].
    assert (TKU : tk (tokens s) (idx + 1) u). { rewrite HT in E. apply (tk_here _ _ _ _ E). rewrite zlen_app. change (zlen [t]) with 1. lia. }
    exists (idx :: is). replace (Z.to_nat (1 + mlen l)) with (Datatypes.S (Z.to_nat (mlen l))) by lia. cbn [children_loop]. rewrite (skip_tk _ _ 1 TK eq_refl). cbn [obind]. rewrite (skip_tk _ _ _ TKU TU). cbn [obind]. rewrite K2. cbn [obind]. split; [reflexivity|]. constructor; [|exact F2].
    assert (VO : value_of s idx = Ok (idx + 1)). { unfold value_of. rewrite (token_tk _ _ _ TK). cbn [obind par]. change (par t) with p. pose proof (tk_range _ _ _ TP). replace ((0 <=? p) && (p <? zlen (tokens s))) with true by lia. rewrite (token_tk _ _ _ TP). cbn [obind]. rewrite TO. change (JSMN_OBJECT =? JSMN_OBJECT) with true. cbv iota. exact (skip_tk _ _ 1 TK eq_refl). }
    econstructor; [| | |exact F1].
    + apply (name_is idx t (Some k) TK).
      * rewrite <- TT. eapply named_key; [exact TK|exact TP|exact TO|reflexivity].
      * intros P' K' TP' TA' TK' TS'. change (par t) with p in TP'. pose proof (tk_fun _ _ _ _ TP TP') as <-. rewrite TO in TA'. discriminate.
    + intros s' S. unfold getNodeValue. rewrite same_value by exact S. rewrite VO. exact (V1 s' S).
    + intros s' S. unfold ForAllChildren. rewrite same_value by exact S. rewrite VO. cbn [obind]. fold (kids_at s' (idx + 1)). rewrite same_kids by exact S. exact K1.
Qed.
End Tree.

(** ** Opening a well-formed text *)
Lemma max_bound L ts : 0 <= L -> (forall t, In t ts -> en t - st t <= L) -> 0 <= max_str_len ts <= L.
Proof.
  intros L0 H. unfold max_str_len. assert (G : forall us m, (forall t, In t us -> en t - st t <= L) -> 0 <= m <= L -> 0 <= fold_left (fun m t => if is_scalar t then (if m <? en t - st t then en t - st t else m) else m) us m <= L).
  { induction us as [|u us IH]; intros m B R; [exact R|]. cbn [fold_left]. apply IH; [intros t I; apply B; right; exact I|]. specialize (B u (or_introl eq_refl)). destruct (is_scalar u); [|exact R]. destruct (Z.ltb_spec m (en u - st u)); lia. }
  apply G; [exact H|lia].
Qed.
Lemma spans_inside : (forall v tt x i p t, In t (vtoks tt v x i p) -> x <= st t /\ en t <= x + zlen (vtext v)) /\
  (forall l tt f x i p t, In t (itoks tt f l x i p) -> x <= st t /\ en t <= x + zlen (itext f l)) /\
  (forall l tt f x i p t, In t (mtoks tt f l x i p) -> x <= st t /\ en t <= x + zlen (mtext f l)).
Proof.
  apply json_ind.
  - intros w tt x i p t [<-|[]]. cbn [st en vtext]. lia.
  - intros w tt x i p t [<-|[]]. cbn [st en vtext]. rewrite zlen_cons, zlen_app. change (zlen [34]) with 1. pose proof (zlen_nonneg w). lia.
  - intros w l IH tt x i p t [<-|I]; [cbn [st en]; lia|]. apply IH in I. cbn [vtext]. rewrite zlen_cons, !zlen_app. change (zlen [93]) with 1. pose proof (zlen_nonneg w). lia.
  - intros w l IH tt x i p t [<-|I]; [cbn [st en]; lia|]. apply IH in I. cbn [vtext]. rewrite zlen_cons, !zlen_app. change (zlen [125]) with 1. pose proof (zlen_nonneg w). lia.
  - intros tt f x i p t [].
  - intros a v IHv b l IHl tt f x i p t I. cbn [itoks itext] in *. rewrite !zlen_app. pose proof (zlen_nonneg (comma f)). pose proof (zlen_nonneg a). pose proof (zlen_nonneg b). pose proof (zlen_nonneg (vtext v)). pose proof (zlen_nonneg (itext false l)).
    apply in_app_or in I as [I|I]; [apply IHv in I|apply IHl in I]; lia.
  - intros tt f x i p t [].
  - intros a k b c v IHv d l IHl tt f x i p t I. cbn [mtoks mtext] in *. rewrite !zlen_app, !zlen_cons, !zlen_app, !zlen_cons, !zlen_app, !zlen_cons, !zlen_app.
    pose proof (zlen_nonneg (comma f)). pose proof (zlen_nonneg a). pose proof (zlen_nonneg b). pose proof (zlen_nonneg c). pose proof (zlen_nonneg d). pose proof (zlen_nonneg k). pose proof (zlen_nonneg (vtext v)). pose proof (zlen_nonneg (mtext false l)).
    destruct I as [<-|I]; [cbn [st en]; lia|]. apply in_app_or in I as [I|I]; [apply IHv in I|apply IHl in I]; lia.
Qed.
Lemma count_text : (forall v, json v -> vcount v <= zlen (vtext v)) /\ (forall l, jitems l -> forall f, icount l <= zlen (itext f l)) /\ (forall l, jmembers l -> forall f, mcount l <= zlen (mtext f l)).
Proof.
  apply json_ind.
  - intros w [N _]. cbn. destruct w; [contradiction|]. rewrite zlen_cons. pose proof (zlen_nonneg w). lia.
  - intros w _. cbn [vcount vtext]. rewrite zlen_cons. pose proof (zlen_nonneg (w ++ [34])). lia.
  - intros w l IH [_ J]. cbn [vcount vtext]. specialize (IH J true). rewrite zlen_cons, !zlen_app. change (zlen [93]) with 1. pose proof (zlen_nonneg w). lia.
  - intros w l IH [_ J]. cbn [vcount vtext]. specialize (IH J true). rewrite zlen_cons, !zlen_app. change (zlen [125]) with 1. pose proof (zlen_nonneg w). lia.
  - intros _ f. apply zlen_nonneg.
  - intros a v IHv b l IHl (_ & Jv & _ & Jl) f. cbn [icount itext]. specialize (IHv Jv). specialize (IHl Jl false). rewrite !zlen_app. pose proof (zlen_nonneg (comma f)). pose proof (zlen_nonneg a). pose proof (zlen_nonneg b). lia.
  - intros _ f. apply zlen_nonneg.
  - intros a k b c v IHv d l IHl (_ & _ & _ & _ & Jv & _ & Jl) f. cbn [mcount mtext]. specialize (IHv Jv). specialize (IHl Jl false). rewrite !zlen_app, !zlen_cons, !zlen_app, !zlen_cons, !zlen_app, !zlen_cons, !zlen_app.
    pose proof (zlen_nonneg (comma f)). pose proof (zlen_nonneg a). pose proof (zlen_nonneg b). pose proof (zlen_nonneg c). pose proof (zlen_nonneg d). pose proof (zlen_nonneg k). lia.
Qed.
Lemma white_bytes w : white w -> bytes w.
Proof. intros W. eapply Forall_impl; [|exact W]. cbn. intros c C. unfold is_byte. lia. Qed.
Lemma chars_bytes k : chars k -> bytes k.
Proof.
  assert (XB : forall c, is_xdigit c = true -> is_byte c) by (intros c; unfold is_xdigit, is_digit, is_byte; lia).
  induction 1 as [|c r C _ _ _ IH|c r C _ IH|a b c d r A B C D _ IH]; [constructor|constructor; [unfold is_byte; lia|exact IH]| |].
  - cbn [In] in C. constructor; [unfold is_byte; lia|]. constructor; [unfold is_byte; lia|exact IH].
  - do 2 (constructor; [unfold is_byte; lia|]). do 4 (constructor; [auto|]). exact IH.
Qed.
Lemma json_bytes : (forall v, json v -> bytes (vtext v)) /\ (forall l, jitems l -> forall f, bytes (itext f l)) /\ (forall l, jmembers l -> forall f, bytes (mtext f l)).
Proof.
  assert (CB : forall f, bytes (comma f)) by (intros []; cbn; repeat constructor; unfold is_byte; lia). unfold bytes in *.
  apply json_ind.
  - intros w [_ P]. eapply Forall_impl; [|exact P]. cbn. intros c C. unfold is_alnum, is_alpha, is_upper, is_lower, is_digit in C. unfold is_byte. lia.
  - intros w C. cbn [vtext]. constructor; [unfold is_byte; lia|]. apply Forall_app. split; [apply chars_bytes; exact C|]. repeat constructor; unfold is_byte; lia.
  - intros w l IH [W J]. cbn [vtext]. constructor; [unfold is_byte; lia|]. rewrite !Forall_app. split; [apply white_bytes; exact W|]. split; [auto|]. repeat constructor; unfold is_byte; lia.
  - intros w l IH [W J]. cbn [vtext]. constructor; [unfold is_byte; lia|]. rewrite !Forall_app. split; [apply white_bytes; exact W|]. split; [auto|]. repeat constructor; unfold is_byte; lia.
  - intros _ f. constructor.
  - intros a v IHv b l IHl (Wa & Jv & Wb & Jl) f. cbn [itext]. rewrite !Forall_app. repeat split; auto; apply white_bytes; auto.
  - intros _ f. constructor.
  - intros a k b c v IHv d l IHl (Wa & Ck & Wb & Wc & Jv & Wd & Jl) f. cbn [mtext]. apply white_bytes in Wa, Wb, Wc, Wd. apply chars_bytes in Ck. specialize (IHv Jv). specialize (IHl Jl false). rewrite !Forall_app. split; [auto|]. split; [exact Wa|].
    constructor; [unfold is_byte; lia|]. rewrite Forall_app. split; [exact Ck|]. constructor; [unfold is_byte; lia|]. rewrite Forall_app. split; [exact Wb|]. constructor; [unfold is_byte; lia|]. rewrite !Forall_app. auto.
Qed.
Lemma opened v a b fuel fill : json v -> white a -> white b -> let js := a ++ vtext v ++ b in zlen js <= INT_MAX -> 3 * zlen js < Z.of_nat fuel -> zlen js + 5 <= zlen fill ->
  exists s, Initialize fuel js fill = rret (Some s) /\ text s = js /\ tokens s = vtoks true v (zlen a) 0 (-1) /\ usable s.
Proof.
  intros J WA WB js SH F FL. pose proof (proj1 count_text v J) as CT. assert (LJ : zlen js = zlen a + zlen (vtext v) + zlen b) by (unfold js; rewrite !zlen_app; lia). pose proof (zlen_nonneg a). pose proof (zlen_nonneg b). pose proof (proj1 counts_pos v) as CV.
  assert (E : exists s, Initialize fuel js fill = rret (Some s) /\ tokens s = vtoks true v (zlen a) 0 (-1)).
  { destruct (count_value v a b fuel J WA WB SH) as (p0 & E0); [fold js; lia|]. destruct (parse_value v a b (vcount v) fuel J WA WB SH) as (p & E1 & TE); [lia|fold js; lia|]. fold js in E0, E1.
    unfold Initialize. replace (zlen js <=? 0) with false by lia. rewrite E0. cbn [rbind rret fst]. replace (vcount v <? 0) with false by lia. rewrite E1. cbn [rbind rret]. rewrite Z.eqb_refl. cbn [negb]. rewrite TE.
    pose proof (proj1 totals v fuel [] [] (zlen a) 0 (-1) ltac:(lia)) as TT. cbn [app] in TT. rewrite !app_nil_r in TT. change (zlen (@nil tok)) with 0 in TT. rewrite TT. cbn [rbind rret]. rewrite Z.eqb_refl. cbn [negb].
    destruct (max_bound (zlen js) (vtoks true v (zlen a) 0 (-1))) as [M0 M1]; [lia|intros t I; apply (proj1 spans_inside) in I; lia|].
    rewrite wr_eq; [|exact M0|rewrite zlen_take by lia; change (zlen [0]) with 1; lia]. eexists. split; reflexivity. }
  destruct E as (s & E & TS). exists s. split; [exact E|]. assert (BJ : bytes js). { unfold js, bytes. rewrite !Forall_app. split; [apply white_bytes; exact WA|]. split; [apply (proj1 json_bytes); exact J|apply white_bytes; exact WB]. }
  destruct (accepted_usable fuel js fill s BJ ltac:(lia) FL E) as [TX UU]. auto.
Qed.
Lemma source_shows v a b fuel fill : json v -> keyed v -> white a -> white b -> let js := a ++ vtext v ++ b in zlen js <= INT_MAX -> 3 * zlen js < Z.of_nat fuel -> zlen js + 5 <= zlen fill ->
  exists s, Initialize fuel js fill = rret (Some s) /\ shows s 0 (tree v).
Proof.
  intros J K WA WB js SH F FL. destruct (opened v a b fuel fill J WA WB SH F FL) as (s & E & TX & TS & UU). exists s. split; [exact E|].
  pose proof (zlen_nonneg a). assert (TS' : tokens s = [] ++ vtoks true v (zlen a) 0 (-1) ++ []) by (rewrite app_nil_r; exact TS).
  destruct (proj1 (tree_shown s UU) v [] [] (zlen a) (-1) 0 None b TS' eq_refl) as [(is & K1 & F1) V1]; [lia|rewrite TX; apply skipn_here|apply place_root; reflexivity|exact K|].
  destruct (head_tok v (zlen a) 0 (-1)) as (t & q & HT & _ & PT & _). rewrite HT in TS. pose proof (tk_here s [] t q 0 TS eq_refl) as TK.
  assert (VO : value_of s 0 = Ok 0) by (unfold value_of; rewrite (token_tk _ _ _ TK); cbn [obind]; rewrite PT; reflexivity).
  econstructor; [| | |exact F1].
  - apply (name_is s UU 0 t None TK); [eapply named_root; [exact TK|lia]|]. intros P K' TP. rewrite PT in TP. apply tk_range in TP. lia.
  - intros s' S. unfold getNodeValue. rewrite (same_value s s') by exact S. rewrite VO. exact (V1 s' S).
  - intros s' S. unfold ForAllChildren. rewrite (same_value s s') by exact S. rewrite VO. cbn [obind]. fold (kids_at s' 0). rewrite (same_kids s s') by exact S. exact K1.
Qed.
(** The recursive walk meets the elements in preorder. *)
Lemma kids_walk s call (g : Z -> list (Z * Z)) : forall k o i is, children_loop k o s i = Ok is -> (forall j, In j is -> call j = rret (g j)) -> kids_loop k o call s i = rret (flat_map g is).
Proof.
  induction k as [|k IH]; intros o i is E C; [injection E as <-; reflexivity|]. cbn [children_loop kids_loop] in *. destruct (skip_one s i) as [j| |]; [|discriminate..]. cbn [obind] in E. destruct (if o then skip_one s j else Ok j) as [j'| |] eqn:EJ; [|discriminate..]. cbn [obind] in E.
  destruct (children_loop k o s j') as [l| |] eqn:EL; [|discriminate..]. cbn [obind] in E. injection E as <-. rewrite C by (left; reflexivity). cbn [rbind rret]. rewrite EJ. cbn [rbind]. rewrite (IH _ _ _ EL) by (intros q Q; apply C; right; exact Q). reflexivity.
Qed.
Lemma walk s : forall fuel i e deep, shows s i e -> (height e <= fuel)%nat -> exists l, ForAllChildrenRecursively fuel s i deep = rret l /\ Forall2 (fun x y => snd x = snd y /\ shows s (fst x) (fst y)) l (preorder deep e).
Proof.
  induction fuel as [|f IH]; intros i e deep S H; [destruct e; cbn in H; lia|]. pose proof S as S0. destruct S as [i n v is es N V C F]. specialize (C s (same_refl s)). unfold ForAllChildren in C. cbn [ForAllChildrenRecursively]. destruct (value_of s i) as [j| |] eqn:VJ; [|discriminate..]. cbn [obind] in C. cbn [rbind].
  destruct (token s j) as [X| |]; [|discriminate..]. cbn [obind] in C. cbn [rbind]. cbn [height] in H. apply le_S_n in H.
  assert (G : forall is es, Forall2 (shows s) is es -> (fold_right Nat.max O (map height es) <= f)%nat -> (forall j, In j is -> exists l, ForAllChildrenRecursively f s j (deep + 1) = rret l) /\
    Forall2 (fun x y => snd x = snd y /\ shows s (fst x) (fst y)) (flat_map (fun j => match ForAllChildrenRecursively f s j (deep + 1) with Some (Ok l) => l | _ => [] end) is) (flat_map (preorder (deep + 1)) es)).
  { clear - IH. induction 1 as [|j e is es S1 _ IHf]; intros H; [split; [intros _ []|constructor]|]. cbn [map fold_right] in H. destruct IHf as [A B]; [lia|]. destruct (IH j e (deep + 1) S1) as (l & E & P); [lia|]. split.
    - intros q [<-|Q]; [exists l; exact E|exact (A q Q)].
    - cbn [flat_map]. rewrite E. apply Forall2_app; [exact P|exact B]. }
  destruct (G is es F H) as [A B]. set (g := fun j => match ForAllChildrenRecursively f s j (deep + 1) with Some (Ok l) => l | _ => [] end) in *.
  assert (CG : forall j, In j is -> ForAllChildrenRecursively f s j (deep + 1) = rret (g j)). { intros q Q. destruct (A q Q) as (l & E). unfold g. rewrite E. reflexivity. }
  exists ((i, deep) :: flat_map g is). split; [|cbn [preorder]; constructor; [split; [reflexivity|exact S0]|exact B]].
  destruct (ty X =? JSMN_OBJECT); [rewrite (kids_walk s _ g _ _ _ _ C CG); reflexivity|]. destruct (ty X =? JSMN_ARRAY); [rewrite (kids_walk s _ g _ _ _ _ C CG); reflexivity|]. injection C as <-. reflexivity.
Qed.
