(** The names and values a JSON source gives. *)
From Verif Require Import Base BaseFacts ListFacts Types Sort SortProofs Xb XbSpec XbFacts XbWrite WriteProofs Jsmn JsmnProofs JsmnParse JsonSpec JsonProofs JsonTotal JsonSource.

(** The same source with other bytes in its buffer. *)
Definition same (s s' : source) : Prop := text s' = text s /\ tokens s' = tokens s /\ zlen (last_str s') = zlen (last_str s).
Lemma same_refl s : same s s.
Proof. repeat split. Qed.
Lemma same_trans a b c : same a b -> same b c -> same a c.
Proof. unfold same. intuition congruence. Qed.
Lemma same_usable s s' : same s s' -> usable s -> usable s'.
Proof. intros (A & B & C) [U1 U2]. split; [|rewrite B; exact U2]. intros t I SC. rewrite B in I. destruct (U1 t I SC) as (X & Y & W & Q & R). unfold copyable, token_text in *. rewrite A, C. auto. Qed.

Lemma bput_mid a b c c' : zlen c = zlen c' -> bput (a ++ c ++ b) (zlen a) c' = a ++ c' ++ b.
Proof.
  intros L. unfold bput. rewrite ztake_app_len by reflexivity. f_equal. f_equal. rewrite <- L. rewrite app_assoc. apply zskip_app_len. rewrite zlen_app. reflexivity.
Qed.
Lemma str_at w r : cstring w -> rd_str (w ++ 0 :: r) 0 = Ok w.
Proof. intros W. apply has_str; [exact W|]. exists [], r. split; [cbn; rewrite <- app_assoc; reflexivity|reflexivity]. Qed.
(** The token's text is in the buffer. *)
Lemma copied s t : copyable s t -> exists r, copy_token s t = Ok (token_text s t ++ 0 :: r) /\ zlen (token_text s t) + 1 + zlen r = zlen (last_str s) /\ zlen (token_text s t) = en t - st t /\ 4 <= zlen r.
Proof.
  intros (A & B & _ & C & D). unfold copy_token. replace ((0 <=? st t) && (en t <=? zlen (text s))) with true by lia.
  assert (L : zlen (token_text s t) = en t - st t). { unfold token_text, slice. rewrite zlen_take by lia. rewrite zlen_skip by lia. lia. }
  unfold strncpy. fold (slice (text s) (st t) (en t - st t)). fold (token_text s t). rewrite cstr_id by exact C. rewrite L, Z.sub_diag. change (zrepeat 0 0) with (@nil Z). rewrite app_nil_r.
  rewrite wr_eq by lia. cbn [obind]. rewrite bput_0, L. set (w := token_text s t) in *. set (q := zskip (en t - st t) (last_str s)). assert (LQ : zlen q = zlen (last_str s) - (en t - st t)) by (unfold q; rewrite zlen_skip; lia).
  destruct q as [|c r]; [change (zlen (@nil Z)) with 0 in LQ; lia|]. rewrite zlen_cons in LQ. rewrite wr_eq; [|lia|rewrite zlen_app, !zlen_cons; change (zlen (@nil Z)) with 0; lia]. exists r. split; [|lia].
  f_equal. rewrite <- L. change (c :: r) with ([c] ++ r). rewrite bput_mid by reflexivity. reflexivity.
Qed.
Lemma in_buffer_eq w r s : cstring w -> in_buffer (w ++ 0 :: r) s = Ok (Some w, S_ (text s) (tokens s) (w ++ 0 :: r)).
Proof. intros C. unfold in_buffer. rewrite str_at by exact C. reflexivity. Qed.

(** Endings *)
Lemma without_app e v : without e (v ++ e) = Some v.
Proof.
  unfold without. rewrite zlen_app. replace (zlen v + zlen e - zlen e) with (zlen v) by lia. pose proof (zlen_nonneg v). replace (0 <=? zlen v) with true by lia. rewrite zskip_app_len, ztake_app_len by reflexivity.
  destruct (list_eq_dec Z.eq_dec e e); [reflexivity|contradiction].
Qed.
Lemma without_inv e k v : without e k = Some v -> k = v ++ e.
Proof.
  unfold without. destruct (0 <=? zlen k - zlen e); cbn [andb]; [|discriminate]. destruct (list_eq_dec Z.eq_dec (zskip (zlen k - zlen e) k) e) as [E|]; [|discriminate]. intros X. injection X as <-. rewrite <- E at 2. symmetry. apply ztake_zskip.
Qed.
Lemma rd_at m p n a w b : m = a ++ w ++ b -> p = zlen a -> n = zlen w -> rd m p n = Ok w.
Proof. intros -> -> ->. apply has_rd. exists a, b. auto. Qed.
Lemma singular_name w r : cstring w -> w <> [] -> 4 <= zlen r -> exists r', singular (w ++ 0 :: r) (zlen w) = Ok (item_name w ++ 0 :: r') /\ cstring (item_name w) /\ zlen (item_name w) + zlen r' = zlen w + zlen r.
Proof.
  intros C NE L. destruct (exists_last NE) as (v & c & ->). pose proof (zlen_nonneg v) as VL. rewrite zlen_app. change (zlen [c]) with 1. unfold singular, byte_at.
  rewrite (rd_at _ _ _ v [c] (0 :: r)) by (rewrite <- ?app_assoc; try reflexivity; lia). cbn [obind hd]. apply Forall_app in C as [CV CC].
  destruct (Z.eqb_spec c 115) as [->|N].
  - exists (0 :: r). rewrite wr_eq; [|lia|rewrite !zlen_app, !zlen_cons; change (zlen [0]) with 1; change (zlen (@nil Z)) with 0; pose proof (zlen_nonneg r); lia].
    unfold item_name. change (lit "s") with [115]. rewrite without_app. replace (zlen v + 1 - 1) with (zlen v) by lia. rewrite <- app_assoc. rewrite bput_mid by reflexivity. split; [reflexivity|]. split; [exact CV|]. rewrite zlen_cons. lia.
  - unfold item_name. destruct (without (lit "s") (v ++ [c])) as [u|] eqn:WS; [apply without_inv in WS; change (lit "s") with [115] in WS; apply app_inj_tail in WS as [_ E]; contradiction|].
    assert (REST : exists r', wr ((v ++ [c]) ++ 0 :: r) (zlen v + 1) [73; 116; 101; 109; 0] = Ok (((v ++ [c]) ++ lit "Item") ++ 0 :: r') /\ cstring ((v ++ [c]) ++ lit "Item") /\ zlen ((v ++ [c]) ++ lit "Item") + zlen r' = zlen v + 1 + zlen r).
    { destruct r as [|x0 [|x1 [|x2 [|x3 r]]]]; [unfold zlen in L; cbn in L; lia..|]. exists r. rewrite !zlen_cons in L. rewrite wr_eq; [|lia|rewrite !zlen_app, !zlen_cons; change (zlen (@nil Z)) with 0; pose proof (zlen_nonneg r); lia].
      split.
      - f_equal. replace (zlen v + 1) with (zlen (v ++ [c])) by (rewrite zlen_app; reflexivity). change (0 :: x0 :: x1 :: x2 :: x3 :: r) with ([0; x0; x1; x2; x3] ++ r). rewrite bput_mid by reflexivity. rewrite <- (app_assoc (v ++ [c])). reflexivity.
      - split; [apply Forall_app; split; [apply Forall_app; auto|]; repeat constructor|]. rewrite !zlen_app, !zlen_cons. change (zlen (@nil Z)) with 0. change (zlen (lit "Item")) with 4. lia. }
    destruct (Z.ltb_spec 4 (zlen v + 1)) as [L4|L4].
    + assert (CK : cstring (v ++ [c])) by (apply Forall_app; auto). set (k := v ++ [c]) in *. assert (KL : zlen k = zlen v + 1) by (unfold k; rewrite zlen_app; reflexivity).
      assert (KS : k = ztake (zlen k - 4) k ++ zskip (zlen k - 4) k) by (symmetry; apply ztake_zskip). assert (K4 : zlen (zskip (zlen k - 4) k) = 4) by (rewrite zlen_skip; lia).
      rewrite (rd_at _ _ _ (ztake (zlen k - 4) k) (zskip (zlen k - 4) k) (0 :: r)); [|rewrite app_assoc, <- KS; reflexivity|rewrite zlen_take; lia|lia]. cbn [obind].
      destruct (list_eq_dec Z.eq_dec (zskip (zlen k - 4) k) [76; 105; 115; 116]) as [EL|NL].
      * rewrite EL in KS. set (u := ztake (zlen k - 4) k) in *. assert (UL : zlen u = zlen k - 4) by (unfold u; rewrite zlen_take; lia). clearbody u k. subst k. change (lit "List") with [76; 105; 115; 116]. rewrite without_app. destruct u as [|c0 u]; [change (zlen (@nil Z)) with 0 in UL; lia|].
        exists (105 :: 115 :: 116 :: 0 :: r). rewrite wr_eq; [|lia|rewrite !zlen_app, !zlen_cons in *; change (zlen (@nil Z)) with 0 in *; pose proof (zlen_nonneg r); lia]. rewrite zlen_app in UL, KL. change (zlen [76; 105; 115; 116]) with 4 in UL, KL.
        split; [|split; [|rewrite !zlen_cons in *; lia]].
        -- f_equal. replace (zlen v + 1 - 4) with (zlen (c0 :: u)) by lia. rewrite <- app_assoc. change ([76; 105; 115; 116] ++ 0 :: r) with ([76] ++ 105 :: 115 :: 116 :: 0 :: r). rewrite bput_mid by reflexivity. reflexivity.
        -- apply Forall_app in CK as [CK _]. exact CK.
      * destruct (without (lit "List") k) as [u|] eqn:WL; [|exact REST]. apply without_inv in WL. exfalso. apply NL. assert (Q : zlen k = zlen u + 4) by (rewrite WL, zlen_app; reflexivity). rewrite Q, WL. apply zskip_app_len. lia.
    + cbn [obind]. destruct (list_eq_dec Z.eq_dec [] [76; 105; 115; 116]) as [X|_]; [discriminate X|]. destruct (without (lit "List") (v ++ [c])) as [[|c0 u]|] eqn:WL; [exact REST| |exact REST].
      apply without_inv in WL. assert (Q : zlen (v ++ [c]) = zlen (c0 :: u) + 4) by (rewrite WL, zlen_app; reflexivity). rewrite zlen_app, !zlen_cons in Q. change (zlen (@nil Z)) with 0 in Q. pose proof (zlen_nonneg u). lia.
Qed.

(** ** The names *)
Lemma token_tk s i t : tk (tokens s) i t -> token s i = Ok t.
Proof. intros [I E]. unfold token. replace (i <? 0) with false by lia. rewrite E. reflexivity. Qed.
Lemma scalar_string t : ty t = JSMN_STRING -> is_scalar t = true.
Proof. intros E. unfold is_scalar. rewrite E. reflexivity. Qed.
Lemma string_inside s t : copyable s t -> ty t = JSMN_STRING -> inside_file s t = true.
Proof. intros (A & B & C & _) E. specialize (C E). unfold inside_file. lia. Qed.
Lemma node_name s i X : usable s -> tk (tokens s) i X ->
  (forall P K, tk (tokens s) (par X) P -> ty P = JSMN_ARRAY -> tk (tokens s) (par P) K -> ty K = JSMN_STRING -> st K < en K) ->
  exists n s', named (text s) (tokens s) i n /\ getNodeName s i = Ok (n, s') /\ same s s'.
Proof.
  intros U TX NE. pose proof (proj2 U _ _ TX) as PX. pose proof (tk_range _ _ _ TX) as RX. unfold getNodeName. rewrite (token_tk _ _ _ TX). cbn [obind].
  destruct (Z.ltb_spec (par X) 0) as [N|N]; cbn [orb]. { exists None, s. split; [eapply named_root; eauto|]. split; [reflexivity|apply same_refl]. }
  replace (zlen (tokens s) <=? par X) with false by lia. destruct (tk_some (tokens s) (par X)) as (P & TP); [lia|]. rewrite (token_tk _ _ _ TP). cbn [obind]. pose proof (proj2 U _ _ TP) as PP.
  destruct (Z.eqb_spec (ty P) JSMN_ARRAY) as [TA|TA].
  - destruct (Z.ltb_spec (par P) 0) as [N2|N2]; cbn [orb]. { exists None, s. split; [eapply named_root_item; eauto|]. split; [reflexivity|apply same_refl]. }
    replace (zlen (tokens s) <=? par P) with false by lia. destruct (tk_some (tokens s) (par P)) as (K & TK); [lia|]. rewrite (token_tk _ _ _ TK). cbn [obind].
    destruct (Z.eqb_spec (ty K) JSMN_STRING) as [TS|TS].
    + pose proof (proj1 U K (tk_in _ _ _ TK) (scalar_string _ TS)) as CK. rewrite (string_inside _ _ CK TS). cbn [negb]. destruct (copied _ _ CK) as (r & E & L & LK & R). rewrite E. cbn [obind]. specialize (NE _ _ TP TA TK TS).
      destruct CK as (_ & _ & _ & CS & _). destruct (singular_name (token_text s K) r CS) as (r' & E2 & C2 & L2); [intros Z0; rewrite Z0 in LK; change (zlen (@nil Z)) with 0 in LK; lia|exact R|]. rewrite <- LK, E2. cbn [obind].
      rewrite in_buffer_eq by exact C2. do 2 eexists. split; [eapply named_item; eauto|]. split; [reflexivity|]. split; [reflexivity|]. split; [reflexivity|]. cbn [last_str]. rewrite zlen_app, zlen_cons. lia.
    + do 2 eexists. split; [eapply named_nested; eauto|]. split; [reflexivity|apply same_refl].
  - destruct (Z.eqb_spec (ty P) JSMN_OBJECT) as [TO|TO]; cbn [negb]; [|do 2 eexists; split; [eapply named_else; eauto|]; split; [reflexivity|apply same_refl]].
    destruct (Z.eqb_spec (ty X) JSMN_STRING) as [TS|TS]; cbn [negb]; [|do 2 eexists; split; [eapply named_not_key; eauto|]; split; [reflexivity|apply same_refl]].
    pose proof (proj1 U X (tk_in _ _ _ TX) (scalar_string _ TS)) as CK. rewrite (string_inside _ _ CK TS). cbn [negb]. destruct (copied _ _ CK) as (r & E & L & LK & R). rewrite E. cbn [obind].
    destruct CK as (_ & _ & _ & CS & _). rewrite in_buffer_eq by exact CS. do 2 eexists. split; [eapply named_key; eauto|]. split; [reflexivity|]. split; [reflexivity|]. split; [reflexivity|]. cbn [last_str]. rewrite zlen_app, zlen_cons. lia.
Qed.
Lemma named_fun js ts i n m : named js ts i n -> named js ts i m -> n = m.
Proof.
  assert (F : forall i t u, is_token ts i t -> is_token ts i u -> t = u) by (intros k t u [_ A] [_ B]; congruence).
  intros A B. destruct A, B; repeat match goal with H : is_token ts ?i ?t, H' : is_token ts ?i ?u |- _ => first [constr_eq t u; fail 1|pose proof (F _ _ _ H H'); subst u; clear H'] end; try reflexivity; try congruence;
  repeat match goal with H : is_token ts (par ?t) _ |- _ => destruct H as [? _] end; unfold JSMN_ARRAY, JSMN_OBJECT, JSMN_STRING in *; try lia.
Qed.
