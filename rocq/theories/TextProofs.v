(** Masks, identifiers, fields. *)
From Verif Require Import Base BaseFacts ListFacts Text TextSpec.

(** ** Masks *)

(** The relation the code computes: like [glob], but a star at the end wants at least one character. *)
Inductive glob2 : list Z -> list Z -> Prop :=
| g2_end : glob2 [] []
| g2_char c m v : c <> 42 -> c <> 63 -> glob2 m v -> glob2 (c :: m) (c :: v)
| g2_one x m v : glob2 m v -> glob2 (63 :: m) (x :: v)
| g2_none m v : m <> [] -> glob2 m v -> glob2 (42 :: m) v
| g2_last x : glob2 [42] [x]
| g2_more x m v : glob2 (42 :: m) v -> glob2 (42 :: m) (x :: v).

Definition no_star_question (m : list Z) : Prop := forall a b, m <> a ++ 42 :: 63 :: b.

Lemma nsq_tl c m : no_star_question (c :: m) -> no_star_question m.
Proof. intros H a b E. apply (H (c :: a) b). rewrite E. reflexivity. Qed.

Lemma glob2_star_any m v : glob2 (42 :: m) v -> m = [] \/ exists v1 v2, v = v1 ++ v2 /\ glob2 m v2.
Proof.
  intros H. remember (42 :: m) as M eqn:E. revert m E. induction H; intros m0 E; inversion E; subst; try lia.
  - right. exists [], v. auto.
  - left. reflexivity.
  - destruct (IHglob2 m0 eq_refl) as [->|(v1 & v2 & -> & H2)]; [left; reflexivity|]. right. exists (x :: v1), v2. auto.
Qed.

Lemma glob2_star_app m v1 v2 : m <> [] -> glob2 m v2 -> glob2 (42 :: m) (v1 ++ v2).
Proof. intros Hm H. induction v1; cbn [app]; [apply g2_none; assumption|apply g2_more; assumption]. Qed.

Lemma glob2_last_iff v : glob2 [42] v <-> v <> [].
Proof.
  split.
  - intros H. remember [42] as M eqn:E. induction H; inversion E; subst; try discriminate; try congruence.
  - destruct v as [|x v]; [congruence|]. intros _. revert x. induction v as [|y v IH]; intros x; [apply g2_last|]. apply g2_more. apply IH.
Qed.

Lemma skip_wild_spec m : no_star_question (42 :: m) -> exists k, m = repeat 42 k ++ skip_wild m /\ cur (skip_wild m) <> 42 /\ (cur (skip_wild m) <> 63).
Proof.
  induction m as [|c m IH]; intros Hn; cbn [skip_wild].
  - exists 0%nat. cbn. repeat split; discriminate.
  - destruct (Z.eqb_spec c STAR) as [->|H]; cbn [orb].
    + destruct IH as (k & E & Hc); [exact (nsq_tl _ _ Hn)|]. exists (S k). cbn [repeat app]. rewrite E at 1. auto.
    + destruct (Z.eqb_spec c QUESTION) as [->|H1].
      * exfalso. apply (Hn [] m). reflexivity.
      * exists 0%nat. cbn. auto.
Qed.

Lemma glob2_stars k m v : glob2 (42 :: repeat 42 k ++ m) v <-> glob2 (42 :: m) v.
Proof.
  induction k as [|k IH]; cbn [repeat app]; [reflexivity|]. rewrite <- IH. set (M := repeat 42 k ++ m). split.
  - intros H. destruct (glob2_star_any _ _ H) as [E|(v1 & v2 & -> & H2)]; [discriminate|]. clear H IH. induction v1; cbn [app]; [exact H2|apply g2_more; assumption].
  - intros H. apply g2_none; [discriminate|exact H].
Qed.

Lemma adv_glob2 : forall n value mask, (List.length value <= n)%nat -> cstring value -> cstring mask -> ~ In 42 value -> no_star_question mask ->
  (AdvEqual_ mask value = true <-> glob2 mask value).
Proof.
  induction n as [|n IH]; intros value mask Hlen Hv Hm Hs Hq.
  - destruct value; [|cbn in Hlen; lia]. destruct mask as [|c m]; cbn.
    + split; intros; [constructor|reflexivity].
    + split; [discriminate|]. intros H. exfalso. remember (c :: m) as M. remember (@nil Z) as V. clear -H HeqM HeqV. revert c m HeqM. induction H; intros; try discriminate; subst.
      destruct m; [congruence|]. eapply IHglob2; eauto.
  - destruct value as [|v value]; [apply IH; cbn; try assumption; lia|]. cbn [List.length] in Hlen.
    inversion Hv as [|? ? Hv1 Hv2]; subst. unfold is_cchar in Hv1.
    destruct mask as [|c m]; cbn [AdvEqual_].
    { split; [discriminate|]. intros H. inversion H. }
    inversion Hm as [|? ? Hc1 Hm2]; subst. unfold is_cchar in Hc1.
    assert (Hs' : ~ In 42 value) by (intros Hi; apply Hs; right; exact Hi). assert (v <> 42) by (intros ->; apply Hs; left; reflexivity).
    pose proof (nsq_tl _ _ Hq) as Hq'.
    destruct (Z.eqb_spec c v) as [->|Hcv]; cbn [orb].
    { rewrite (IH value m) by (try assumption; lia). split.
      - intros Hg. destruct (Z.eq_dec v 63) as [->|Hne]; [apply g2_one|apply g2_char]; auto.
      - intros H'. inversion H'; subst; try assumption; lia. }
    destruct (Z.eqb_spec c QUESTION) as [->|Hcq].
    { rewrite (IH value m) by (try assumption; lia). unfold QUESTION. split.
      - intros Hg. apply g2_one; auto.
      - intros H'. inversion H'; subst; try assumption; lia. }
    unfold QUESTION in Hcq. destruct (Z.eqb_spec c STAR) as [->|Hcs]; unfold STAR in *; cbn [andb].
    2: { split; [discriminate|]. intros H'. inversion H'; subst; lia. }
    destruct m as [|c1 m]; [split; [intros _; apply glob2_last_iff; discriminate|reflexivity]|].
    destruct (skip_wild_spec (c1 :: m) Hq) as (k & E & Hc42 & Hc63).
    assert (Hcm : cstring (skip_wild (c1 :: m))) by (rewrite E in Hm2; apply cstring_app in Hm2; tauto).
    assert (Hqm : no_star_question (skip_wild (c1 :: m))).
    { intros a b Eab. rewrite Eab in E. apply (Hq' (repeat 42 k ++ a) b). rewrite E, <- app_assoc. reflexivity. }
    assert (GE : glob2 (42 :: c1 :: m) (v :: value) <-> glob2 (42 :: skip_wild (c1 :: m)) (v :: value)) by (rewrite E at 1; apply glob2_stars).
    rewrite GE. clear GE.
    set (M := skip_wild (c1 :: m)) in *. clearbody M. clear E Hq Hq' Hm Hm2 c1 m.
    cbv zeta.
    assert (F : forall value1, (List.length value1 <= S n)%nat -> cstring value1 -> ~ In 42 value1 -> (M = [] -> value1 <> []) ->
      ((fix find (value : list Z) : bool :=
           match value with
           | [] => match M with [] => true | _ => false end
           | v :: value' => if (cur M =? v) && AdvEqual_ (tl M) value' then true else find value'
           end) value1 = true <-> glob2 (42 :: M) value1)).
    { induction value1 as [|w value1 IHv]; intros Hl1 Hv3 Hs3 Hne.
      - destruct M as [|c m]; [exfalso; exact (Hne eq_refl eq_refl)|]. split; [discriminate|]. intros H'. exfalso.
        destruct (glob2_star_any _ _ H') as [E|(a & b & E & H2)]; [discriminate|]. destruct a; [|discriminate]. destruct b; [|discriminate].
        inversion H2; subst; cbn in Hc42; congruence.
      - cbn [List.length] in Hl1. inversion Hv3 as [|? ? Hw Hv4]; subst. unfold is_cchar in Hw.
        assert (Hs4 : ~ In 42 value1) by (intros Hi; apply Hs3; right; exact Hi).
        destruct M as [|c m].
        + rewrite glob2_last_iff. split; [discriminate|]. intros _. clear -Hw Hv4. revert w Hw. induction value1 as [|u r IHr]; intros w Hw; cbn [cur hd].
          * destruct (Z.eqb_spec 0 w); [lia|]. reflexivity.
          * destruct (Z.eqb_spec 0 w); [lia|]. cbn [andb]. inversion Hv4; subst. apply IHr; assumption.
        + inversion Hcm as [|? ? Hc3 Hm3]; subst. unfold is_cchar in Hc3. cbn [cur hd tl] in *.
          destruct (Z.eqb_spec c w) as [->|Hcw]; cbn [andb].
          * destruct (AdvEqual_ m value1) eqn:EA.
            -- split; [|reflexivity]. intros _. apply g2_none; [discriminate|]. apply g2_char; [assumption|assumption|].
               apply (IH value1 m); try assumption; try lia. exact (nsq_tl _ _ Hqm).
            -- rewrite IHv by (try assumption; try lia; discriminate). split; [apply g2_more|]. intros H'.
               inversion H'; subst; try lia; try assumption.
               match goal with Hx : glob2 (w :: m) (w :: value1) |- _ => inversion Hx; subst; try lia end.
               match goal with Hx : glob2 m value1 |- _ => apply IH in Hx; [congruence|lia|assumption|assumption|assumption|exact (nsq_tl _ _ Hqm)] end.
          * rewrite IHv by (try assumption; try lia; discriminate). split; [apply g2_more|]. intros H'.
            inversion H'; subst; try lia; try assumption.
            match goal with Hx : glob2 (c :: m) (w :: value1) |- _ => inversion Hx; subst; try lia; try congruence end. }
    refine (F (v :: value) _ _ _ _); [cbn [List.length]; lia|exact Hv|exact Hs|discriminate].
Qed.

Lemma glob2_glob m v : glob2 m v -> glob m v.
Proof.
  induction 1.
  - constructor.
  - apply glob_char; assumption.
  - apply (glob_one x m v). assumption.
  - apply (glob_none m v). assumption.
  - apply (glob_more x []), (glob_none []). constructor.
  - apply (glob_more x m v). assumption.
Qed.

Lemma glob_glob2 m v : glob m v -> (forall m', m <> m' ++ [42]) -> glob2 m v.
Proof.
  induction 1; intros He.
  - constructor.
  - apply g2_char; [assumption|assumption|]. apply IHglob. intros m' E. apply (He (c :: m')). rewrite E. reflexivity.
  - apply g2_one. apply IHglob. intros m' E. apply (He (ch "?" :: m')). rewrite E. reflexivity.
  - apply g2_none; [intros ->; apply (He []); reflexivity|]. apply IHglob. intros m' E. apply (He (ch "*" :: m')). rewrite E. reflexivity.
  - apply g2_more. apply IHglob. exact He.
Qed.

(** A trailing star counts as "?*". *)
Lemma glob2_tail_star m v : glob2 (m ++ [42]) v <-> glob (m ++ [63; 42]) v.
Proof.
  split.
  - intros H. remember (m ++ [42]) as M eqn:E. revert m E. induction H; intros m0 E.
    + destruct m0; discriminate.
    + destruct m0 as [|d m0]; inversion E; subst; [lia|]. cbn [app]. apply glob_char; auto.
    + destruct m0 as [|d m0]; inversion E; subst. cbn [app]. apply (glob_one x). auto.
    + destruct m0 as [|d m0]; inversion E; subst; [congruence|]. cbn [app]. apply (glob_none (m0 ++ [63; 42])). auto.
    + destruct m0 as [|d m0]; inversion E as [[Ed Em]]; subst; [|destruct m0; discriminate]. cbn [app]. apply (glob_one x), (glob_none []), glob_end.
    + destruct m0 as [|d m0].
      * inversion E; subst. specialize (IHglob2 [] eq_refl). cbn [app] in *. inversion IHglob2; subst; try (exfalso; match goal with Hx : 63 <> ch "?" |- _ => apply Hx; reflexivity end).
        apply (glob_one x). apply (glob_more x0 []). assumption.
      * inversion E; subst. cbn [app]. apply (glob_more x). apply (IHglob2 (42 :: m0) eq_refl).
  - intros H. remember (m ++ [63; 42]) as M eqn:E. revert m E. induction H; intros m0 E.
    + destruct m0; discriminate.
    + destruct m0 as [|d m0]; inversion E; subst; [exfalso; apply H0; reflexivity|]. cbn [app]. apply g2_char; auto.
    + destruct m0 as [|d m0]; inversion E as [[Ed Em]]; subst.
      * cbn [app]. apply glob2_last_iff. discriminate.
      * cbn [app]. apply (g2_one x). auto.
    + destruct m0 as [|d m0]; inversion E as [[Ed Em]]; subst. cbn [app]. apply g2_none; [destruct m0; discriminate|]. auto.
    + destruct m0 as [|d m0]; inversion E as [[Ed Em]]; subst. cbn [app]. apply g2_more. apply (IHglob (ch "*" :: m0)). reflexivity.
Qed.

Lemma adv_sound mask value : cstring value -> cstring mask -> ~ In 42 value -> no_star_question mask -> AdvEqual (Some mask) value = true -> glob mask value.
Proof. intros. apply glob2_glob. apply (adv_glob2 (List.length value)); auto. Qed.

Lemma adv_complete mask value : cstring value -> cstring mask -> ~ In 42 value -> no_star_question mask -> (forall m', mask <> m' ++ [42]) ->
  glob mask value -> AdvEqual (Some mask) value = true.
Proof. intros. apply (adv_glob2 (List.length value)); auto. apply glob_glob2; assumption. Qed.

Lemma adv_tail_star mask value : cstring value -> cstring mask -> ~ In 42 value -> no_star_question (mask ++ [42]) ->
  (AdvEqual (Some (mask ++ [42])) value = true <-> glob (mask ++ [63; 42]) value).
Proof.
  intros. rewrite <- glob2_tail_star. apply (adv_glob2 (List.length value)); auto. apply cstring_app. split; [assumption|]. constructor; [unfold is_cchar; lia|constructor].
Qed.

(** Masks without stars: exact for all values. *)
Lemma adv_no_star mask : ~ In 42 mask -> forall value, AdvEqual (Some mask) value = true <-> glob mask value.
Proof.
  cbn [AdvEqual]. induction mask as [|c m IH]; intros Hs value; destruct value as [|v value]; cbn [AdvEqual_].
  - split; intros; [constructor|reflexivity].
  - split; [discriminate|]. intros H; inversion H.
  - split; [discriminate|]. intros H; inversion H; subst. exfalso. apply Hs. left. reflexivity.
  - assert (c <> 42) by (intros ->; apply Hs; left; reflexivity). assert (Hs' : ~ In 42 m) by (intros Hi; apply Hs; right; exact Hi). specialize (IH Hs' value).
    destruct (Z.eqb_spec c v) as [->|Hcv]; cbn [orb].
    + rewrite IH. split; [|intros H'; inversion H'; subst; try assumption; exfalso; apply H; reflexivity].
      intros H'. destruct (Z.eq_dec v 63) as [->|]; [apply (glob_one 63)|apply glob_char]; assumption.
    + destruct (Z.eqb_spec c QUESTION) as [->|Hq].
      * rewrite IH. split; [apply (glob_one v)|]. intros H'. inversion H'; subst; try assumption; lia.
      * destruct (Z.eqb_spec c STAR); [contradiction|]. cbn [andb]. split; [discriminate|]. intros H'. inversion H'; subst; try congruence; try (exfalso; apply H; reflexivity); exfalso; apply Hq; reflexivity.
Qed.

Lemma glob_inv_short : ~ glob (lit "*??") (lit "a").
Proof.
  change (lit "*??") with [42; 63; 63]. change (lit "a") with [97]. intros H.
  repeat match goal with H : glob _ _ |- _ => inversion H; subst; clear H end; try congruence.
Qed.
Lemma adv_refuted_end : AdvEqual (Some (lit "a*")) (lit "a") = false /\ glob (lit "a*") (lit "a").
Proof. split; [reflexivity|]. apply glob_char; [discriminate|discriminate|]. apply (glob_none []). constructor. Qed.
Lemma adv_refuted_question : AdvEqual (Some (lit "*??")) (lit "a") = true /\ ~ glob (lit "*??") (lit "a").
Proof. split; [reflexivity|exact glob_inv_short]. Qed.
Lemma adv_refuted_star : AdvEqual (Some (lit "*b")) (lit "*ab") = false /\ glob (lit "*b") (lit "*ab").
Proof. split; [reflexivity|]. apply (glob_more 42), (glob_more 97), glob_none. apply glob_char; [discriminate|discriminate|constructor]. Qed.

(** ** Identifiers *)

Definition ok_out (out : list Z) : Prop := out = [] \/ identifier out.

Lemma start_upper c : is_lower c || is_upper c || (c =? ch "_") = true -> ident_start c /\ ident_start (toupper c).
Proof. unfold is_lower, is_upper, ident_start, toupper, is_lower. change (ch "_") with 95. intros H. destruct ((97 <=? c) && (c <=? 122)) eqn:E; lia. Qed.

Lemma ok_out_snoc out c : ok_out out -> (ident_start c \/ (out <> [] /\ ident_char c)) -> ok_out (out ++ [c]).
Proof.
  intros [->|(a & r & -> & Ha & Hr)] Hc; right.
  - destruct Hc as [Hc|[Hc _]]; [|congruence]. exists c, []. repeat split; [exact Hc|constructor].
  - exists a, (r ++ [c]). repeat split; [exact Ha|]. apply Forall_app. split; [exact Hr|]. constructor; [|constructor]. destruct Hc as [Hc|[_ Hc]]; [left; exact Hc|exact Hc].
Qed.

Lemma skip_dashes_len p : (List.length (skip_dashes p) <= List.length p)%nat.
Proof. induction p as [|c r IH]; cbn [skip_dashes]; [lia|]. destruct (is_space c || (c =? ch "-")); cbn [List.length]; lia. Qed.

Lemma ident_loop_ok fuel : forall u p a need src out, (List.length src < fuel)%nat -> ok_out out -> zlen out <= 63 ->
  exists res, ident_loop fuel u p a need src out = Some res /\ ok_out res /\ zlen res <= 63.
Proof.
  induction fuel as [|k IH]; intros u p a need src out Hf Ho Hl; [lia|]. cbn [ident_loop].
  destruct (Z.ltb_spec (zlen out) (64 - 1)) as [H63|H63]; cbn [negb]; [|exists out; auto].
  destruct src as [|c r]; [exists out; auto|]. cbn [List.length] in Hf.
  assert (Ls : forall x, zlen (out ++ [x]) <= 63) by (intros x; rewrite zlen_app; change (zlen [x]) with 1; lia).
  destruct (is_lower c || is_upper c || ((0 <? zlen out) && is_digit c) || (c =? ch "_")) eqn:E1.
  - assert (Hc : (ident_start c \/ (out <> [] /\ ident_char c)) /\ (ident_start (toupper c) \/ (out <> [] /\ ident_char (toupper c)))).
    { destruct (is_lower c || is_upper c || (c =? ch "_")) eqn:E2.
      - destruct (start_upper c E2). auto.
      - assert (Hd : 0 < zlen out /\ 48 <= c <= 57) by (change (ch "_") with 95 in *; unfold is_digit, is_lower, is_upper in *; destruct (Z.ltb_spec 0 (zlen out)); lia). assert (out <> []) by (intros ->; change (zlen (@nil Z)) with 0 in Hd; lia).
        assert (Ht : toupper c = c) by (unfold toupper, is_lower; destruct ((97 <=? c) && (c <=? 122)) eqn:E; lia). rewrite Ht.
        split; right; (split; [assumption|right; lia]). }
    destruct Hc. destruct (need || a); apply IH; try lia; try apply Ls; apply ok_out_snoc; assumption.
  - destruct (is_space c || (c =? ch "-")) eqn:E2.
    + assert (Hk : (List.length (skip_dashes (c :: r)) < k)%nat) by (cbn [skip_dashes]; rewrite E2; pose proof (skip_dashes_len r); lia).
      destruct (u || (c =? ch "-")); [|destruct p]; apply IH; try exact Hk; try assumption; try apply Ls.
      apply ok_out_snoc; [assumption|]. left. right. right. reflexivity.
    + apply IH; auto; lia.
Qed.

Lemma MakeIdent_ok src style : exists out, MakeIdent src style = Some out /\ zlen out <= 63 /\ (out = [] \/ identifier out).
Proof.
  unfold MakeIdent. destruct src as [|c r].
  - destruct (ident_loop_ok 1 (has_char (ch "_") style) (has_char (ch "U") style) (has_pair (ch "U") (ch "!") style) (has_char (ch "U") style) [] []) as (res & E & A & B);
      [cbn; lia|left; reflexivity|vm_compute; discriminate|]. exists res. auto.
  - destruct (is_digit c) eqn:Ed.
    + destruct (ident_loop_ok (S (List.length r)) (has_char (ch "_") style) (has_char (ch "U") style) (has_pair (ch "U") (ch "!") style) (has_char (ch "U") style) r [ch "_"; c]) as (res & E & A & B);
        [lia| |vm_compute; discriminate|exists res; auto].
      right. exists (ch "_"), [c]. repeat split; [right; right; reflexivity|]. constructor; [|constructor]. right. unfold is_digit in Ed. lia.
    + destruct (ident_loop_ok (S (List.length (c :: r))) (has_char (ch "_") style) (has_char (ch "U") style) (has_pair (ch "U") (ch "!") style) (has_char (ch "U") style) (c :: r) []) as (res & E & A & B);
        [lia|left; reflexivity|vm_compute; discriminate|exists res; auto].
Qed.

(** An identifier that fits is kept as it is in the plain style. *)
Lemma ident_loop_id fuel : forall src out, (List.length src < fuel)%nat -> ok_out (out ++ src) -> zlen out + zlen src <= 63 ->
  ident_loop fuel false false false false src out = Some (out ++ src).
Proof.
  induction fuel as [|k IH]; intros src out Hf Ho Hl; [lia|]. cbn [ident_loop]. destruct src as [|c r].
  - rewrite app_nil_r. destruct (zlen out <? 64 - 1); reflexivity.
  - rewrite zlen_cons in Hl. pose proof (zlen_nonneg r). destruct (Z.ltb_spec (zlen out) (64 - 1)); [|lia]. cbn [negb List.length] in *.
    replace (is_lower c || is_upper c || ((0 <? zlen out) && is_digit c) || (c =? ch "_")) with true.
    + cbn [orb]. rewrite IH; [rewrite <- app_assoc; reflexivity|lia|rewrite <- app_assoc; exact Ho|rewrite zlen_app; change (zlen [c]) with 1; lia].
    + destruct Ho as [Ho|(a & s & E & Ha & Hs)]; [destruct out; discriminate|]. change (ch "_") with 95. unfold is_lower, is_upper, is_digit. destruct out as [|d out].
      * cbn [app] in E. inversion E; subst. unfold ident_start in Ha. lia.
      * cbn [app] in E. inversion E; subst. apply Forall_app in Hs. destruct Hs as [_ Hs]. inversion Hs as [|? ? Hc _]; subst.
        assert (0 < zlen (a :: out)) by (rewrite zlen_cons; pose proof (zlen_nonneg out); lia). unfold ident_char, ident_start in Hc. lia.
Qed.

Lemma MakeIdent_id s : identifier s -> zlen s <= 63 -> MakeIdent s [] = Some s.
Proof.
  intros Hi Hl. unfold MakeIdent. destruct s as [|c r]; [reflexivity|].
  assert (Hd : is_digit c = false). { destruct Hi as (a & q & E & Ha & _). inversion E; subst. unfold ident_start in Ha. unfold is_digit. lia. }
  rewrite Hd. cbn [has_char has_pair existsb]. apply (ident_loop_id _ (c :: r) []); [cbn; lia|right; exact Hi|change (zlen (@nil Z)) with 0; lia].
Qed.

Lemma ident_rest_len r : Forall ident_char r -> ident_rest r = zlen r.
Proof.
  induction 1 as [|c r Hc Hr IH]; cbn [ident_rest]; [reflexivity|]. replace (is_alnum c || (c =? ch "_")) with true.
  - rewrite zlen_cons, IH. lia.
  - change (ch "_") with 95. unfold is_alnum, is_alpha, is_upper, is_lower, is_digit. unfold ident_char, ident_start in Hc. lia.
Qed.
Lemma GetIdentLen_ident s : identifier s -> GetIdentLen s = zlen s.
Proof.
  intros (c & r & -> & Hc & Hr). cbn [GetIdentLen]. rewrite ident_rest_len by exact Hr. rewrite zlen_cons.
  replace (negb (is_alpha c) && negb (c =? ch "_")) with false; [lia|].
  change (ch "_") with 95. unfold is_alpha, is_upper, is_lower. unfold ident_start in Hc. lia.
Qed.
