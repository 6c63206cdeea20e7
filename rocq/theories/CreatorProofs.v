(** Proofs for C80. *)
From Verif Require Import Base BaseFacts ListFacts Text PathProofs Creator CreatorSpec.

Lemma strrchr_some c s i : strrchr c s = Some i -> exists a b, s = a ++ c :: b /\ i = zlen a /\ ~ In c b.
Proof.
  revert i. induction s as [|x s IH]; cbn [strrchr]; [discriminate|]. intros i. destruct (strrchr c s) as [j|] eqn:E.
  - intros [= <-]. destruct (IH j eq_refl) as (a & b & -> & -> & N). exists (x :: a), b. split; [reflexivity|]. split; [rewrite zlen_cons; lia|exact N].
  - destruct (Z.eqb_spec x c) as [->|]; [|discriminate]. intros [= <-]. exists [], s. split; [reflexivity|]. split; [reflexivity|].
    intros X. clear -E X. induction s as [|y s IH]; [exact X|]. cbn [strrchr] in E. destruct (strrchr c s) eqn:F; [discriminate|]. destruct (Z.eqb_spec y c); [discriminate|]. destruct X as [X|X]; [contradiction|exact (IH eq_refl X)].
Qed.
Lemma same_text_spec a b : same_text a b = true <-> a = b.
Proof. unfold same_text. destruct (list_eq_dec Z.eq_dec a b); split; congruence. Qed.

Lemma selector_spec path k : selector true path = Some k <-> exists base e, path = base ++ e /\ In (e, k) extensions.
Proof.
  split.
  - unfold selector. destruct (strrchr DOT path) as [i|] eqn:E; [|discriminate]. destruct (strrchr_some _ _ _ E) as (a & b & -> & -> & _).
    rewrite zskip_app_len by reflexivity. cbv zeta. cbn [andb].
    destruct (same_text (DOT :: b) (lit ".xml")) eqn:A1; [apply same_text_spec in A1; intros [= <-]; exists a, (lit ".xml"); rewrite A1; split; [reflexivity|cbn; tauto]|].
    destruct (same_text (DOT :: b) (lit ".xsd")) eqn:A2; [apply same_text_spec in A2; intros [= <-]; exists a, (lit ".xsd"); rewrite A2; split; [reflexivity|cbn; tauto]|].
    destruct (same_text (DOT :: b) (lit ".wsdl")) eqn:A3; [apply same_text_spec in A3; intros [= <-]; exists a, (lit ".wsdl"); rewrite A3; split; [reflexivity|cbn; tauto]|].
    cbn [orb]. destruct (same_text (DOT :: b) (lit ".json")) eqn:A4; [apply same_text_spec in A4; intros [= <-]; exists a, (lit ".json"); rewrite A4; split; [reflexivity|cbn; tauto]|].
    destruct (same_text (DOT :: b) (lit ".xbw")) eqn:A5; [apply same_text_spec in A5; intros [= <-]; exists a, (lit ".xbw"); rewrite A5; split; [reflexivity|cbn; tauto]|]. discriminate.
  - intros (base & e & -> & X). unfold selector.
    assert (S : forall t, ~ In DOT t -> strrchr DOT (base ++ DOT :: t) = Some (zlen base)) by (intros; apply strrchr_last; assumption).
    unfold extensions in X. cbn [In] in X.
    repeat (destruct X as [X|X]; [injection X as <- <-;
      match goal with |- context [base ++ ?e] => let v := eval vm_compute in e in change e with v end;
      match goal with |- context [base ++ ?d :: ?t] => change d with DOT; rewrite (S t) by (cbn; unfold DOT; intuition discriminate) end;
      rewrite zskip_app_len by reflexivity; vm_compute; reflexivity|]). destruct X.
Qed.

Lemma doall_kind s base t : DoAll (mkcr (Some s) (Some (base ++ result_extension t))) = Ok (Some (t, s, base ++ result_extension t)).
Proof.
  unfold DoAll. cbn [c_dst c_src]. destruct (Z.eqb_spec (zlen (base ++ result_extension t)) 0) as [E|_]; [rewrite zlen_app in E; pose proof (zlen_nonneg base); destruct t; vm_compute (zlen (result_extension _)) in E; lia|].
  destruct t; cbn [result_extension].
  - change (lit ".xb") with ([46; 120] ++ [98]). rewrite app_assoc, last_last. reflexivity.
  - change (lit ".xbw") with ([46; 120; 98] ++ [119]). rewrite app_assoc, last_last. reflexivity.
Qed.

Lemma by_name_converts pools src dst t k : selector pools src = Some k -> exists c base, creator_by_name pools src (Some dst) t = Ok c /\
  AllocFilenameChangeExt dst (Some (result_extension t)) None = Ok (base ++ result_extension t) /\ DoAll c = Ok (Some (t, (k, src), base ++ result_extension t)).
Proof.
  intros K. unfold creator_by_name, dst_name. change (match t with TargetXb => lit ".xb" | TargetXbw => lit ".xbw" end) with (result_extension t).
  assert (A : exists base, AllocFilenameChangeExt dst (Some (result_extension t)) None = Ok (base ++ result_extension t)) by (eexists; reflexivity).
  destruct A as (base & A). rewrite A, K. cbn [obind]. eexists _, base. split; [reflexivity|]. split; [reflexivity|]. apply doall_kind.
Qed.
Lemma by_source_converts src dst t : exists c base, creator_by_source src dst t = Ok c /\
  AllocFilenameChangeExt (match dst with Some d => d | None => snd src end) (Some (result_extension t)) None = Ok (base ++ result_extension t) /\ DoAll c = Ok (Some (t, src, base ++ result_extension t)).
Proof.
  unfold creator_by_source. assert (E : match dst with None => Some (snd src) | d => d end = Some (match dst with Some d => d | None => snd src end)) by (destruct dst; reflexivity).
  rewrite E. unfold dst_name. change (match t with TargetXb => lit ".xb" | TargetXbw => lit ".xbw" end) with (result_extension t).
  assert (A : exists base, AllocFilenameChangeExt (match dst with Some d => d | None => snd src end) (Some (result_extension t)) None = Ok (base ++ result_extension t)) by (eexists; reflexivity).
  destruct A as (base & A). rewrite A. cbn [obind]. eexists _, base. split; [reflexivity|]. split; [reflexivity|]. apply doall_kind.
Qed.
Lemma selector_without path : selector false path = match selector true path with Some PoolSource => None | r => r end.
Proof. unfold selector. destruct (strrchr DOT path); [|reflexivity]. cbv zeta. destruct (_ || _ || _)%bool; [reflexivity|]. destruct (same_text _ (lit ".json")); [reflexivity|]. cbn [andb]. destruct (same_text _ (lit ".xbw")); reflexivity. Qed.
Lemma selector_any pools path k : selector pools path = Some k <-> (exists base e, path = base ++ e /\ In (e, k) extensions) /\ (k = PoolSource -> pools = true).
Proof.
  destruct pools; [rewrite selector_spec; tauto|]. rewrite selector_without, <- selector_spec. destruct (selector true path) as [[]|]; split; try (intros A; discriminate A); try (intros [A _]; exact A); try (intros [A B]; injection A as <-; discriminate (B eq_refl)); intros A; split; try exact A; congruence.
Qed.
