(** File names and fields. *)
From Verif Require Import Base BaseFacts ListFacts Text TextSpec.

Lemma strrchr_none c s : ~ In c s -> strrchr c s = None.
Proof.
  induction s as [|x r IH]; intros H; cbn [strrchr]; [reflexivity|]. rewrite IH by (intros Hi; apply H; right; exact Hi).
  destruct (Z.eqb_spec x c) as [->|]; [exfalso; apply H; left; reflexivity|reflexivity].
Qed.
Lemma strrchr_last c a b : ~ In c b -> strrchr c (a ++ c :: b) = Some (zlen a).
Proof.
  intros H. induction a as [|x a IH]; cbn [app strrchr].
  - rewrite strrchr_none by exact H. rewrite Z.eqb_refl. reflexivity.
  - rewrite IH, zlen_cons. f_equal. lia.
Qed.

Definition dot_slash (p : list Z) : Prop := exists r, p = DOT :: SLASH :: r.
Lemma strip_dots_id p : ~ dot_slash p -> strip_dots p = p.
Proof.
  intros H. destruct p as [|a [|b r]]; try reflexivity. cbn [strip_dots]. destruct (Z.eqb_spec a DOT) as [->|]; [|reflexivity].
  destruct (Z.eqb_spec b SLASH) as [->|]; [|reflexivity]. exfalso. apply H. exists r. reflexivity.
Qed.
Lemma strip_dots_drop p : strip_dots (DOT :: SLASH :: p) = strip_dots p.
Proof. reflexivity. Qed.

(** The tail of the function: the text before the last dot, and the extension. *)
Lemma ext_replaced dir stem ext new : (ext <> [] \/ ~ In DOT dir) -> ((ext = [] /\ ~ In DOT stem) \/ exists e, ext = DOT :: e /\ ~ In DOT e) ->
  ztake (match strrchr DOT (dir ++ stem ++ ext) with Some i => i | None => zlen (dir ++ stem ++ ext) end) (dir ++ stem ++ ext) ++ new = dir ++ stem ++ new.
Proof.
  intros Hd [[-> Hs]|(e & -> & He)].
  - destruct Hd as [Hd|Hd]; [congruence|]. rewrite app_nil_r. rewrite strrchr_none by (intros Hi; apply in_app_or in Hi; tauto).
    rewrite ztake_all by lia. rewrite <- app_assoc. reflexivity.
  - rewrite app_assoc. rewrite strrchr_last by exact He. rewrite ztake_app_len by reflexivity. rewrite <- app_assoc. reflexivity.
Qed.

Lemma change_ext path dir stem ext new : path_parts path dir stem ext -> (ext <> [] \/ ~ In DOT dir) -> zlen path < PATH_MAX -> ~ dot_slash path ->
  AllocFilenameChangeExt path (Some new) None = Ok (dir ++ stem ++ new).
Proof.
  intros (-> & _ & _ & He) Hd Hl Hn. unfold AllocFilenameChangeExt. rewrite strip_dots_id by exact Hn. rewrite ztake_all by lia. cbn [obind]. cbv zeta.
  f_equal. apply ext_replaced; assumption.
Qed.

Lemma change_ext_dot_slash path new dir : AllocFilenameChangeExt (DOT :: SLASH :: path) new dir = AllocFilenameChangeExt path new dir.
Proof. reflexivity. Qed.

Lemma change_ext_target path dir stem ext new target : path_parts path dir stem ext -> (ext <> [] \/ ~ In DOT (target ++ dir)) -> ~ dot_slash path ->
  (forall r, path <> SLASH :: r) -> zlen target + 1 + zlen path < PATH_MAX ->
  AllocFilenameChangeExt path (Some new) (Some target) = Ok (target ++ [SLASH] ++ dir ++ stem ++ new).
Proof.
  intros (-> & _ & _ & He) Hd Hn Hs Hl. unfold AllocFilenameChangeExt. rewrite strip_dots_id by exact Hn. set (path := dir ++ stem ++ ext) in *.
  pose proof (zlen_nonneg path). pose proof (zlen_nonneg target).
  assert (Ep : match path with c :: r => if c =? SLASH then r else path | [] => [] end = path).
  { destruct path as [|c r]; [reflexivity|]. destruct (Z.eqb_spec c SLASH) as [->|]; [exfalso; apply (Hs r); reflexivity|reflexivity]. }
  rewrite Ep. cbv zeta. rewrite (ztake_all (PATH_MAX - 1)) by lia. destruct (Z.ltb_spec (PATH_MAX - (zlen target + 1) - 1) 0); [lia|]. cbn [obind].
  rewrite (ztake_all _ path) by lia. f_equal. subst path.
  assert (EE : (target ++ [SLASH] ++ dir) ++ stem ++ new = target ++ [SLASH] ++ dir ++ stem ++ new) by (rewrite <- !app_assoc; reflexivity).
  rewrite <- EE. rewrite <- (ext_replaced (target ++ [SLASH] ++ dir) stem ext new); [rewrite <- !app_assoc; reflexivity| |exact He].
  destruct Hd as [Hd|Hd]; [left; exact Hd|right]. intros Hi. apply Hd. apply in_app_or in Hi. cbn [app In] in Hi. apply in_or_app. destruct Hi as [Hi|[Hi|Hi]]; auto. discriminate.
Qed.

Lemma change_ext_dir_dot : AllocFilenameChangeExt (lit "dir.d/file") (Some (lit ".xb")) None = Ok (lit "dir.xb") /\
  path_parts (lit "dir.d/file") (lit "dir.d/") (lit "file") [].
Proof.
  split; [reflexivity|]. split; [reflexivity|]. split; [right; exists (lit "dir.d"); reflexivity|]. split.
  - cbn. intuition discriminate.
  - left. split; [reflexivity|]. cbn. intuition discriminate.
Qed.

Lemma change_ext_overflow : exists target, AllocFilenameChangeExt (lit "a.xml") (Some (lit ".xb")) (Some target) = Ub.
Proof. exists (zrepeat 97 4095). vm_compute. reflexivity. Qed.

(** ** GetXB *)

Lemma same_text_spec a b : same_text a b = true <-> a = b.
Proof. unfold same_text. destruct (list_eq_dec Z.eq_dec a b); split; intros; congruence. Qed.

Lemma getxb base e : e = lit ".xml" \/ e = lit ".xsd" -> ~ dot_slash base -> zlen base + 3 < PATH_MAX ->
  GetXB_name (base ++ e) = Ok (base ++ lit ".xb") /\ xb_written (base ++ lit ".xb") = Ok (base ++ lit ".xb").
Proof.
  intros He Hn Hl. assert (Hdot : exists x, e = DOT :: x /\ zlen x = 3 /\ ~ In DOT x /\ (same_text e (lit ".wsdl") = false) /\ (negb (same_text e (lit ".xml")) && negb (same_text e (lit ".xsd")) = false)
     /\ ztake 2 e = lit ".x").
  { destruct He as [-> | ->]; eexists; (split; [reflexivity|]); (split; [reflexivity|]); (split; [vm_compute; intuition discriminate|]); repeat split. }
  destruct Hdot as (x & -> & Lx & Hx & W & XS & T2). pose proof (zlen_nonneg base). split.
  - unfold GetXB_name. rewrite strrchr_last by exact Hx. cbv zeta. rewrite zskip_app_len by reflexivity. rewrite W, XS. f_equal.
    rewrite zlen_app, zlen_cons, Lx. rewrite ztake_app_ge by lia. rewrite ztake_app_ge by lia.
    replace (zlen base + (1 + 3) - 1 - zlen base) with 3 by lia. replace (zlen base + (1 + 3) - 2 - zlen base) with 2 by lia.
    destruct x as [|x1 [|x2 [|x3 [|? ?]]]]; rewrite ?zlen_cons in Lx; try (change (zlen (@nil Z)) with 0 in Lx; lia); [|pose proof (zlen_nonneg l); lia].
    change (ztake 2 [DOT; x1; x2; x3]) with [DOT; x1] in T2. change (ztake 2 (ztake 3 [DOT; x1; x2; x3])) with [DOT; x1]. rewrite T2.
    rewrite <- app_assoc. reflexivity.
  - unfold xb_written, AllocFilenameChangeExt. rewrite strip_dots_id.
    + rewrite ztake_all by (rewrite zlen_app; change (zlen (lit ".xb")) with 3; lia). cbn [obind]. cbv zeta. f_equal.
      change (lit ".xb") with (DOT :: [120; 98]) at 1 2 3. rewrite strrchr_last by (cbn; intuition discriminate). rewrite ztake_app_len by reflexivity. reflexivity.
    + intros (r & E). destruct base as [|a [|b base]].
      * change (lit ".xb") with [46; 120; 98] in E. cbn [app] in E. unfold SLASH in E. congruence.
      * change (lit ".xb") with [46; 120; 98] in E. cbn [app] in E. unfold SLASH in E. congruence.
      * cbn [app] in E. inversion E; subst. apply Hn. exists base. reflexivity.
Qed.

Lemma getxb_wsdl : GetXB_name (lit "a.wsdl") = Ok (lit "a.wb") /\ xb_written (lit "a.wb") = Ok (lit "a.xb").
Proof. split; reflexivity. Qed.

(** ** Fields *)

Lemma field_ok stop f rest : Forall (fun c => stop c = false) f -> (rest = [] \/ exists c r, rest = c :: r /\ stop c = true) ->
  forall n d, 1 <= n -> field stop (f ++ rest) n d = (rest, d ++ ztake (n - 1) f).
Proof.
  intros Hf Hr. induction Hf as [|c f Hc Hf IH]; intros n d Hn; cbn [app].
  - replace (ztake (n - 1) []) with (@nil Z) by (unfold ztake; destruct (Z.to_nat (n - 1)); reflexivity). rewrite app_nil_r.
    destruct Hr as [->|(c & r & -> & Hc)]; cbn [field]; [reflexivity|]. rewrite Hc. reflexivity.
  - cbn [field]. rewrite Hc. destruct (Z.ltb_spec 1 n) as [H1|H1].
    + rewrite IH by lia. rewrite <- app_assoc. f_equal. f_equal. unfold ztake. replace (Z.to_nat (n - 1)) with (S (Z.to_nat (n - 1 - 1))) by lia. reflexivity.
    + rewrite IH by lia. assert (n = 1) by lia. subst n. rewrite !ztake_0 by lia. reflexivity.
Qed.

Lemma skip_spaces_app sp p : Forall (fun c => is_space c = true) sp -> is_space (cur p) = false -> skip_spaces (sp ++ p) = p.
Proof.
  intros Hs Hp. induction Hs as [|c sp Hc Hs IH]; cbn [app skip_spaces].
  - destruct p as [|c r]; [reflexivity|]. cbn [skip_spaces cur hd] in *. rewrite Hp. reflexivity.
  - rewrite Hc. exact IH.
Qed.

Lemma scanstr_ok sp f rest sep n : Forall (fun c => is_space c = true) sp -> is_space (cur (f ++ rest)) = false -> sep <> 32 -> 1 <= n ->
  Forall (fun c => c <> sep) f -> (rest = [] \/ exists r, rest = sep :: r) ->
  ScanStr (sp ++ f ++ rest) sep n = (tl rest, ztake (n - 1) f, negb (zlen (ztake (n - 1) f) =? 0)).
Proof.
  intros Hsp Hc H32 Hn Hf Hr. unfold ScanStr. rewrite skip_spaces_app by assumption. destruct (Z.eqb_spec sep 32); [contradiction|].
  rewrite (field_ok (Z.eqb sep) f rest); [| |destruct Hr as [->|(r & ->)]; [left; reflexivity|right; exists sep, r; split; [reflexivity|apply Z.eqb_refl]]|exact Hn].
  - cbn [app]. destruct Hr as [->|(r & ->)]; [reflexivity|]. rewrite Z.eqb_refl. reflexivity.
  - eapply Forall_impl; [|exact Hf]. intros c Hcc. cbv beta. apply Z.eqb_neq. congruence.
Qed.

Lemma scanstr_space_ok sp f rest n : Forall (fun c => is_space c = true) sp -> is_space (cur (f ++ rest)) = false -> 1 <= n ->
  Forall (fun c => is_space c = false) f -> (rest = [] \/ is_space (cur rest) = true) ->
  ScanStr (sp ++ f ++ rest) 32 n = (tl rest, ztake (n - 1) f, negb (zlen (ztake (n - 1) f) =? 0)).
Proof.
  intros Hsp Hc Hn Hf Hr. unfold ScanStr. rewrite skip_spaces_app by assumption. rewrite Z.eqb_refl.
  rewrite (field_ok is_space f rest); [| exact Hf | |exact Hn].
  - cbn [app]. destruct rest; reflexivity.
  - destruct rest as [|c r]; [left; reflexivity|]. destruct Hr as [Hr|Hr]; [discriminate|]. right. exists c, r. split; [reflexivity|exact Hr].
Qed.

Lemma scanstr_bounded p sep n : 1 <= n -> let '(_, d, _) := ScanStr p sep n in zlen d <= n - 1.
Proof.
  intros Hn. assert (F : forall stop p n d p' d', 1 <= n -> field stop p n d = (p', d') -> zlen d' <= zlen d + n - 1).
  { clear. intros stop. induction p as [|c r IH]; intros n d p' d' Hn E; cbn [field] in E; [inversion E; subst; lia|].
    destruct (stop c); [inversion E; subst; lia|]. destruct (Z.ltb_spec 1 n).
    - apply IH in E; [|lia]. rewrite zlen_app in E. change (zlen [c]) with 1 in E. lia.
    - apply IH in E; [|lia]. lia. }
  unfold ScanStr. destruct (sep =? 32).
  - destruct (field is_space (skip_spaces p) n []) as [q d] eqn:E. apply F in E; [|exact Hn]. change (zlen (@nil Z)) with 0 in E. lia.
  - destruct (field (Z.eqb sep) (skip_spaces p) n []) as [q d] eqn:E. apply F in E; [|exact Hn]. change (zlen (@nil Z)) with 0 in E. lia.
Qed.

Lemma eatend_iff p e q : EatEnd p e = Some q <-> p = q ++ e.
Proof.
  unfold EatEnd. pose proof (zlen_nonneg e). split.
  - destruct (Z.ltb_spec (zlen p) (zlen e)); [discriminate|]. destruct (same_text (zskip (zlen p - zlen e) p) e) eqn:E; [|discriminate]. cbn [negb].
    intros H1. inversion H1; subst. apply same_text_spec in E. rewrite <- E at 2. symmetry. apply ztake_zskip.
  - intros ->. rewrite zlen_app. pose proof (zlen_nonneg q). destruct (Z.ltb_spec (zlen q + zlen e) (zlen e)); [lia|].
    rewrite zskip_app_len by lia. replace (same_text e e) with true by (symmetry; apply same_text_spec; reflexivity). cbn [negb]. rewrite ztake_app_len by lia. reflexivity.
Qed.
