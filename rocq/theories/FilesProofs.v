(** Proofs for C77, C78 and C79. *)
From Verif Require Import Base BaseFacts ListFacts Files FilesSpec.

Lemma names_app a n b : names_of (a ++ 47 :: b) n = names_of a n ++ names_of b [].
Proof. revert n. induction a as [|c a IH]; intros n; cbn [app names_of]; [reflexivity|]. destruct (c =? 47); [rewrite IH; reflexivity|apply IH]. Qed.
Lemma names_snoc a n c : c <> 47 -> exists ns m, names_of a n = ns ++ [m] /\ names_of (a ++ [c]) n = ns ++ [m ++ [c]].
Proof.
  intros C. revert n. induction a as [|d a IH]; intros n; cbn [app names_of].
  - exists [], n. destruct (Z.eqb_spec c 47); [lia|]. split; reflexivity.
  - destruct (d =? 47); [|apply IH]. destruct (IH []) as (ns & m & E1 & E2). exists (n :: ns), m. rewrite E1, E2. split; reflexivity.
Qed.
Lemma names_some a n : exists m r, names_of a n = m :: r.
Proof. revert n. induction a as [|c a IH]; intros n; cbn [names_of]; [eauto|]. destruct (c =? 47); eauto. Qed.
Lemma trim_snoc ns m : m <> [] -> trim (ns ++ [m]) = ns ++ [m].
Proof.
  intros N. induction ns as [|n ns IH]; cbn [app trim].
  - destruct (list_eq_dec Z.eq_dec m []); [contradiction|reflexivity].
  - rewrite IH. destruct ns; reflexivity.
Qed.
Lemma follow_app f p a b : follow f p (a ++ b) = match follow f p a with Some q => follow f q b | None => None end.
Proof. revert p. induction a as [|n a IH]; intros p; cbn [app follow]; [reflexivity|]. destruct (enter f p n); [apply IH|reflexivity]. Qed.
Lemma follow_dir f p m r q : follow f p (m :: r) = Some q -> f p = Some Dir.
Proof. cbn [follow]. unfold enter. destruct (f p) as [[|]|]; intros; congruence. Qed.
Lemma start_app cwd a b : a <> [] -> start cwd (a ++ b) = start cwd a.
Proof. destruct a; [contradiction|reflexivity]. Qed.

(** A path that leads somewhere leads through directories. *)
Lemma located_prefix f cwd a b p : a <> [] -> locate f cwd (a ++ 47 :: b) = Some p -> is_dir f cwd a.
Proof.
  intros A. unfold locate. rewrite names_app, follow_app, start_app by exact A. intros E. destruct (follow f (start cwd a) (names_of a [])) as [q|] eqn:F; [|discriminate].
  destruct (names_some b []) as (m & r & N). rewrite N in E. exists q. split; [exact F|]. exact (follow_dir _ _ _ _ _ E).
Qed.
Lemma mkdir_exists f cwd path ok r f' : mkdir f cwd path ok = (r, f') -> r <> Refused -> exists p k, follow f' (start cwd path) (trim (names_of path [])) = Some p /\ f' p = Some k.
Proof.
  unfold mkdir. destruct (follow f (start cwd path) (trim (names_of path []))) as [p|] eqn:F; [|intros [= <- <-] N; contradiction].
  destruct (f p) as [k|] eqn:K; [intros [= <- <-] N; exists p, k; auto|]. destruct ok; [|intros [= <- <-] N; contradiction].
  intros [= <- <-] _. exists p, Dir. split; [|unfold create, same_place; destruct (list_eq_dec _ p p); [reflexivity|contradiction]].
  assert (G : forall ns s, follow f s ns = Some p -> follow (create f p) s ns = Some p).
  { induction ns as [|n ns IH]; intros s E; [exact E|]. pose proof (follow_dir _ _ _ _ _ E) as D. cbn [follow] in *.
    assert (N : enter (create f p) s n = enter f s n).
    { unfold enter, create, same_place. destruct (list_eq_dec _ s p) as [->|_]; [congruence|reflexivity]. }
    rewrite N. destruct (enter f s n); [apply IH; exact E|discriminate]. }
  apply G. exact F.
Qed.

Lemma force_last w f cwd rest : forall done_ f' w', done_ ++ rest <> [] -> force_loop w f cwd done_ (rest ++ [47]) = (true, f', w') ->
  exists g ok r, mkdir g cwd (done_ ++ rest) ok = (r, f') /\ r <> Refused.
Proof.
  revert w f. induction rest as [|c rest IH]; intros w f done_ f' w' N; cbn [app force_loop].
  - rewrite app_nil_r in *. assert (Zn : zlen done_ =? 0 = false) by (apply Z.eqb_neq; destruct done_; [contradiction|]; rewrite zlen_cons; pose proof (zlen_nonneg done_); lia).
    rewrite Zn. cbn [Z.eqb Pos.eqb negb andb]. destruct w as [|[g a] w].
    + destruct (mkdir f cwd done_ true) as [[| |] f1] eqn:M; intros [= <- <-]; eexists _, _, _; (split; [exact M|discriminate]).
    + destruct (mkdir (g f) cwd done_ a) as [[| |] f1] eqn:M; intros [= <- <-]; eexists _, _, _; (split; [exact M|discriminate]).
  - assert (A : (done_ ++ [c]) ++ rest = done_ ++ c :: rest) by (rewrite <- app_assoc; reflexivity). rewrite <- A in *.
    destruct ((c =? 47) && negb (zlen done_ =? 0)); [|intros E; exact (IH _ _ _ _ _ N E)].
    destruct w as [|[g a] w].
    + destruct (mkdir f cwd done_ true) as [[| |] f1]; intros E; [| |discriminate]; exact (IH _ _ _ _ _ N E).
    + destruct (mkdir (g f) cwd done_ a) as [[| |] f1]; intros E; [| |discriminate]; exact (IH _ _ _ _ _ N E).
Qed.

Lemma force_directory_makes w f cwd x c f' : c <> 47 -> force_directory w f cwd ((x ++ [c]) ++ [47]) = (true, f') ->
  (exists k, exists_at f' cwd (x ++ [c]) k) /\ (forall a b, a <> [] -> x ++ [c] = a ++ 47 :: b -> is_dir f' cwd a).
Proof.
  unfold force_directory. intros C E. destruct (force_loop w f cwd [] ((x ++ [c]) ++ [47])) as [[r f1] w'] eqn:L. injection E as -> ->.
  assert (N : [] ++ (x ++ [c]) <> []) by (destruct x; discriminate).
  destruct (force_last _ _ _ _ _ _ _ N L) as (g & ok & r & M & R). cbn [app] in M. destruct (mkdir_exists _ _ _ _ _ _ M R) as (p & k & F & K).
  destruct (names_snoc x [] c C) as (ns & m & _ & E2). rewrite E2, trim_snoc in F by (destruct m; discriminate). rewrite <- E2 in F.
  split; [exists k, p; split; [exact F|exact K]|]. intros a b A B. rewrite B in F. exact (located_prefix _ _ _ _ _ A F).
Qed.

(** Success when nothing is in the way. *)
Definition grows (f g : fs) : Prop := forall p k, f p = Some k -> g p = Some k.
Lemma follow_grows f g ns : grows f g -> forall s p, follow f s ns = Some p -> follow g s ns = Some p.
Proof.
  intros G. induction ns as [|n ns IH]; intros s p E; [exact E|]. pose proof (follow_dir _ _ _ _ _ E) as D. cbn [follow] in *.
  assert (N : enter g s n = enter f s n) by (unfold enter; rewrite D, (G _ _ D); reflexivity). rewrite N. destruct (enter f s n); [apply IH; exact E|discriminate].
Qed.
Lemma follow_trim f ns : forall s p, follow f s ns = Some p -> follow f s (trim ns) = Some p.
Proof.
  induction ns as [|n ns IH]; intros s p E; [exact E|]. pose proof (follow_dir _ _ _ _ _ E) as D. cbn [follow trim] in *.
  destruct (enter f s n) as [q|] eqn:Q; [|discriminate]. specialize (IH _ _ E).
  destruct (trim ns) as [|t ts] eqn:T; [|cbn [follow] in *; rewrite Q; exact IH]. cbn [follow] in IH. injection IH as <-.
  destruct (list_eq_dec Z.eq_dec n []) as [->|X]; [|cbn [follow]; rewrite Q; reflexivity].
  unfold enter in Q. rewrite D in Q. cbn in Q. cbn [follow]. symmetry. congruence.
Qed.
Lemma enter_some f s n : f s = Some Dir -> exists q, enter f s n = Some q.
Proof. intros D. unfold enter. rewrite D. repeat destruct (list_eq_dec _ _ _); eauto. Qed.
Lemma mkdir_allowed f cwd path ns m s q : only_dirs f -> names_of path [] = ns ++ [m] -> s = start cwd path -> follow f s ns = Some q -> f q = Some Dir ->
  exists r f' p, mkdir f cwd path true = (r, f') /\ r <> Refused /\ grows f f' /\ only_dirs f' /\ follow f' s (ns ++ [m]) = Some p /\ f' p = Some Dir.
Proof.
  intros O N -> F D. destruct (enter_some f q m D) as [p E].
  assert (A : follow f (start cwd path) (ns ++ [m]) = Some p) by (rewrite follow_app, F; cbn [follow]; rewrite E; reflexivity).
  unfold mkdir. rewrite N, (follow_trim _ _ _ _ A). destruct (f p) as [k|] eqn:K.
  - exists Exists, f, p. split; [reflexivity|]. split; [discriminate|]. split; [intros ? ? X; exact X|]. split; [exact O|]. split; [exact A|]. destruct k; [exact K|exfalso; exact (O _ K)].
  - assert (G : grows f (create f p)) by (intros x k X; unfold create, same_place; destruct (list_eq_dec _ x p) as [->|_]; [congruence|exact X]).
    exists Made, (create f p), p. split; [reflexivity|]. split; [discriminate|]. split; [exact G|].
    split; [intros x; unfold create; destruct (same_place x p); [discriminate|apply O]|]. split; [exact (follow_grows _ _ _ G _ _ A)|].
    unfold create, same_place. destruct (list_eq_dec _ p p); [reflexivity|contradiction].
Qed.
Lemma force_succeeds cwd s rest : forall w f done_ ns m q, Forall (fun e => friendly (fst e) /\ snd e = true) w -> only_dirs f ->
  (done_ = [] -> s = start cwd rest) -> (done_ <> [] -> s = start cwd done_) -> names_of done_ [] = ns ++ [m] -> follow f s ns = Some q -> f q = Some Dir ->
  exists f' w', force_loop w f cwd done_ rest = (true, f', w') /\ only_dirs f'.
Proof.
  induction rest as [|c rest IH]; intros w f done_ ns m q W O S0 S1 N F D; cbn [force_loop]; [eauto|].
  assert (S2 : done_ ++ [c] <> [] -> s = start cwd (done_ ++ [c])).
  { intros _. destruct done_ as [|d done_]; [rewrite (S0 eq_refl); reflexivity|]. rewrite start_app by discriminate. apply S1. discriminate. }
  assert (S3 : done_ ++ [c] = [] -> s = start cwd rest) by (destruct done_; discriminate).
  destruct (Z.eqb_spec c 47) as [->|C]; cbn [andb].
  - assert (N2 : names_of (done_ ++ [47]) [] = (ns ++ [m]) ++ [[]]) by (rewrite names_app, N; reflexivity).
    destruct (Z.eqb_spec (zlen done_) 0) as [Z0|Z0]; cbn [negb].
    + destruct done_; [|rewrite zlen_cons in Z0; pose proof (zlen_nonneg done_); lia]. cbn [names_of] in N.
      assert (ns = [] /\ m = []) as [-> ->] by (destruct ns as [|? [|]]; cbn in N; [|discriminate|discriminate]; injection N as <-; auto).
      cbn [follow] in F. injection F as <-. apply (IH w f _ ([] ++ [[]]) [] s W O S3 S2 N2); [|exact D]. cbn [app follow]. unfold enter. rewrite D. reflexivity.
    + assert (X : done_ <> []) by (intros ->; apply Z0; reflexivity). pose proof (S1 X) as S4.
      assert (K : exists g w1, match w with (g, a) :: w => (g, a, w) | [] => ((fun f : fs => f), true, []) end = (g, true, w1) /\ friendly g /\ Forall (fun e => friendly (fst e) /\ snd e = true) w1).
      { destruct w as [|[g a] w]; [eexists _, _; split; [reflexivity|]; split; [intros h; auto|constructor]|].
        apply Forall_cons_iff in W as [[W1 W2] W]. cbn [fst snd] in *. subst a. eauto. }
      destruct K as (g & w1 & -> & G & W1). destruct (G f) as [G1 G2].
      destruct (mkdir_allowed (g f) cwd done_ ns m s q (G2 O) N S4 (follow_grows _ _ _ G1 _ _ F) (G1 _ _ D)) as (r & f1 & p & M & R & _ & O1 & F1 & D1).
      rewrite M. destruct r; [| |contradiction]; exact (IH _ _ _ _ _ _ W1 O1 S3 S2 N2 F1 D1).
  - destruct (names_snoc done_ [] c C) as (ns' & m' & E1 & E2). rewrite N in E1. apply app_inj_tail in E1 as [-> ->]. exact (IH _ _ _ _ _ _ W O S3 S2 E2 F D).
Qed.
Lemma force_directory_succeeds w f cwd directory : Forall (fun e => friendly (fst e) /\ snd e = true) w -> only_dirs f -> f [] = Some Dir -> f cwd = Some Dir ->
  exists f', force_directory w f cwd directory = (true, f') /\ only_dirs f'.
Proof.
  intros W O R C. destruct (force_succeeds cwd (start cwd directory) directory w f [] [] [] (start cwd directory) W O) as (f' & w' & E & O1);
    [reflexivity|contradiction|reflexivity|reflexivity| |unfold force_directory; rewrite E; eauto].
  unfold start. destruct directory as [|c ?]; [exact C|]. destruct c as [|p|p]; [exact C| |exact C]. repeat (destruct p as [p|p|]; try exact C). exact R.
Qed.

(** Nothing else is made. *)
Lemma force_only f cwd rest : forall w done_ g r g' w', Forall (fun e => fst e = (fun f => f)) w -> (forall q, g q <> f q -> f q = None /\ g q = Some Dir) -> force_loop w g cwd done_ rest = (r, g', w') ->
  forall q, g' q <> f q -> f q = None /\ g' q = Some Dir.
Proof.
  induction rest as [|c rest IH]; intros w done_ g r g' w' W G; cbn [force_loop]; [intros [= <- <- <-]; exact G|].
  destruct ((c =? 47) && negb (zlen done_ =? 0)); [|apply IH; assumption].
  assert (K : exists a w1, match w with (g, a) :: w => (g, a, w) | [] => ((fun f : fs => f), true, []) end = ((fun f : fs => f), a, w1) /\ Forall (fun e : (fs -> fs) * bool => fst e = (fun f => f)) w1).
  { destruct w as [|[h a] w]; [eexists _, _; split; [reflexivity|constructor]|]. apply Forall_cons_iff in W as [W1 W]. cbn [fst] in W1. subst h. eauto. }
  destruct K as (a & w1 & -> & W1). destruct (mkdir g cwd done_ a) as [x g1] eqn:M.
  assert (G1 : forall q, g1 q <> f q -> f q = None /\ g1 q = Some Dir).
  { unfold mkdir in M. destruct (follow g (start cwd done_) (trim (names_of done_ []))) as [p|]; [|injection M as <- <-; exact G].
    destruct (g p) as [k|] eqn:K; [injection M as <- <-; exact G|]. destruct a; [|injection M as <- <-; exact G]. injection M as <- <-.
    intros q. unfold create, same_place. destruct (list_eq_dec _ q p) as [->|_]; [|apply G]. intros _. split; [|reflexivity].
    destruct (f p) as [k|] eqn:P; [|reflexivity]. destruct (G p) as [X _]; [rewrite K, P; discriminate|congruence]. }
  destruct x; [apply IH; assumption|apply IH; assumption|intros [= <- <- <-]; exact G1].
Qed.
Lemma force_directory_only w f cwd directory r f' : Forall (fun e => fst e = (fun f => f)) w -> force_directory w f cwd directory = (r, f') ->
  forall q, f' q <> f q -> f q = None /\ f' q = Some Dir.
Proof.
  unfold force_directory. intros W E. destruct (force_loop w f cwd [] directory) as [[r1 f1] w'] eqn:L. injection E as -> ->.
  apply (force_only f cwd directory w [] f r f' w' W); [intros q X; contradiction|exact L].
Qed.

(** ** scan_dir *)
Section SCAN.
Context {U : Type} (on_file : list Z -> Z -> U -> bool * Z * U).
Lemma dots_spec name : dots name = true <-> itself_or_parent name.
Proof.
  unfold itself_or_parent. change (lit ".") with [46]. change (lit "..") with [46; 46]. split; [|intros [-> | ->]; reflexivity]. unfold dots. intro E.
  destruct name as [|a [|b [|c r]]]; try discriminate.
  - left. destruct (Z.eq_dec a 46) as [->|NE]; [reflexivity|]. exfalso. revert E NE. clear. destruct a as [|p|p]; try discriminate. do 6 (destruct p as [p|p|]; try discriminate). congruence.
  - right. assert (a = 46 /\ b = 46) as [-> ->]; [|reflexivity]. revert E. clear. destruct a as [|p|p]; try discriminate. do 6 (destruct p as [p|p|]; try discriminate). destruct b as [|q|q]; try discriminate. do 6 (destruct q as [q|q|]; try discriminate). auto.
  - exfalso. revert E. clear. destruct a as [|p|p]; try discriminate. do 6 (destruct p as [p|p|]; try discriminate). destruct b as [|q|q]; try discriminate. do 6 (destruct q as [q|q|]; try discriminate).
Qed.
Lemma scan_loop_serves l : forall u calls e u', scan_loop on_file l u = (calls, e, u') ->
  exists rest b, listed l = calls ++ rest /\ served on_file calls u u' b /\ (b = true -> rest = [] /\ (e = 0 <-> ~ broken l)) /\ (b = false -> polite on_file -> e = 0).
Proof.
  induction l as [|[name type|] l IH]; intros u calls e u'; cbn [scan_loop listed].
  - intros [= <- <- <-]. exists [], true. split; [reflexivity|]. split; [constructor|]. split; [intros _; split; [reflexivity|]; split; [intros _ X; exact X|reflexivity]|discriminate].
  - pose proof (dots_spec name) as DS. destruct (dots name); destruct (itself_or_parent_dec name) as [IP|IP]; try (exfalso; intuition discriminate).
    + intros E. destruct (IH _ _ _ _ E) as (rest & b & A & B & C & D). exists rest, b. split; [exact A|]. split; [exact B|]. split; [|exact D].
      intros X. destruct (C X) as [C1 C2]. split; [exact C1|]. rewrite C2. unfold broken. cbn [In]. split; intros Y; [intros [?|?]; [discriminate|tauto]|tauto].
    + destruct (on_file name type u) as [[go e1] u1] eqn:F. destruct go.
      * destruct (scan_loop on_file l u1) as [[calls1 e2] u2] eqn:L. intros [= <- <- <-]. destruct (IH _ _ _ _ L) as (rest & b & A & B & C & D). exists rest, b. rewrite A. split; [reflexivity|].
        split; [econstructor; [exact F|exact B]|]. split; [|exact D].
        intros X. destruct (C X) as [C1 C2]. split; [exact C1|]. rewrite C2. unfold broken. cbn [In]. split; intros Y; [intros [?|?]; [discriminate|tauto]|tauto].
      * intros [= <- <- <-]. exists (listed l), false. split; [reflexivity|]. split; [econstructor; exact F|]. split; [discriminate|]. intros _ P. exact (P _ _ _ _ _ F).
  - intros [= <- <- <-]. exists [], true. split; [reflexivity|]. split; [constructor|]. split; [|discriminate]. intros _. split; [reflexivity|]. split; [discriminate|]. intros X. exfalso. apply X. left. reflexivity.
Qed.
Lemma scan_dir_scans l closes u r calls open u' : scan_dir on_file (Some l) closes u = (r, calls, open, u') ->
  exists rest b, listed l = calls ++ rest /\ served on_file calls u u' b /\ (b = true -> rest = []) /\
    (polite on_file -> (b = false \/ ~ broken l) -> r = closes /\ open = false) /\ (b = true -> broken l -> r = false).
Proof.
  unfold scan_dir. destruct (scan_loop on_file l u) as [[c e] u1] eqn:L. destruct (scan_loop_serves _ _ _ _ _ L) as (rest & b & A & B & C & D).
  intros E. exists rest, b. assert (c = calls /\ u1 = u') as [-> ->] by (destruct (e =? 0); injection E; auto). split; [exact A|]. split; [exact B|]. split; [intros X; apply (C X)|]. split.
  - intros P [X|X]; assert (e = 0) as ->.
    + exact (D X P).
    + cbn in E. injection E. auto.
    + destruct b; [destruct (C eq_refl) as [_ C2]; apply C2, X|exact (D eq_refl P)].
    + cbn in E. injection E. auto.
  - intros X Y. destruct (C X) as [_ C2]. destruct (Z.eqb_spec e 0) as [->|_]; [exfalso; apply C2; auto|]. cbn in E. injection E. auto.
Qed.
End SCAN.

(** ** Whole files *)
Lemma ReadFile_reads size c x d n : possible c size x -> ReadFile size c x = (Some d, n) -> n = size /\ 0 < n <= zlen c /\ d = ztake n c ++ [0].
Proof.
  unfold ReadFile. destruct (Z.leb_spec size 0) as [?|P]; [discriminate|]. destruct x as [|r]; [discriminate|]. intros (R1 & R2 & R3). destruct (Z.ltb_spec r size) as [?|Q]; [discriminate|].
  intros E. injection E as <- <-. assert (r = size) as -> by lia. split; [unfold s32; rewrite Z.mod_small; lia|].
  assert (s32 size = size) as -> by (unfold s32; rewrite Z.mod_small; lia). auto with zarith.
Qed.
Lemma ReadFile_whole c : 0 < zlen c <= 2147479552 -> ReadFile (zlen c) c (Reads (zlen c)) = (Some (c ++ [0]), zlen c).
Proof.
  intros L. unfold ReadFile. destruct (Z.leb_spec (zlen c) 0); [lia|]. rewrite Z.ltb_irrefl, ztake_all by lia. f_equal. unfold s32. rewrite Z.mod_small; lia.
Qed.
Lemma ReadFile_null size c x n : possible c size x -> ReadFile size c x = (None, n) -> size <= 0 \/ x = NoRead \/ exists r, x = Reads r /\ r < size.
Proof.
  unfold ReadFile. intros _. destruct (Z.leb_spec size 0); [auto|]. destruct x as [|r]; [auto|]. destruct (Z.ltb_spec r size); [eauto|discriminate].
Qed.
Lemma file_get_contents_gets size c x buf r : 0 <= size -> possible c size x -> file_get_contents size c x = (buf, r) ->
  zlen buf = size /\ (x = NoRead -> r = -1 /\ buf = zrepeat 0 size) /\
  (x <> NoRead -> 0 <= r <= zlen c /\ ztake r buf = ztake r c /\ zskip r buf = zrepeat 0 (size - r)).
Proof.
  intros P. destruct x as [|n]; cbn [possible file_get_contents].
  - intros _ [= <- <-]. split; [apply zlen_repeat; lia|]. split; [auto|contradiction].
  - intros (A & B & _) [= <- <-]. assert (L : zlen (ztake n c) = n) by (rewrite zlen_take by lia; lia). split; [rewrite zlen_app, zlen_repeat, L by lia; lia|].
    split; [discriminate|]. intros _. split; [lia|]. split; [apply ztake_app_len; lia|].
    pose proof (ztake_zskip n (ztake n c ++ zrepeat 0 (size - n))) as X. rewrite (ztake_app_len _ _ n) in X by lia. apply app_inv_head in X. exact X.
Qed.
