(** The size of the image (C39). *)
From Verif Require Import Base BaseFacts ListFacts Scan ScanProofs Types Sort SortProofs Symtab SymtabSpec SymtabProofs Xb XbWrite DocSpec BufferSpec WriteProofs FillProofs InitProofs OpenProofs.
From Coq Require Import Sorted.

Definition zsum {A} (f : A -> Z) := fix go (l : list A) : Z := match l with [] => 0 | x :: r => f x + go r end.

Lemma zsum_app {A} (f : A -> Z) a b : zsum f (a ++ b) = zsum f a + zsum f b.
Proof. induction a as [|x a IH]; cbn [zsum app]; [lia|]. unfold zsum in *. lia. Qed.
Lemma zsum_nonneg {A} (f : A -> Z) l : (forall x, 0 <= f x) -> 0 <= zsum f l.
Proof. intros H. induction l as [|x l IH]; cbn [zsum]; [lia|]. specialize (H x). unfold zsum in *. lia. Qed.
Lemma zsum_incl {A} (f : A -> Z) a : (forall x, 0 <= f x) -> forall b, NoDup a -> incl a b -> zsum f a <= zsum f b.
Proof.
  intros Hf. induction a as [|x a IH]; intros b N I; [cbn [zsum]; apply zsum_nonneg, Hf|]. inversion N as [|? ? Nx Na]; subst.
  destruct (in_split x b (I x (or_introl eq_refl))) as (b1 & b2 & ->). specialize (IH (b1 ++ b2) Na).
  assert (J : incl a (b1 ++ b2)) by (intros y Hy; specialize (I y (or_intror Hy)); rewrite in_app_iff in *; destruct I as [I|[<-|I]]; [auto|contradiction|auto]).
  specialize (IH J). rewrite zsum_app in *. cbn [zsum]. unfold zsum in *. lia.
Qed.
Lemma zsum_map {A B} (g : A -> B) (f : B -> Z) l : zsum f (map g l) = zsum (fun x => f (g x)) l.
Proof. induction l as [|x l IH]; [reflexivity|]. cbn [map zsum]. unfold zsum in *. rewrite IH. reflexivity. Qed.
Lemma zsum_flat {A B} (g : A -> list B) (f : B -> Z) l : zsum f (flat_map g l) = zsum (fun x => zsum f (g x)) l.
Proof. induction l as [|x l IH]; [reflexivity|]. cbn [flat_map]. rewrite zsum_app, IH. reflexivity. Qed.
Lemma zsum_le {A} (f g : A -> Z) l : (forall x, In x l -> f x <= g x) -> zsum f l <= zsum g l.
Proof. induction l as [|x l IH]; intros H; [cbn [zsum]; lia|]. pose proof (H x (or_introl eq_refl)). specialize (IH ltac:(intros; apply H; right; assumption)). cbn [zsum]. unfold zsum in *. lia. Qed.
Lemma zsum_add {A} (f g : A -> Z) l : zsum (fun x => f x + g x) l = zsum f l + zsum g l.
Proof. induction l as [|x l IH]; [reflexivity|]. cbn [zsum]. unfold zsum in *. lia. Qed.
Lemma zsum_const {A} (c : Z) (l : list A) : zsum (fun _ => c) l = c * zlen l.
Proof. induction l as [|x l IH]; [change (zlen (@nil A)) with 0; cbn [zsum]; lia|]. rewrite zlen_cons. cbn [zsum]. unfold zsum in *. lia. Qed.
Lemma zsum_len {A} (g : A -> list Z) l : zlen (flat_map g l) = zsum (fun x => zlen (g x)) l.
Proof. induction l as [|x l IH]; [reflexivity|]. cbn [flat_map]. rewrite zlen_app, IH. reflexivity. Qed.

(** ** What a text takes *)
Lemma scan_hex_short : forall n count p, let '(_, out, _) := scan_hex_loop n count p in zlen out <= zlen p.
Proof.
  induction n as [|n IH]; intros count p; cbn [scan_hex_loop]; [change (zlen (@nil Z)) with 0; apply zlen_nonneg|].
  set (p0 := if cur p =? 45 then _ else _). assert (L : zlen p0 <= zlen p) by (unfold p0; assert (T : zlen (tl p) <= zlen p) by (destruct p; cbn [tl]; rewrite ?zlen_cons; lia); destruct (cur p =? 45); [exact T|]; destruct (cur p =? 32); [exact T|lia]). clearbody p0.
  assert (Z0 : zlen (@nil Z) <= zlen p) by (change (zlen (@nil Z)) with 0; apply zlen_nonneg).
  destruct (hexval (cur p0)) as [h|] eqn:Eh; [|exact Z0]. destruct (hexval (cur (tl p0))) as [l|] eqn:El; [|exact Z0].
  specialize (IH (count + 1) (tl (tl p0))). destruct (scan_hex_loop n (count + 1) (tl (tl p0))) as [[c out] r]. rewrite zlen_cons.
  destruct p0 as [|a p0]; [discriminate Eh|]. cbn [tl] in *. rewrite zlen_cons in L. assert (zlen (tl p0) <= zlen p0) by (destruct p0; cbn [tl]; rewrite ?zlen_cons; lia). lia.
Qed.
Lemma ScanHex_short p n : let '(_, out, _) := ScanHex p n in zlen out <= zlen p.
Proof. unfold ScanHex. destruct p as [|c p]; [cbn; lia|]. apply scan_hex_short. Qed.

Lemma FromString_size fl v ty wp limit st : XBT_FromString fl v ty wp limit = Ok st -> st_wp st <= wp + 16 + zlen v.
Proof.
  intros H. pose proof (align_up_ge 4 wp ltac:(lia)) as G4. pose proof (align_up_ge 8 wp ltac:(lia)) as G8. pose proof (zlen_nonneg v) as Lv. unfold XBT_FromString in H. cbv zeta in H.
  assert (F4 : forall x, Ok (mkstored (align_up 4 wp) (le 4 x) (align_up 4 wp + zlen (le 4 x))) = Ok st -> st_wp st <= wp + 16 + zlen v)
    by (intros x E; rewrite le_zlen in E; change (Z.of_nat 4) with 4 in E; apply (f_equal (fun o => match o with Ok s => st_wp s | _ => 0 end)) in E; cbn [st_wp] in E; lia).
  assert (F8 : forall x, Ok (mkstored (align_up 8 wp) (le 8 x) (align_up 8 wp + zlen (le 8 x))) = Ok st -> st_wp st <= wp + 16 + zlen v)
    by (intros x E; rewrite le_zlen in E; change (Z.of_nat 8) with 8 in E; apply (f_equal (fun o => match o with Ok s => st_wp s | _ => 0 end)) in E; cbn [st_wp] in E; lia).
  assert (F48 : forall x, Ok (mkstored (align_up 4 wp) (le 8 x) (align_up 4 wp + zlen (le 8 x))) = Ok st -> st_wp st <= wp + 16 + zlen v)
    by (intros x E; rewrite le_zlen in E; change (Z.of_nat 8) with 8 in E; apply (f_equal (fun o => match o with Ok s => st_wp s | _ => 0 end)) in E; cbn [st_wp] in E; lia).
  repeat match type of H with (if ?ty =? ?c then _ else _) = _ => destruct (Z.eqb_spec ty c) as [->|] end; try discriminate H;
    try (eapply F4; exact H);
    try (match type of H with obind ?o _ = _ => destruct o as [?| |] end; cbn [obind] in H; try discriminate H; try (match type of H with (let '(_, _) := ?z in _) = _ => destruct z end); first [eapply F4; exact H|eapply F8; exact H|eapply F48; exact H]).
  - destruct v; [|discriminate H]. injection H as <-. cbn [st_wp]. change (zlen (@nil Z)) with 0. lia.
  - injection H as <-. cbn [st_wp]. rewrite zlen_app. change (zlen [0]) with 1. lia.
  - pose proof (ScanHex_short v 16) as S. destruct (ScanHex v 16) as [[? bs] ?]. destruct (_ =? _); [|discriminate H]. injection H as <-. cbn [st_wp]. lia.
  - pose proof (ScanHex_short v 20) as S. destruct (ScanHex v 20) as [[? bs] ?]. destruct (_ =? _); [|discriminate H]. injection H as <-. cbn [st_wp]. lia.
  - destruct (_ <? _); [discriminate H|]. pose proof (ScanHex_short v (limit - (align_up 4 wp + 4))) as S. destruct (ScanHex v _) as [[cnt bs] ?].
    assert (E : st_wp st = align_up 4 wp + zlen (le 4 cnt ++ bs)) by (apply (f_equal (fun o => match o with Ok s => st_wp s | _ => 0 end)) in H; cbn [st_wp] in H; congruence). rewrite E, zlen_app, le_zlen. lia.
Qed.

(** ** What an element takes *)
Tactic Notation "step" hyp(H) ident(E) simple_intropattern(n) := match type of H with obind ?o _ = _ => destruct o as [n| |] eqn:E; cbn [obind] in H; try discriminate H end.

Definition value_cost (v : option (list Z)) : Z := match v with Some v => 16 + zlen v | None => 0 end.
Definition text_cost (a : list Z * list Z) : Z := zlen (snd a) + 1.
Fixpoint cost (t : node) : Z :=
  let '(Node _ value attrs kids) := t in 16 + 8 * zlen attrs + 4 * zlen kids + value_cost value + zsum text_cost attrs + zsum cost kids.

Lemma store_value_size fl m wp v m' wp' : store_value fl m wp v = Ok (m', wp') -> wp' <= wp + 1 + value_cost v.
Proof.
  intros H. destruct v as [v|]; unfold store_value in H; cbn [value_cost].
  - cbv zeta in H. step H E1 m1. step H E2 st. step H E3 m2. injection H as <- <-. apply FromString_size in E2. lia.
  - step H E1 m1. injection H as <- <-. lia.
Qed.
Lemma store_param_size fl cr m wp x q a m' wp' : store_param fl cr m wp x q a = Ok (m', wp') -> wp' <= wp + text_cost a.
Proof.
  intros H. unfold store_param in H. destruct a as [name v]. unfold text_cost. cbn [snd]. pose proof (zlen_nonneg v). step H E1 id. step H E2 m1. destruct v as [|c v].
  - step H E3 m2. step H E4 m3. injection H as <- <-. lia.
  - step H E3 ty0. step H E4 size. cbv zeta in H. destruct (size =? 4).
    + destruct (XBT_FromString _ _ _ _ _) as [st| |]; [|clear E4|discriminate H].
      * step H E5 m2. step H E6 m3. injection H as <- <-. lia.
      * step H E5 m2. step H E6 m3. step H E7 m4. injection H as <- <-. lia.
    + step H E5 m2. step H E6 m3. step H E7 m4. injection H as <- <-. lia.
Qed.
Lemma store_params_size fl cr x l : forall m wp q m' wp', store_params fl cr m wp x q l = Ok (m', wp') -> wp' <= wp + zsum text_cost l.
Proof.
  induction l as [|a l IH]; intros m wp q m' wp' H; cbn [store_params] in H; [injection H as <- <-; cbn [zsum]; lia|]. step H E1 [m1 wp1]. apply store_param_size in E1. apply IH in H. cbn [zsum]. unfold zsum in *. lia.
Qed.

Lemma WriteNode_size fl cr t : forall m wp m' wp' x, WriteNode fl cr m wp t = Ok (m', wp', x) -> wp' <= wp + cost t.
Proof.
  induction t as [n v a k IH] using node_ind'. intros m wp m' wp' x H. cbn [WriteNode] in H. cbv zeta in H. step H E1 id. step H E2 m1. step H E3 [m2 wp2]. step H E4 [m3 wp3].
  match type of H with obind ?o _ = _ => destruct o as [[m4 wp4]| |] eqn:E5; cbn [obind] in H; try discriminate H end. step H E6 m5. injection H as _ <- _.
  apply store_value_size in E3. apply store_params_size in E4. pose proof (align_up_ge 4 wp ltac:(lia)). pose proof (zlen_nonneg a). pose proof (zlen_nonneg k).
  assert (s16 (zlen a) <= zlen a) by (unfold s16; lia). assert (s32 (zlen k) <= zlen k) by (unfold s32; lia).
  assert (K : forall k m wp c m' wp' x, Forall (fun t => forall m wp m' wp' x, WriteNode fl cr m wp t = Ok (m', wp', x) -> wp' <= wp + cost t) k ->
    store_children (fun m wp t => WriteNode fl cr m wp t) x m wp c k = Ok (m', wp') -> wp' <= wp + zsum cost k).
  { clear. induction k as [|t k IH]; intros m wp c m' wp' x F H; cbn [store_children] in H; [injection H as <- <-; cbn [zsum]; lia|]. inversion F as [|? ? Ft Fk]; subst.
    step H E1 [[m1 wp1] y]. step H E2 m2. apply Ft in E1. apply IH in H; [|exact Fk]. cbn [zsum]. unfold zsum in *. lia. }
  apply K in E5; [|exact IH]. cbn [cost]. lia.
Qed.

(** ** The symbol tables and the whole *)
Definition name_cost (n : list Z) : Z := zlen n + 6.
Lemma store_names_size t : forall m wp x r y m' wp', store_names m wp x r y t = Ok (m', wp') -> wp' = wp + zsum (fun n => zlen n + 1) (names t).
Proof.
  induction t as [|[n ty] t IH]; intros m wp x r y m' wp' H; cbn [store_names] in H; [injection H as <- <-; cbn [names map zsum]; lia|]. step H E1 m1. step H E2 m2. step H E3 m3. apply IH in H. cbn [names map fst zsum]. unfold names, zsum in *. lia.
Qed.
Lemma names_size m wp code t m' wp' x : WriteChildSymbols m wp code t = Ok (m', wp', x) -> wp' <= wp + 42 + zsum name_cost (names t).
Proof.
  intros H. unfold WriteChildSymbols in H. cbv zeta in H. do 6 (match type of H with obind ?o _ = _ => destruct o as [?| |]; cbn [obind] in H; try discriminate H end). step H E [m7 wp7]. step H E8 m8. step H E9 m9. injection H as _ <- _.
  apply store_names_size in E. pose proof (align_up_ge 4 wp ltac:(lia)). set (y := align_up 4 wp) in *. pose proof (align_up_ge 4 (y + 12 + 17) ltac:(lia)). pose proof (align_up_ge 4 wp7 ltac:(lia)).
  assert (zsum name_cost (names t) = zsum (fun n => zlen n + 1) (names t) + 5 * zlen t).
  { unfold name_cost. replace (zlen t) with (zlen (names t)) by (unfold names; apply zlen_map). rewrite <- zsum_const, <- zsum_add. clear. induction (names t) as [|n l IH]; cbn [zsum]; [lia|]. unfold zsum in *. lia. }
  lia.
Qed.

Lemma FillData_size fl cr m filename modified root m' size : FillData fl cr m filename modified root = Ok (m', size) ->
  size <= 185 + zlen filename + zsum name_cost (names (cr_tags cr)) + zsum name_cost (names (cr_params cr)) + cost root.
Proof.
  intros H. unfold FillData, FillDataOf in H. cbv zeta in H. do 12 (match type of H with obind ?o _ = _ => destruct o as [?| |]; cbn [obind] in H; try discriminate H end).
  step H E1 [[m1 wp1] y1]. step H E2 m2. step H E3 [[m3 wp3] y3]. step H E4 m4. step H E5 [[m5 wp5] y5]. step H E6 m6. step H E7 m7. injection H as _ <-.
  apply names_size in E1. apply names_size in E3. unfold WritePayloadOf in E5. cbv zeta in E5. step E5 F1 n1. step E5 F2 n2. step E5 F3 [[n3 w3] z3]. step E5 F4 n4.
  destruct (negb _); [discriminate E5|]. step E5 F5 n5. injection E5 as _ <- _. apply WriteNode_size in F3.
  pose proof (align_up_ge 4 (12 + 8 * 4 + 4 * 3 + 1 + zlen filename + 1) ltac:(lia)). pose proof (align_up_ge 4 wp3 ltac:(lia)). lia.
Qed.

Lemma ordered_once l : strictly_ordered l -> NoDup l.
Proof.
  intros S. induction l as [|x l IH]; [constructor|]. inversion S as [|? ? Sl F]; subst. constructor; [|apply IH, Sl]. intros Hx. rewrite Forall_forall in F. apply (before_irrefl x), F, Hx.
Qed.
Lemma registered_size l t : register [] l = rret t -> zsum name_cost (names t) <= zsum name_cost (map fst l).
Proof.
  intros H. apply register_holds in H. destruct H as (G & _ & S & _). apply zsum_incl.
  - intros x. unfold name_cost. pose proof (zlen_nonneg x). lia.
  - apply ordered_once, G.
  - intros n Hn. unfold names in Hn. apply in_map_iff in Hn. destruct Hn as ((n' & ty) & <- & Hn). apply (S _ _ Hn).
Qed.

Definition total (t : node) : Z := cost t + zsum name_cost (map name_of (elements t)) + zsum name_cost (map fst (flat_map attrs_of (elements t))).
Lemma attrs_size a : 8 * zlen a + zsum text_cost a + zsum name_cost (map fst a) <= 8 * zlen (flat_map attr_source a).
Proof.
  induction a as [|[n v] a IH]; [vm_compute; discriminate|]. cbn [flat_map map fst zsum]. rewrite zlen_cons, zlen_app. unfold attr_source at 1. cbn [fst snd]. rewrite !zlen_app. change (zlen [32]) with 1. change (zlen [61; 34]) with 2. change (zlen [34]) with 1.
  pose proof (zlen_nonneg n). pose proof (zlen_nonneg v). unfold text_cost at 1, name_cost at 1. cbn [snd]. unfold zsum in *. lia.
Qed.
Lemma total_size t : (forall u, In u (elements t) -> name_of u <> []) -> total t <= 8 * zlen (source t) - 4.
Proof.
  induction t as [n v a k IH] using node_ind'. intros Hn. unfold total. cbn [elements map name_of flat_map attrs_of]. rewrite map_app, zsum_app. cbn [cost zsum].
  pose proof (attrs_size a) as Ha. assert (Nn : 1 <= zlen n) by (pose proof (Hn (Node n v a k) ltac:(left; reflexivity)) as Q; cbn [name_of] in Q; destruct n; [contradiction|rewrite zlen_cons; pose proof (zlen_nonneg n); lia]).
  assert (K : zsum cost k + zsum name_cost (map name_of (flat_map elements k)) + zsum name_cost (map fst (flat_map attrs_of (flat_map elements k))) + 4 * zlen k <= 8 * zlen (flat_map source k)).
  { assert (Hk : forall u, In u (flat_map elements k) -> name_of u <> []) by (intros u Hu; apply Hn; right; exact Hu). clear -IH Hk. induction IH as [|t k Ht _ IHk]; [vm_compute; discriminate|].
    cbn [flat_map]. rewrite flat_map_app, !map_app, !zsum_app, zlen_app, zlen_cons. cbn [zsum].
    assert (T : total t <= 8 * zlen (source t) - 4) by (apply Ht; intros u Hu; apply Hk; cbn [flat_map]; apply in_or_app; left; exact Hu). unfold total in T.
    specialize (IHk ltac:(intros u Hu; apply Hk; cbn [flat_map]; apply in_or_app; right; exact Hu)). unfold zsum in *. lia. }
  assert (S : value_cost v + 22 + zlen n + 8 * zlen (flat_map attr_source a) + 8 * zlen (flat_map source k) + 4 <= 8 * zlen (source (Node n v a k))).
  { cbn [source]. rewrite !zlen_app. change (zlen [60]) with 1. destruct v as [v|]; [|destruct k as [|t k]]; cbn [value_cost].
    - rewrite !zlen_app. change (zlen [62]) with 1. change (zlen [60; 47]) with 2. pose proof (zlen_nonneg v). lia.
    - change (zlen [47; 62]) with 2. change (zlen (flat_map source [])) with 0. lia.
    - rewrite !zlen_app. change (zlen [62]) with 1. change (zlen [60; 47]) with 2. change (zlen (@nil Z)) with 0. lia. }
  unfold name_cost at 1. unfold zsum in *. lia.
Qed.

Lemma image_size fl m filename modified root img : (forall u, In u (elements root) -> name_of u <> []) -> Make_xb fl m filename modified root = rret img ->
  zlen img <= 1024 + zlen filename + 8 * zlen (source root).
Proof.
  intros Hn H. unfold Make_xb, MakeSymbolTable in H. destruct (register [] (tag_uses root)) as [[t1| |]|] eqn:E1; try discriminate H. cbn [rbind] in H.
  destruct (register [] (attr_uses root)) as [[t2| |]|] eqn:E2; try discriminate H. cbn [rbind rret] in H.
  destruct (FillData _ _ _ _ _ _) as [[m' size]| |] eqn:E; try discriminate H. cbn [rbind] in H. destruct (Z.ltb_spec (zlen m') (align_up 4 size)); [discriminate H|]. injection H as <-.
  apply FillData_size in E. cbn [cr_tags cr_params] in E. apply registered_size in E1, E2. rewrite tag_uses_elements, map_map in E1. rewrite attr_uses_elements in E2.
  pose proof (total_size root Hn) as T. unfold total in T. pose proof (align_up_ge 4 size ltac:(lia)). pose proof (zlen_nonneg (ztake (align_up 4 size) m')).
  assert (zlen (ztake (align_up 4 size) m') <= Z.max 0 (align_up 4 size)) by (unfold zlen, ztake; rewrite firstn_length; lia).
  pose proof (zlen_nonneg filename). pose proof (zlen_nonneg (source root)).
  replace (zsum name_cost (map (fun x => fst (name_of x, match value_of x with Some v => v | None => [] end)) (elements root))) with (zsum name_cost (map name_of (elements root))) in E1 by reflexivity. lia.
Qed.
