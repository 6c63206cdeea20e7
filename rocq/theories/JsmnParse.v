(** jsmn_parse: it ends, and what its tokens are. *)
From Verif Require Import Base BaseFacts ListFacts Types Sort SortProofs Xb XbWrite Jsmn JsmnProofs.

(** The counting pass in step with the filling pass. *)
Definition blind (p : parser) : parser := P (pos p) (-1) None.
Definition stepped (js : list Z) (num : Z) (ts : list tok) (x count : Z) (t t0 : turn) : Prop :=
  match t with
  | Return r _ => (r = ERROR_NOMEM /\ num <= zlen ts /\ exists p0, t0 = Go p0 (count + 1) /\ x <= pos p0 < zlen js /\ p0 = blind p0) \/ r = ERROR_INVAL \/ r = ERROR_PART
  | Go p' count' =>
      t0 = Go (blind p') count' /\ x <= pos p' < zlen js /\ zlen ts <= zlen ts + (count' - count) <= zlen ts + 1 /\
      exists ts', toks p' = Some ts' /\ zlen ts' = zlen ts + (count' - count) /\ good ts' (pos p' + 1) /\ super_ok ts' (toksuper p')
  end.
Lemma one_ok fuel f0 js num n0 x s ts count c r : zskip x js = c :: r -> c <> 0 -> 0 <= x -> good ts x -> super_ok ts s -> zlen ts <= Z.of_nat fuel ->
  exists t t0, one fuel js num (P x s (Some ts)) count c = rret t /\ one f0 js n0 (P x (-1) None) count c = rret t0 /\ stepped js num ts x count t t0.
Proof.
  intros E C0 X G SO FU. destruct (skip_head _ _ _ _ X E) as (XL & SK & LR). unfold one. cbn [toks toksuper pos toknext].
  destruct (isin c [123; 91]).
  { unfold alloc_token. destruct (Z.leb_spec num (zlen ts)).
    - exists (Return ERROR_NOMEM (P x s (Some ts))). eexists. split; [reflexivity|]. split; [reflexivity|]. left. split; [reflexivity|]. split; [lia|]. eexists. split; [reflexivity|]. cbn. split; [lia|reflexivity].
    - set (u := T (if c =? 123 then JSMN_OBJECT else JSMN_ARRAY) x (-1) 0 s None).
      destruct (good_container ts x u G SO X eq_refl eq_refl) as [G1 S1]; [unfold u, container; cbn; destruct (c =? 123); auto|].
      assert (S2 : -1 <= s < zlen (ts ++ [u])) by (destruct SO as [SR _]; rewrite zlen_app; change (zlen [u]) with 1; lia).
      destruct (grow_super_ok x s _ S2) as (ts' & E1 & K). rewrite E1. cbn [rbind rret].
      eexists. eexists. split; [reflexivity|]. split; [reflexivity|]. cbn [stepped pos toks toksuper toknext]. split; [reflexivity|]. split; [lia|]. split; [lia|].
      exists ts'. split; [reflexivity|]. pose proof (proj1 K) as L1. rewrite zlen_app in L1. change (zlen [u]) with 1 in L1. split; [lia|]. split; [eapply like_good; eauto|].
      replace (zlen ts' - 1) with (zlen ts) by lia. eapply like_super; eauto. }
  destruct (isin c [125; 93]) eqn:CB.
  { destruct (Z.ltb_spec (zlen ts) 1).
    - eexists. eexists. split; [reflexivity|]. split; [reflexivity|]. right. left. reflexivity.
    - destruct (close_ok ts x (if c =? 125 then JSMN_OBJECT else JSMN_ARRAY) s x G fuel (zlen ts - 1)) as (q & E1 & CL & _); [lia|lia|]. rewrite E1. cbn [rbind rret].
      destruct q as [[ts' s']|]; [|eexists; eexists; split; [reflexivity|]; split; [reflexivity|]; right; left; reflexivity].
      eexists. eexists. split; [reflexivity|]. split; [reflexivity|]. cbn [stepped pos toks toksuper toknext]. split; [reflexivity|]. split; [lia|]. split; [lia|].
      exists ts'. split; [reflexivity|]. destruct CL as [(-> & -> & _)|(j & t & T0 & O & TY & E2 & -> & A & F)].
      + split; [lia|]. split; [eapply good_later; [|exact G]; lia|exact SO].
      + destruct (good_close ts x j t ts' G X T0 O E2) as (G1 & S1 & L1); [|split; [lia|auto]]. intros a u U UO. apply (F _ _ U UO). eapply g_last; eauto. }
  destruct (Z.eqb_spec c 34) as [->|NQ].
  { unfold parse_string. cbn [pos toks toksuper]. rewrite SK. destruct (string_end Plain r (x + 1)) as [e|e] eqn:SE.
    - apply string_end_range in SE. unfold alloc_token. destruct (Z.leb_spec num (zlen ts)).
      + exists (Return ERROR_NOMEM (P x s (Some ts))). eexists. split; [reflexivity|]. split; [reflexivity|]. left. split; [reflexivity|]. split; [lia|]. eexists. split; [reflexivity|]. cbn. split; [lia|reflexivity].
      + change (0 <? 0) with false. cbv iota. set (u := T JSMN_STRING (x + 1) e 0 s None).
        assert (G1 : good (ts ++ [u]) (e + 1)). { apply (good_scalar ts x); auto; cbn; try lia. left. reflexivity. }
        destruct (grow_super_ok e s (ts ++ [u])) as (ts' & E1 & K); [destruct SO as [SR _]; rewrite zlen_app; change (zlen [u]) with 1; lia|]. rewrite E1. cbn [rbind rret].
        eexists. eexists. split; [reflexivity|]. split; [reflexivity|]. cbn [stepped pos toks toksuper toknext]. split; [reflexivity|]. split; [lia|]. split; [lia|].
        exists ts'. split; [reflexivity|]. pose proof (proj1 K) as L1. rewrite zlen_app in L1. change (zlen [u]) with 1 in L1. split; [lia|]. split; [eapply like_good; eauto|]. eapply like_super; [exact K|]. apply super_snoc; [exact SO|cbn; lia].
    - pose proof (string_end_error _ _ _ _ SE) as ER. assert (EN : e <? 0 = true) by (destruct ER as [-> | ->]; reflexivity). rewrite EN.
      eexists. eexists. split; [reflexivity|]. split; [reflexivity|]. right. destruct ER; auto. }
  destruct (isin c [9; 13; 10; 32]) eqn:WS.
  { eexists. eexists. split; [reflexivity|]. split; [reflexivity|]. cbn [stepped pos toks toksuper toknext]. split; [reflexivity|]. split; [lia|]. split; [lia|].
    exists ts. split; [reflexivity|]. split; [lia|]. split; [eapply good_later; [|exact G]; lia|exact SO]. }
  destruct (Z.eqb_spec c 58) as [->|NC].
  { eexists. eexists. split; [reflexivity|]. split; [reflexivity|]. cbn [stepped pos toks toksuper toknext]. split; [reflexivity|]. split; [lia|]. split; [lia|].
    exists ts. split; [reflexivity|]. split; [lia|]. split; [eapply good_later; [|exact G]; lia|]. split; [pose proof (zlen_nonneg ts); lia|]. intros a t T0 O. pose proof (tk_range _ _ _ T0). split; [lia|]. eapply g_last; eauto. }
  destruct (Z.eqb_spec c 44) as [->|NM].
  { assert (SAME : stepped js num ts x count (Go (P x s (Some ts)) count) (Go (P x (-1) None) count)).
    { cbn [stepped pos toks toksuper toknext]. split; [reflexivity|]. split; [lia|]. split; [lia|]. exists ts. split; [reflexivity|]. split; [lia|]. split; [eapply good_later; [|exact G]; lia|exact SO]. }
    destruct (Z.eqb_spec s (-1)) as [->|SN]; [eexists; eexists; split; [reflexivity|]; split; [reflexivity|]; exact SAME|].
    pose proof SO as [SR SF]. destruct (tk_some ts s) as (t & T0); [lia|]. rewrite (tk_at _ _ _ T0). cbn [rbind rret].
    destruct (isin (ty t) [JSMN_ARRAY; JSMN_OBJECT]) eqn:TY; [eexists; eexists; split; [reflexivity|]; split; [reflexivity|]; exact SAME|].
    eexists. eexists. split; [reflexivity|]. split; [reflexivity|]. cbn [stepped pos toks toksuper toknext]. split; [reflexivity|]. split; [lia|]. split; [lia|].
    exists ts. split; [reflexivity|]. split; [lia|]. split; [eapply good_later; [|exact G]; lia|]. destruct (g_tok _ _ G _ _ T0) as (_ & Q & _).
    split; [lia|]. intros a u U UO. destruct (SF _ _ U UO) as [_ A]. inversion A as [|? v V PV AV]; subst.
    - rewrite (tk_fun _ _ _ _ U T0) in UO. destruct (g_tok _ _ G _ _ T0) as (S9 & _ & [[_ D]|[D _]]); [|lia]. exfalso. destruct D as [D|D]; rewrite D in TY; discriminate.
    - rewrite (tk_fun _ _ _ _ V T0) in *. auto. }
  unfold parse_primitive. cbn [pos toks toksuper]. rewrite E. destruct (primitive_end (c :: r) x) as [e|] eqn:PE.
  - assert (XE : x < e <= zlen js).
    { cbn [primitive_end] in PE. replace (c =? 0) with false in PE by lia. assert (EP : ends_primitive c = false).
      { unfold ends_primitive. unfold isin in *. cbn [existsb] in *. lia. }
      rewrite EP in PE. cbn [orb] in PE. destruct ((s8 c <? 32) || (127 <=? s8 c)); [discriminate|]. apply primitive_end_range in PE. lia. }
    unfold alloc_token. destruct (Z.leb_spec num (zlen ts)).
    + exists (Return ERROR_NOMEM (P x s (Some ts))). eexists. split; [reflexivity|]. split; [reflexivity|]. left. split; [reflexivity|]. split; [lia|]. eexists. split; [reflexivity|]. cbn. split; [lia|reflexivity].
    + change (0 <? 0) with false. cbv iota. set (u := T JSMN_PRIMITIVE x e 0 s None).
      assert (G1 : good (ts ++ [u]) e). { apply (good_scalar ts x); auto; cbn; try lia. right. reflexivity. }
      destruct (grow_super_ok (e - 1) s (ts ++ [u])) as (ts' & E1 & K); [destruct SO as [SR _]; rewrite zlen_app; change (zlen [u]) with 1; lia|]. rewrite E1. cbn [rbind rret].
      eexists. eexists. split; [reflexivity|]. split; [reflexivity|]. cbn [stepped pos toks toksuper toknext]. split; [reflexivity|]. split; [lia|]. split; [lia|].
      exists ts'. split; [reflexivity|]. pose proof (proj1 K) as L1. rewrite zlen_app in L1. change (zlen [u]) with 1 in L1. split; [lia|]. replace (e - 1 + 1) with e by lia. split; [eapply like_good; eauto|]. eapply like_super; [exact K|]. apply super_snoc; [exact SO|cbn; lia].
  - eexists. eexists. split; [reflexivity|]. split; [reflexivity|]. right. left. reflexivity.
Qed.
Lemma one_count f0 js n0 x count c r : zskip x js = c :: r -> c <> 0 -> 0 <= x ->
  exists t0, one f0 js n0 (P x (-1) None) count c = rret t0 /\
  match t0 with Return e _ => e < 0 | Go p' count' => p' = blind p' /\ x <= pos p' < zlen js /\ count <= count' end.
Proof.
  intros E C0 X. destruct (skip_head _ _ _ _ X E) as (XL & SK & LR). unfold one. cbn [toks toksuper pos toknext].
  destruct (isin c [123; 91]); [eexists; split; [reflexivity|]; cbn; split; [reflexivity|lia]|].
  destruct (isin c [125; 93]) eqn:CB; [eexists; split; [reflexivity|]; cbn; split; [reflexivity|lia]|].
  destruct (Z.eqb_spec c 34) as [->|NQ].
  { unfold parse_string. cbn [pos toks toksuper]. rewrite SK. destruct (string_end Plain r (x + 1)) as [e|e] eqn:SE.
    - apply string_end_range in SE. eexists. split; [reflexivity|]. cbn. split; [reflexivity|lia].
    - pose proof (string_end_error _ _ _ _ SE) as ER. assert (EN : e <? 0 = true) by (destruct ER as [-> | ->]; reflexivity). rewrite EN. eexists. split; [reflexivity|]. cbn. lia. }
  destruct (isin c [9; 13; 10; 32]) eqn:WS; [eexists; split; [reflexivity|]; cbn; split; [reflexivity|lia]|].
  destruct (Z.eqb_spec c 58) as [->|NC]; [eexists; split; [reflexivity|]; cbn; split; [reflexivity|lia]|].
  destruct (Z.eqb_spec c 44) as [->|NM]; [eexists; split; [reflexivity|]; cbn; split; [reflexivity|lia]|].
  unfold parse_primitive. cbn [pos toks toksuper]. rewrite E. destruct (primitive_end (c :: r) x) as [e|] eqn:PE; [|eexists; split; [reflexivity|]; cbn; unfold ERROR_INVAL; lia].
  assert (XE : x < e <= zlen js).
  { cbn [primitive_end] in PE. replace (c =? 0) with false in PE by lia. assert (EP : ends_primitive c = false).
    { unfold ends_primitive. unfold isin in *. cbn [existsb] in *. lia. }
    rewrite EP in PE. cbn [orb] in PE. destruct ((s8 c <? 32) || (127 <=? s8 c)); [discriminate|]. apply primitive_end_range in PE. lia. }
  eexists. split; [reflexivity|]. cbn. split; [reflexivity|lia].
Qed.
Lemma count_ends js n0 : forall f0 x count, 0 <= x <= zlen js -> zlen js - x < Z.of_nat f0 ->
  exists n p0, parse_loop f0 js n0 (P x (-1) None) count = rret (n, p0) /\ (0 <= n -> count <= n).
Proof.
  induction f0 as [|k IH]; intros x count X F; [lia|]. cbn [parse_loop pos]. destruct (zskip x js) as [|c r] eqn:E; [eexists; eexists; split; [reflexivity|]; cbn; lia|].
  destruct (Z.eqb_spec c 0) as [_|C0]; [eexists; eexists; split; [reflexivity|]; cbn; lia|].
  destruct (one_count (Datatypes.S k) js n0 x count c r E C0) as (t0 & E1 & Q); [lia|]. rewrite E1. cbn [rbind rret]. destruct t0 as [p' count'|e p'].
  - destruct Q as (-> & R & L). unfold at_pos, blind in *; cbn [pos toksuper toks] in *. destruct (IH (pos p' + 1) count') as (n & p0 & E2 & N); [lia|lia|]. exists n, p0. split; [exact E2|lia].
  - eexists. eexists. split; [reflexivity|]. lia.
Qed.
Definition no_open (ts : list tok) : Prop := forall i t, tk ts i t -> en t <> -1.
Lemma parse_ok js num n0 : forall fuel f0 x s ts, 0 <= x <= zlen js -> good ts x -> super_ok ts s -> zlen ts + 2 * (zlen js - x) < Z.of_nat fuel -> zlen js - x < Z.of_nat f0 ->
  exists r p n p0, parse_loop fuel js num (P x s (Some ts)) (zlen ts) = rret (r, p) /\ parse_loop f0 js n0 (P x (-1) None) (zlen ts) = rret (n, p0) /\
    (0 <= r -> r = n /\ exists ts', toks p = Some ts' /\ zlen ts' = n /\ good ts' (zlen js) /\ no_open ts') /\
    (r < 0 -> r = ERROR_NOMEM \/ r = ERROR_INVAL \/ r = ERROR_PART) /\ (r = ERROR_NOMEM -> 0 <= n -> num < n).
Proof.
  induction fuel as [|k IH]; intros f0 x s ts X G SO F F0; [pose proof (zlen_nonneg ts); lia|]. destruct f0 as [|k0]; [lia|].
  assert (FIN : exists r p n p0, rret (finish (P x s (Some ts)) (zlen ts), P x s (Some ts)) = rret (r, p) /\ rret (finish (P x (-1) None) (zlen ts), P x (-1) None) = rret (n, p0) /\
    (0 <= r -> r = n /\ exists ts', toks p = Some ts' /\ zlen ts' = n /\ good ts' (zlen js) /\ no_open ts') /\
    (r < 0 -> r = ERROR_NOMEM \/ r = ERROR_INVAL \/ r = ERROR_PART) /\ (r = ERROR_NOMEM -> 0 <= n -> num < n)).
  { do 4 eexists. split; [reflexivity|]. split; [reflexivity|]. cbn [finish toks]. pose proof (zlen_nonneg ts). destruct (existsb is_open ts) eqn:OP.
    - unfold ERROR_PART, ERROR_NOMEM, ERROR_INVAL. split; [lia|]. split; [auto|lia].
    - split; [|unfold ERROR_NOMEM; split; lia]. intros _. split; [reflexivity|]. exists ts. split; [reflexivity|]. split; [reflexivity|]. split; [eapply good_later; [|exact G]; lia|].
      intros i t T0 O. pose proof (good_open _ _ _ _ G T0) as Q. rewrite O in Q. change (-1 =? -1) with true in Q.
      assert (existsb is_open ts = true) by (apply existsb_exists; exists t; split; [eapply tk_in; eauto|exact Q]). congruence. }
  cbn [parse_loop pos]. destruct (zskip x js) as [|c r] eqn:E; [exact FIN|]. destruct (Z.eqb_spec c 0) as [_|C0]; [exact FIN|]. clear FIN.
  destruct (one_ok (Datatypes.S k) (Datatypes.S k0) js num n0 x s ts (zlen ts) c r E C0 (proj1 X) G SO) as (t & t0 & E1 & E2 & ST); [lia|]. rewrite E1, E2. cbn [rbind rret].
  destruct t as [p' count'|e p']; cbn [stepped] in ST.
  - destruct ST as (-> & R & L & ts' & TE & L1 & G1 & S1). unfold at_pos, blind; cbn [pos toksuper toks]. 
rewrite TE. replace count' with (zlen ts') by lia. apply IH; auto; lia.
  - destruct ST as [(-> & NM & p1 & -> & R & EB)|ST].
    + rewrite EB in *. unfold at_pos, blind in *; cbn [pos toksuper toks] in *. destruct (count_ends js n0 k0 (pos p1 + 1) (zlen ts + 1)) as (n & p2 & E3 & N); [lia|lia|].
      exists ERROR_NOMEM, p', n, p2. split; [reflexivity|]. split; [exact E3|]. unfold ERROR_NOMEM. split; [lia|]. split; [auto|lia].
    + destruct (count_ends js n0 (Datatypes.S k0) x (zlen ts)) as (n & p2 & E3 & N); [lia|lia|]. cbn [parse_loop pos] in E3. rewrite E in E3. replace (c =? 0) with false in E3 by lia. rewrite E2 in E3. cbn [rbind rret] in E3.
      exists e, p', n, p2. split; [reflexivity|]. split; [exact E3|]. unfold ERROR_NOMEM, ERROR_INVAL, ERROR_PART in *. split; [lia|]. split; [auto|lia].
Qed.

