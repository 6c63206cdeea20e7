(** Proofs about the scanners of a line. *)
From Verif Require Import Base BaseFacts NumSpec Scan ScanProofs LineSpec LineScan.

Lemma skip_stops p : is_space (cur (skip_spaces p)) = false.
Proof. induction p as [|c r IH]; [reflexivity|]. cbn [skip_spaces]. destruct (is_space c) eqn:E; [exact IH|exact E]. Qed.

Lemma strip_iff w p q : strip_prefix w p = Some q <-> p = w ++ q.
Proof.
  revert p. induction w as [|a w IH]; intros p; cbn [strip_prefix app].
  - split; [intros [= ->]; reflexivity|intros ->; reflexivity].
  - destruct p as [|b p]; [split; discriminate|]. destruct (Z.eqb_spec b a) as [->|E].
    + rewrite IH. split; [intros ->; reflexivity|intros [= ->]; reflexivity].
    + split; [discriminate|]. intros [= E2 _]. congruence.
Qed.

Lemma scanw_found p w q : ScanW p w = (q, true) <-> exists sp, blank sp /\ is_space (cur (w ++ q)) = false /\ p = sp ++ w ++ q.
Proof.
  unfold ScanW. split.
  - intros E. destruct (strip_prefix w (skip_spaces p)) as [x|] eqn:Ex; [|discriminate]. injection E as ->. apply strip_iff in Ex.
    destruct (skip_spaces_split p) as (sp & Hp & Hs). exists sp. rewrite <- Ex. split; [exact Hs|]. split; [apply skip_stops|exact Hp].
  - intros (sp & Hs & Hc & ->). rewrite (skip_spaces_app sp _ Hs Hc). rewrite (proj2 (strip_iff w (w ++ q) q) eq_refl). reflexivity.
Qed.

Lemma scanw_missing p w q : ScanW p w = (q, false) <-> exists sp, blank sp /\ is_space (cur q) = false /\ p = sp ++ q /\ forall r, q <> w ++ r.
Proof.
  unfold ScanW. split.
  - intros E. destruct (strip_prefix w (skip_spaces p)) as [x|] eqn:Ex; [discriminate|]. injection E as <-.
    destruct (skip_spaces_split p) as (sp & Hp & Hs). exists sp. split; [exact Hs|]. split; [apply skip_stops|]. split; [exact Hp|].
    intros r Hr. apply strip_iff in Hr. congruence.
  - intros (sp & Hs & Hc & -> & Hn). rewrite (skip_spaces_app sp _ Hs Hc). destruct (strip_prefix w q) as [x|] eqn:Ex; [|reflexivity].
    apply strip_iff in Ex. destruct (Hn _ Ex).
Qed.

Lemma number_signed mx p : match scan_number mx p with
  | Ok (q, Some v) => scan_signed mx p = Ok (v, q)
  | Ok (q, None) => scan_signed mx p = Fail /\ q = skip_spaces p
  | Ub => scan_signed mx p = Ub
  | Fail => False end.
Proof.
  unfold scan_number, scan_signed. cbv zeta. destruct (negb (is_digit _)); [split; reflexivity|].
  destruct (digits_signed mx 0 _) as [[x r]|]; reflexivity.
Qed.


Lemma sign_split sp sign ds n : int_text sp sign ds -> n = (if (List.length sign =? 0)%nat then dec_value ds else - dec_value ds) -> number_text (sp ++ sign ++ ds) n.
Proof.
  intros (H1 & H2 & H3 & H4) ->. exists sp, sign, ds. split; [reflexivity|]. split; [exact H1|]. split; [exact H3|]. split; [exact H4|].
  destruct H2 as [->| ->]; [left|right]; split; reflexivity.
Qed.

Lemma number_split t n : number_text t n -> exists sp sign ds, t = sp ++ sign ++ ds /\ int_text sp sign ds /\ n = (if (List.length sign =? 0)%nat then dec_value ds else - dec_value ds) /\ Z.abs n = dec_value ds.
Proof.
  intros (sp & sign & ds & -> & H1 & H2 & H3 & H4). exists sp, sign, ds. split; [reflexivity|]. pose proof (dec_value_bound ds H3) as B.
  destruct H4 as [(-> & ->)|(-> & ->)].
  - split; [repeat split; auto|]. split; [reflexivity|lia].
  - split; [repeat split; auto|]. split; [reflexivity|lia].
Qed.

Lemma number_found mx p q n : 0 <= mx -> scan_number mx p = Ok (q, Some n) <-> number_at n p q /\ Z.abs n <= mx.
Proof.
  intros Hmx. pose proof (number_signed mx p) as N. split.
  - intros E. rewrite E in N. destruct (scan_signed_inv mx p n q N) as (sp & sign & ds & -> & Ht & Hd & Hv).
    assert (Nt := sign_split sp sign ds n Ht Hv). split; [exists (sp ++ sign ++ ds); split; [exact Nt|]; split; [exact Hd|]; rewrite <- !app_assoc; reflexivity|].
    pose proof Ht as (_ & _ & Hne & Hds). pose proof (dec_value_bound ds Hds) as B.
    destruct (Z_le_gt_dec (dec_value ds) mx) as [L|G]; [destruct (List.length sign =? 0)%nat; lia|].
    rewrite (scan_signed_ub mx sp sign ds q) in N; try assumption; try lia; discriminate.
  - intros ((t & Ht & Hd & ->) & Hm). destruct (number_split t n Ht) as (sp & sign & ds & -> & Hi & Hv & Ha).
    assert (E : scan_signed mx ((sp ++ sign ++ ds) ++ q) = Ok (n, q)).
    { rewrite <- !app_assoc. rewrite Hv. apply scan_signed_ok; [exact Hi|exact Hd|lia]. }
    destruct (scan_number mx ((sp ++ sign ++ ds) ++ q)) as [[r [v|]]| |].
    + rewrite N in E. injection E as -> ->. reflexivity.
    + destruct N as [N _]. congruence.
    + destruct N.
    + congruence.
Qed.

Lemma number_ub mx p : 0 <= mx -> scan_number mx p = Ub <-> exists n q, number_at n p q /\ mx < Z.abs n.
Proof.
  intros Hmx. pose proof (number_signed mx p) as N. split.
  - intros E. rewrite E in N. unfold scan_number in E. cbv zeta in E.
    destruct (skip_spaces_split p) as (sp & Hp & Hs). set (p0 := skip_spaces p) in *. clearbody p0.
    set (sg := if cur p0 =? 45 then [45] else []).
    set (p1 := if cur p0 =? 45 then tl p0 else p0) in *.
    assert (P0 : p0 = sg ++ p1). { unfold sg, p1. destruct (Z.eqb_spec (cur p0) 45) as [C|C]; [|reflexivity]. destruct p0 as [|c r]; [cbn in C; lia|]. cbn in C. subst c. reflexivity. }
    assert (Sg : sg = [] \/ sg = [45]) by (unfold sg; destruct (cur p0 =? 45); auto).
    destruct (is_digit (cur p1)) eqn:Dg; [|discriminate]. cbn [negb] in E. clearbody p1 sg.
    assert (exists ds q, p1 = ds ++ q /\ ds <> [] /\ Forall digit ds /\ is_digit (cur q) = false) as (ds & q & -> & Hne & Hds & Hq).
    { clear - Dg. assert (G : exists ds q, p1 = ds ++ q /\ Forall digit ds /\ is_digit (cur q) = false).
      { clear Dg. induction p1 as [|c r IH]; [exists [], []; repeat split; constructor|]. destruct (is_digit c) eqn:Ec.
        - destruct IH as (ds & q & -> & Hd & Hq). exists (c :: ds), q. repeat split; [constructor; [apply is_digit_spec; exact Ec|exact Hd]|exact Hq].
        - exists [], (c :: r). repeat split; [constructor|exact Ec]. }
      destruct G as (ds & q & -> & Hd & Hq). exists ds, q. repeat split; auto. intros ->. cbn [app] in Dg. congruence. }
    assert (It : int_text sp sg ds) by (repeat split; assumption).
    exists (if (List.length sg =? 0)%nat then dec_value ds else - dec_value ds), q. pose proof (dec_value_bound ds Hds) as B. split.
    + exists (sp ++ sg ++ ds). split; [apply sign_split; auto|]. split; [exact Hq|]. rewrite Hp, P0, <- !app_assoc. reflexivity.
    + destruct (Z_le_gt_dec (dec_value ds) mx) as [L|G]; [|destruct (List.length sg =? 0)%nat; lia].
      rewrite Hp, P0 in N. rewrite (scan_signed_ok mx sp sg ds q It Hq L) in N. discriminate.
  - intros (n & q & (t & Ht & Hd & ->) & Hm). destruct (number_split t n Ht) as (sp & sign & ds & -> & Hi & Hv & Ha).
    assert (E : scan_signed mx ((sp ++ sign ++ ds) ++ q) = Ub).
    { rewrite <- !app_assoc. apply scan_signed_ub; try assumption; lia. }
    destruct (scan_number mx ((sp ++ sign ++ ds) ++ q)) as [[r [v|]]| |].
    + congruence.
    + destruct N as [N _]. congruence.
    + destruct N.
    + reflexivity.
Qed.

Lemma number_missing mx p q : 0 <= mx -> scan_number mx p = Ok (q, None) <-> (exists sp, blank sp /\ is_space (cur q) = false /\ p = sp ++ q) /\ (forall n r, ~ number_at n p r).
Proof.
  intros Hmx. split.
  - intros E. pose proof (number_signed mx p) as N. rewrite E in N. destruct N as [N ->].
    split; [destruct (skip_spaces_split p) as (sp & Hp & Hs); exists sp; split; [exact Hs|]; split; [apply skip_stops|exact Hp]|].
    intros n r (t & Ht & Hd & ->). destruct (number_split t n Ht) as (sp & sign & ds & -> & Hi & Hv & Ha).
    destruct (Z_le_gt_dec (dec_value ds) mx) as [L|G].
    + rewrite <- !app_assoc in N. rewrite (scan_signed_ok mx sp sign ds r Hi Hd L) in N. discriminate.
    + rewrite <- !app_assoc in N. rewrite (scan_signed_ub mx sp sign ds r) in N; try assumption; try lia; discriminate.
  - intros ((sp & Hs & Hc & Hp) & Hn). unfold scan_number. cbv zeta. rewrite Hp, (skip_spaces_app sp q Hs Hc).
    set (p1 := if cur q =? 45 then tl q else q). destruct (is_digit (cur p1)) eqn:Dg; [exfalso|reflexivity].
    assert (exists ds r, p1 = ds ++ r /\ ds <> [] /\ Forall digit ds /\ is_digit (cur r) = false) as (ds & r & E1 & Hne & Hds & Hq).
    { clearbody p1. clear - Dg. assert (G : exists ds q, p1 = ds ++ q /\ Forall digit ds /\ is_digit (cur q) = false).
      { clear Dg. induction p1 as [|c r IH]; [exists [], []; repeat split; constructor|]. destruct (is_digit c) eqn:Ec.
        - destruct IH as (ds & q & -> & Hd & Hq). exists (c :: ds), q. repeat split; [constructor; [apply is_digit_spec; exact Ec|exact Hd]|exact Hq].
        - exists [], (c :: r). repeat split; [constructor|exact Ec]. }
      destruct G as (ds & q & -> & Hd & Hq). exists ds, q. repeat split; auto. intros ->. cbn [app] in Dg. congruence. }
    assert (exists sg, (sg = [] \/ sg = [45]) /\ q = sg ++ p1) as (sg & Sg & Q).
    { unfold p1. destruct (Z.eqb_spec (cur q) 45) as [C|C]; [|exists []; auto]. exists [45]. destruct q as [|c r0]; [cbn in C; lia|]. cbn in C. subst c. auto. }
    apply (Hn (if (List.length sg =? 0)%nat then dec_value ds else - dec_value ds) r). exists (sp ++ sg ++ ds).
    split; [apply sign_split; [repeat split; assumption|reflexivity]|]. split; [exact Hq|]. rewrite Hp, Q, E1, <- !app_assoc. reflexivity.
Qed.

Lemma take_ok stop p : forall room d, 1 <= room -> exists f q, p = f ++ q /\ Forall (fun c => stop c = false) f /\ (q = [] \/ stop (cur q) = true) /\ take_field stop room d p = (d ++ ztake (room - 1) f, q).
Proof.
  induction p as [|c r IH]; intros room d Hr; cbn [take_field].
  - exists [], []. repeat split; auto. rewrite ?firstn_nil. unfold ztake. rewrite firstn_nil, app_nil_r. reflexivity.
  - destruct (stop c) eqn:Ec.
    + exists [], (c :: r). repeat split; auto. unfold ztake. rewrite firstn_nil, app_nil_r. reflexivity.
    + destruct (Z.ltb_spec 1 room) as [L|G].
      * destruct (IH (room - 1) (d ++ [c])) as (f & q & -> & Hf & Hq & E); [lia|]. exists (c :: f), q. repeat split; auto.
        rewrite E. unfold ztake. replace (Z.to_nat (room - 1)) with (S (Z.to_nat (room - 1 - 1))) by lia. cbn [firstn]. rewrite <- app_assoc. reflexivity.
      * destruct (IH room d) as (f & q & -> & Hf & Hq & E); [lia|]. exists (c :: f), q. repeat split; auto.
        rewrite E. unfold ztake. replace (room - 1) with 0 by lia. reflexivity.
Qed.


Lemma scanstr_any p sep size : 1 <= size -> cstring p -> exists sp f q, p = sp ++ f ++ q /\ blank sp /\ is_space (cur (f ++ q)) = false /\
  Forall (fun c => ~ ends sep c) f /\ (q = [] \/ ends sep (cur q)) /\
  ScanStrW p sep size = Ok (tl q, ztake (size - 1) f, match ztake (size - 1) f with [] => false | _ => true end).
Proof.
  intros Hs Hp. destruct (skip_spaces_split p) as (sp & Ep & Hb).
  destruct (take_ok (if sep =? 32 then is_space else Z.eqb sep) (skip_spaces p) size [] Hs) as (f & q & Ef & Hf & Hq & Et).
  exists sp, f, q. rewrite <- Ef. split; [exact Ep|]. split; [exact Hb|]. split; [apply skip_stops|].
  unfold ends. change (ch " ") with 32. split; [|split].
  - eapply Forall_impl; [|exact Hf]. intros c Hc. cbv beta in *. destruct (sep =? 32); [congruence|]. apply Z.eqb_neq in Hc. congruence.
  - destruct Hq as [->|Hq]; [left; reflexivity|]. right. destruct (sep =? 32); [exact Hq|]. apply Z.eqb_eq in Hq. congruence.
  - unfold ScanStrW. cbv zeta. rewrite Et. destruct (Z.ltb_spec size 1); [lia|]. cbn [app].
    assert (Hcf : cstring f). { unfold cstring in *. rewrite Ep, Ef in Hp. rewrite !Forall_app in Hp. apply Hp. }
    destruct f as [|c f']; [unfold ztake; rewrite firstn_nil; reflexivity|]. unfold ztake. destruct (Z.to_nat (size - 1)); [reflexivity|]. cbn [firstn cur hd].
    inversion Hcf as [|? ? Hc _]; subst. unfold is_cchar in Hc. destruct (Z.eqb_spec c 0); [lia|]. reflexivity.
Qed.

Lemma scanstr_w_ub p sep size : size < 1 -> ScanStrW p sep size = Ub.
Proof. intros H. unfold ScanStrW. cbv zeta. destruct (take_field _ _ _ _). destruct (Z.ltb_spec size 1); [reflexivity|lia]. Qed.

Lemma skipline_found p q : SkipLineW p = (q, true) <-> exists l, Forall (fun c => c <> 10) l /\ p = l ++ 10 :: q.
Proof.
  induction p as [|c r IH]; cbn [SkipLineW].
  - split; [discriminate|]. intros ([|a l] & _ & E); discriminate.
  - destruct (Z.eqb_spec c 10) as [->|E].
    + split; [intros [= ->]; exists []; split; [constructor|reflexivity]|]. intros ([|a l] & Hl & E); cbn in E; [congruence|]. injection E as E1 _. inversion Hl as [|? ? Ha _]. subst. destruct Ha. reflexivity.
    + rewrite IH. split; intros (l & Hl & El).
      * exists (c :: l). split; [constructor; assumption|]. rewrite El. reflexivity.
      * destruct l as [|a l]; cbn in El; [congruence|]. injection El as -> ->. inversion Hl; subst. exists l. auto.
Qed.

Lemma skipline_end p q : SkipLineW p = (q, false) <-> q = [] /\ Forall (fun c => c <> 10) p.
Proof.
  induction p as [|c r IH]; cbn [SkipLineW].
  - split; [intros [= <-]; auto|intros (-> & _); reflexivity].
  - destruct (Z.eqb_spec c 10) as [->|E].
    + split; [discriminate|]. intros (_ & H). inversion H; congruence.
    + rewrite IH. split; intros (-> & H); split; auto. inversion H; assumption.
Qed.

Lemma udec_at n : 0 <= n -> number_text (udec n) n.
Proof.
  intros H. exists [], [], (udec n). split; [reflexivity|]. split; [constructor|]. split; [apply udec_nonempty; exact H|]. split; [apply udec_digits; exact H|].
  left. split; [reflexivity|]. symmetry. apply udec_value. exact H.
Qed.

Lemma sdec_at sp n : blank sp -> number_text (sp ++ sdec n) n.
Proof.
  intros Hs. unfold sdec. destruct (Z.ltb_spec n 0).
  - exists sp, [45], (udec (- n)). split; [reflexivity|]. split; [exact Hs|]. split; [apply udec_nonempty; lia|]. split; [apply udec_digits; lia|].
    right. split; [reflexivity|]. rewrite udec_value by lia. lia.
  - exists sp, [], (udec n). split; [reflexivity|]. split; [exact Hs|]. split; [apply udec_nonempty; lia|]. split; [apply udec_digits; lia|].
    left. split; [reflexivity|]. rewrite udec_value by lia. lia.
Qed.

(** Decimal digits, reduced to 64 bits. *)
Lemma unsigned_found sp ds q : blank sp -> ds <> [] -> Forall digit ds -> is_digit (cur q) = false -> (ds = [48] -> cur q <> 120) ->
  ScanUInt64W (sp ++ ds ++ q) = (q, Some (dec_value ds mod 18446744073709551616)).
Proof.
  intros Hs Hne Hd Hq Hx. unfold ScanUInt64W. cbv zeta. pose proof (cur_digits ds q Hne Hd) as Hc.
  rewrite (skip_spaces_app sp _ Hs) by (apply digit_not_space; exact Hc).
  assert (E : (cur (ds ++ q) =? 48) && (cur (tl (ds ++ q)) =? 120) = false).
  { destruct ds as [|c r]; [congruence|]. cbn [app cur hd tl]. destruct (Z.eqb_spec c 48) as [->|]; [|reflexivity]. cbn [andb]. apply Z.eqb_neq.
    destruct r as [|d r]; [apply Hx; reflexivity|]. cbn [app hd]. inversion Hd as [|? ? _ Hr]; subst. inversion Hr as [|? ? Hdd _]; subst. unfold digit in Hdd. unfold cur. cbn [hd]. lia. }
  rewrite E, (proj2 (is_digit_spec _) Hc). cbn [negb]. rewrite digits_u64_value by (try assumption; lia).
  unfold dval, u64. reflexivity.
Qed.

Lemma unsigned_hex sp ds q v : blank sp -> ds <> [] -> hex_value 0 ds = Some v -> v <= UINT64_MAX -> hex_digit_value (cur q) = None ->
  ScanUInt64W (sp ++ 48 :: 120 :: ds ++ q) = (q, Some v).
Proof.
  intros Hs Hne Hh Hv Hr. unfold ScanUInt64W. cbv zeta. rewrite (skip_spaces_app sp _ Hs) by reflexivity. cbn [cur hd tl].
  change ((48 =? 48) && (120 =? 120)) with true. cbv iota.
  destruct (hex_cur ds q 0 v Hne Hh) as [Hx _]. change (hd 0 (ds ++ q)) with (cur (ds ++ q)). rewrite Hx. cbn [negb].
  pose proof (hex_value_ge 0 ds v Hh ltac:(lia)). assert (uint64 v) by (unfold uint64, UINT64_MAX in *; lia).
  rewrite (hex_u64_value 0 ds q v); try assumption; try lia; [reflexivity|]. rewrite hexval_spec. exact Hr.
Qed.

Lemma ztake_all n (f : list Z) : zlen f <= n -> ztake n f = f.
Proof. intros H. unfold ztake. apply firstn_all2. unfold zlen in H. lia. Qed.

Lemma item_text sp sep size f c t : blank sp -> f <> [] -> is_space (cur f) = false -> zlen f < size -> 2 <= size -> cstring f -> Forall (fun d => ~ ends sep d) f -> ends sep c ->
  ScanStrW (sp ++ f ++ c :: t) sep size = Ok (t, f, true).
Proof.
  intros Hs Hne Hc Hl H2 Hf Hn He. unfold ScanStrW. cbv zeta. rewrite (skip_spaces_app sp _ Hs) by (destruct f; [congruence|exact Hc]).
  assert (T : take_field (if sep =? 32 then is_space else Z.eqb sep) size [] (f ++ c :: t) = (f, c :: t)).
  { assert (G : forall f room d, zlen f < room -> Forall (fun d => ~ ends sep d) f -> take_field (if sep =? 32 then is_space else Z.eqb sep) room d (f ++ c :: t) = (d ++ f, c :: t)).
    { clear - He. assert (St : (if sep =? 32 then is_space else Z.eqb sep) c = true). { unfold ends in He. change (ch " ") with 32 in He. destruct (sep =? 32); [exact He|]. apply Z.eqb_eq. congruence. }
      induction f as [|a f IH]; intros room d Hl Hn; cbn [app take_field]; [rewrite St, app_nil_r; reflexivity|].
      inversion Hn as [|? ? Ha Hf]; subst.
      assert (Sa : (if sep =? 32 then is_space else Z.eqb sep) a = false). { unfold ends in Ha. change (ch " ") with 32 in Ha. destruct (sep =? 32); [destruct (is_space a); [destruct Ha|]; reflexivity|]. apply Z.eqb_neq. congruence. }
      rewrite Sa. replace (zlen (a :: f)) with (1 + zlen f) in Hl by (unfold zlen; cbn [List.length]; lia). pose proof (zlen_nonneg f). destruct (Z.ltb_spec 1 room); [|lia]. rewrite IH; [rewrite <- app_assoc; reflexivity|lia|exact Hf]. }
    rewrite G; auto. }
  rewrite T. destruct (Z.ltb_spec size 1); [lia|]. cbn [tl]. destruct f as [|a f]; [congruence|]. cbn [cur hd]. inversion Hf as [|? ? Ha _]; subst. unfold is_cchar in Ha.
  destruct (Z.eqb_spec a 0); [lia|]. reflexivity.
Qed.

Lemma row_read is t rest : row is t rest -> cstring t -> scan_row (map shape is) t = Ok (rest, is).
Proof.
  induction 1 as [t|sp w is t rest Hs Hc _ IH|sp n is t rest Hs Hn Hm Hd _ IH|sp n is t rest Hs Hn Hm Hd _ IH|sp n is t rest Hs Hn Hd Hx _ IH|
    sp sep size f is t rest Hs Hne Hc Hsep H2 Hl Hf _ IH|sp size f c is t rest Hs Hne H2 Hl Hf Hc _ IH]; intros Ht; cbn [map shape scan_row scan_item].
  - reflexivity.
  - unfold cstring in *. rewrite !Forall_app in Ht. rewrite (proj2 (scanw_found (sp ++ w ++ t) w t)) by (exists sp; auto). rewrite IH by apply Ht. reflexivity.
  - unfold cstring in *. rewrite !Forall_app in Ht. unfold ScanIntW. rewrite (proj2 (number_found INT_MAX (sp ++ sdec n ++ t) t n ltac:(unfold INT_MAX; lia))).
    + cbn [option_map]. rewrite IH by apply Ht. reflexivity.
    + split; [exists (sp ++ sdec n); split; [apply sdec_at; exact Hs|]; split; [exact Hd|rewrite <- app_assoc; reflexivity]|]. unfold int32, INT_MIN, INT_MAX in *. lia.
  - unfold cstring in *. rewrite !Forall_app in Ht. unfold ScanInt64W. rewrite (proj2 (number_found INT64_MAX (sp ++ sdec n ++ t) t n ltac:(unfold INT64_MAX; lia))).
    + cbn [option_map]. rewrite IH by apply Ht. reflexivity.
    + split; [exists (sp ++ sdec n); split; [apply sdec_at; exact Hs|]; split; [exact Hd|rewrite <- app_assoc; reflexivity]|]. unfold int64, INT64_MIN, INT64_MAX in *. lia.
  - unfold cstring in *. rewrite !Forall_app in Ht. unfold uint64 in Hn.
    rewrite (unsigned_found sp (udec n) t Hs) by (try apply udec_nonempty; try apply udec_digits; auto; lia).
    rewrite udec_value by lia. rewrite Z.mod_small by lia. cbn [option_map]. rewrite IH by apply Ht. reflexivity.
  - unfold cstring in *. rewrite !Forall_app in Ht. destruct Ht as (_ & Htf & Htt). inversion Htt as [|? ? _ Ht2]; subst.
    rewrite (item_text sp sep size f sep t); auto.
    + rewrite IH by exact Ht2. reflexivity.
    + eapply Forall_impl; [|exact Hf]. intros d Hd. cbv beta in *. unfold ends. destruct (Z.eqb_spec sep (ch " ")); [contradiction|exact Hd].
    + unfold ends. destruct (Z.eqb_spec sep (ch " ")); [contradiction|reflexivity].
  - unfold cstring in *. rewrite !Forall_app in Ht. destruct Ht as (_ & Htf & Htt). inversion Htt as [|? ? _ Ht2]; subst.
    rewrite (item_text sp (ch " ") size f c t); auto.
    + rewrite IH by exact Ht2. reflexivity.
    + destruct f; [congruence|]. inversion Hf; assumption.
    + eapply Forall_impl; [|exact Hf]. intros d Hd. cbv beta in *. unfold ends. rewrite Z.eqb_refl. congruence.
Qed.

Lemma row_tail is t rest : row is t rest -> cstring t -> cstring rest.
Proof. unfold cstring. induction 1; rewrite ?Forall_app; intuition; match goal with H : Forall _ (_ :: _) |- _ => inversion H; subst; auto end. Qed.

Lemma table_read rs t : table rs t -> cstring t -> scan_table (map (map shape) rs) t = Ok rs.
Proof.
  induction 1 as [|is rs l rest more t Hr E Hm _ IH]; intros Ht; cbn [map scan_table]; [reflexivity|].
  rewrite (row_read is l rest Hr Ht). pose proof (row_tail is l rest Hr Ht) as Hc. change (ch "010") with 10 in E.
  rewrite (proj2 (skipline_found rest t)) by (exists more; auto). rewrite IH; [reflexivity|]. rewrite E in Hc. unfold cstring in *. rewrite Forall_app in Hc. destruct Hc as [_ Hc]. inversion Hc; assumption.
Qed.

Lemma int_found p q n : ScanIntW p = Ok (q, Some n) <-> number_at n p q /\ Z.abs n <= 2147483647.
Proof. apply number_found. unfold INT_MAX. lia. Qed.
Lemma int_ub p : ScanIntW p = Ub <-> exists n q, number_at n p q /\ 2147483647 < Z.abs n.
Proof. apply number_ub. unfold INT_MAX. lia. Qed.
Lemma int_missing p q : ScanIntW p = Ok (q, None) <-> (exists sp, blank sp /\ is_space (cur q) = false /\ p = sp ++ q) /\ (forall n r, ~ number_at n p r).
Proof. apply number_missing. unfold INT_MAX. lia. Qed.
Lemma int64_found p q n : ScanInt64W p = Ok (q, Some n) <-> number_at n p q /\ Z.abs n <= 9223372036854775807.
Proof. apply number_found. unfold INT64_MAX. lia. Qed.
Lemma int64_ub p : ScanInt64W p = Ub <-> exists n q, number_at n p q /\ 9223372036854775807 < Z.abs n.
Proof. apply number_ub. unfold INT64_MAX. lia. Qed.
Lemma int64_missing p q : ScanInt64W p = Ok (q, None) <-> (exists sp, blank sp /\ is_space (cur q) = false /\ p = sp ++ q) /\ (forall n r, ~ number_at n p r).
Proof. apply number_missing. unfold INT64_MAX. lia. Qed.

Lemma least_ub : ScanIntW (sdec (-2147483648)) = Ub.
Proof. vm_compute. reflexivity. Qed.
Lemma wrapped : ScanUInt64W (udec 18446744073709551617 ++ lit ";") = (lit ";", Some 1).
Proof. vm_compute. reflexivity. Qed.
Lemma hex_taken : ScanUInt64W (udec 0 ++ lit "xa") = ([], Some 10).
Proof. vm_compute. reflexivity. Qed.
(** Columns separated by tabs, the second of which is empty. *)
Lemma empty_column : ScanStrW (lit "a" ++ [9] ++ [9] ++ lit "c") 9 10 = Ok ([9] ++ lit "c", lit "a", true) /\ ScanStrW ([9] ++ lit "c") 9 10 = Ok ([], lit "c", true).
Proof. split; vm_compute; reflexivity. Qed.
