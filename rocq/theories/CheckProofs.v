(** The integrity check. *)
From Verif Require Import Base BaseFacts ListFacts Types Sort SortProofs Xb XbSpec XbFacts CheckSpec.
From Coq Require Import Relations.

(** The loop over the children as a function of its own. *)
Fixpoint check_children (chk : option Z -> run bool) m x (n : nat) (i : Z) : run bool :=
  match n with
  | O => rret true
  | S n' => rbind (Some (getChildByIndex m (Some x) i)) (fun c =>
            rbind (match c with None => rret false | Some _ => chk c end) (fun ok =>
            if ok : bool then check_children chk m x n' (i + 1) else rret false))
  end.

Lemma Check_S k m R x recursive : Check (S k) m R (Some x) recursive =
  if x <? 0 then rret false
  else if zlen m <? x + 12 then rret false
  else rbind (Some (it_length m x)) (fun length =>
  if zlen m <? x + length then rret false
  else if negb (align_up 4 x =? x) then rret false
  else rbind (Some (it_name m x)) (fun name =>
  if (name <=? XTNR_LAST) || (ct_tags R <=? name) then rret false
  else rbind (Some (it_paramcount m x)) (fun pc => rbind (Some (it_childcount m x)) (fun cc =>
  if u32 length <? u64 (12 + 8 * pc + 4 * cc) then rret false
  else rbind (Some (check_params (Z.to_nat pc) m R x length (x + 12))) (fun v =>
  match v with
  | Some b => rret b
  | None => if recursive then check_children (fun c => Check k m R c true) m x (Z.to_nat cc) 0 else rret true
  end))))).
Proof.
  cbn [Check]. destruct (x <? 0); [reflexivity|]. destruct (zlen m <? x + 12); [reflexivity|].
  destruct (it_length m x) as [l| |]; [|reflexivity|reflexivity]. cbn [rbind]. destruct (zlen m <? x + l); [reflexivity|].
  destruct (negb (align_up 4 x =? x)); [reflexivity|]. destruct (it_name m x) as [nm| |]; [|reflexivity|reflexivity]. cbn [rbind].
  destruct (_ || _); [reflexivity|]. destruct (it_paramcount m x) as [pc| |]; [|reflexivity|reflexivity]. cbn [rbind]. destruct (it_childcount m x) as [cc| |]; [|reflexivity|reflexivity]. cbn [rbind].
  destruct (_ <? _); [reflexivity|]. destruct (check_params _ _ _ _ _ _) as [[b|]| |]; try reflexivity. cbn [rbind]. destruct recursive; [|reflexivity].
  generalize (Z.to_nat cc) 0. induction n as [|n IH]; intros i; [reflexivity|]. cbn [check_children]. destruct (getChildByIndex m (Some x) i) as [[y|]| |]; try reflexivity.
  cbn [rbind]. destruct (Check k m R (Some y) true) as [[[]| |]|]; try reflexivity. cbn [rbind]. apply IH.
Qed.

Ltac open_check H :=
  destruct (it_length _ _) as [?| |]; [|discriminate H|discriminate H]; cbn [rbind] in H;
  match type of H with (if ?b then _ else _) = _ => destruct b; [discriminate H|] end; match type of H with (if ?b then _ else _) = _ => destruct b; [discriminate H|] end;
  destruct (it_name _ _) as [?| |]; [|discriminate H|discriminate H]; cbn [rbind] in H; match type of H with (if ?b then _ else _) = _ => destruct b; [discriminate H|] end;
  destruct (it_paramcount _ _) as [?| |]; [|discriminate H|discriminate H]; cbn [rbind] in H; destruct (it_childcount _ _) as [?| |]; [|discriminate H|discriminate H]; cbn [rbind] in H;
  match type of H with (if ?b then _ else _) = _ => destruct b; [discriminate H|] end;
  destruct (check_params _ _ _ _ _ _) as [[?|]| |]; try discriminate H; cbn [rbind] in H.

(** ** Termination (C32) *)
Lemma children_none chk m x : forall n i, check_children chk m x n i = None -> exists y, child m x y /\ chk (Some y) = None.
Proof.
  induction n as [|n IH]; intros i H; [discriminate H|]. cbn [check_children] in H. destruct (getChildByIndex m (Some x) i) as [[y|]| |] eqn:E; cbn [rbind] in H; try discriminate H.
  destruct (chk (Some y)) as [[[]| |]|] eqn:Ec; cbn [rbind] in H; try discriminate H; [apply IH in H; exact H|]. exists y. split; [exists i; exact E|exact Ec].
Qed.

(** Running out of fuel leaves a chain. *)
Inductive chain m : nat -> Z -> list Z -> Prop :=
| chain_0 x : chain m 0 x []
| chain_S k x y l : 0 <= x <= zlen m -> child m x y -> chain m k y l -> chain m (S k) x (x :: l).

Lemma Check_none k m R : forall x, Check k m R (Some x) true = None -> exists l, chain m k x l.
Proof.
  induction k as [|k IH]; intros x H; [exists []; constructor|]. rewrite Check_S in H.
  destruct (Z.ltb_spec x 0); [discriminate H|]. destruct (Z.ltb_spec (zlen m) (x + 12)); [discriminate H|].
  open_check H. apply children_none in H. destruct H as (y & C & H). apply IH in H. destruct H as (l & H).
  exists (x :: l). apply (chain_S m k x y l); [lia|exact C|exact H].
Qed.

Lemma chain_len m k x l : chain m k x l -> List.length l = k.
Proof. induction 1; cbn [List.length]; congruence. Qed.
Lemma chain_range m k x l : chain m k x l -> forall y, In y l -> 0 <= y <= zlen m.
Proof. induction 1 as [x|k x y l Hx C H IH]; intros z Hz; [contradiction|]. destruct Hz as [<-|Hz]; [exact Hx|apply IH, Hz]. Qed.
Lemma chain_reach m k x l : chain m k x l -> forall y, In y l -> reach m x y.
Proof.
  induction 1 as [x|k x y l Hx C H IH]; intros z Hz; [contradiction|]. destruct Hz as [<-|Hz]; [constructor|]. eapply Relation_Operators.rt1n_trans; [exact C|apply IH, Hz].
Qed.
Lemma chain_cycle m k x l : chain m k x l -> ~ NoDup l -> exists y, reach m x y /\ cyclic m y.
Proof.
  induction 1 as [x|k x y l Hx C H IH]; intros N; [elim N; constructor|].
  destruct (in_dec Z.eq_dec x l) as [Hin|Hn].
  - exists x. split; [constructor|]. exists y. split; [exact C|]. apply (chain_reach _ _ _ _ H), Hin.
  - destruct IH as (z & Z1 & Z2); [intros Nd; apply N; constructor; assumption|]. exists z. split; [eapply Relation_Operators.rt1n_trans; [exact C|exact Z1]|exact Z2].
Qed.

Lemma range_length (l m : list Z) : NoDup l -> (forall y, In y l -> 0 <= y <= zlen m) -> (List.length l <= S (List.length m))%nat.
Proof.
  intros N H. transitivity (List.length (map Z.of_nat (seq 0 (S (List.length m))))); [|rewrite map_length, seq_length; lia].
  apply NoDup_incl_length; [exact N|]. intros y Hy. specialize (H y Hy). apply in_map_iff. exists (Z.to_nat y). split; [lia|]. apply in_seq. unfold zlen in H. lia.
Qed.

Lemma Check_ends m R x fuel : (forall y, reach m x y -> ~ cyclic m y) -> (enough m <= fuel)%nat -> exists v, Check fuel m R (Some x) true = Some v.
Proof.
  intros A F. destruct (Check fuel m R (Some x) true) as [v|] eqn:E; [exists v; reflexivity|exfalso].
  apply Check_none in E. destruct E as (l & C). destruct (ListDec.NoDup_dec Z.eq_dec l) as [N|N].
  - pose proof (range_length l m N (chain_range _ _ _ _ C)) as L. rewrite (chain_len _ _ _ _ C) in L. unfold enough in F. lia.
  - destruct (chain_cycle _ _ _ _ C N) as (y & Y1 & Y2). apply (A y Y1 Y2).
Qed.

(** Links that point forward cannot form a cycle. *)
Lemma forward_acyclic m x : (forall y z, reach m x y -> child m y z -> y < z) -> forall y, reach m x y -> ~ cyclic m y.
Proof.
  intros F y Hy (z & C & Hz). assert (G : forall a b, reach m a b -> reach m x a -> a <= b).
  { clear z C Hz. induction 1 as [a|a b c C H IH]; intros Ha; [lia|]. pose proof (F a b Ha C).
    assert (Hb : reach m x b) by (apply clos_rt_rt1n; eapply rt_trans; [apply clos_rt1n_rt; exact Ha|apply rt_step; exact C]). specialize (IH Hb). lia. }
  pose proof (F y z Hy C). assert (Hxz : reach m x z) by (apply clos_rt_rt1n; eapply rt_trans; [apply clos_rt1n_rt; exact Hy|apply rt_step; exact C]).
  pose proof (G z y Hz Hxz). lia.
Qed.

Lemma Check_flat_ends m R x k : exists v, Check (S k) m R x false = Some v.
Proof.
  destruct x as [x|]; [|eexists; reflexivity]. destruct (Check (S k) m R (Some x) false) as [v|] eqn:H; [exists v; reflexivity|exfalso]. rewrite Check_S in H.
  destruct (x <? 0); [discriminate H|]. destruct (zlen m <? x + 12); [discriminate H|]. open_check H.
Qed.

(** ** What an accepted file guarantees (C31) *)
Lemma no_params m R x length : forall n q v, check_params n m R x length q = Ok v ->
  (forall j ty, 0 <= j < Z.of_nat n -> pd_type m (q + 8 * j) = Ok ty -> In ty [XBT_NULL; XBT_INT32; XBT_FLOAT; XBT_UNIX_TIME; XBT_IPv4]) -> v = None \/ v = Some false.
Proof.
  induction n as [|n IH]; intros q v H Hin; cbn [check_params] in H; [left; congruence|].
  destruct (pd_name m q) as [nm| |]; [|discriminate H|discriminate H]. cbn [obind] in H. destruct (pd_type m q) as [ty| |] eqn:Et; [|discriminate H|discriminate H]. cbn [obind] in H.
  destruct (pd_data m q) as [d| |]; [|discriminate H|discriminate H]. cbn [obind] in H. destruct (_ || _); [right; congruence|].
  assert (I : isin ty [XBT_NULL; XBT_INT32; XBT_FLOAT; XBT_UNIX_TIME; XBT_IPv4] = true).
  { assert (Hi : In ty [XBT_NULL; XBT_INT32; XBT_FLOAT; XBT_UNIX_TIME; XBT_IPv4]) by (apply (Hin 0); [lia|replace (q + 8 * 0) with q by lia; exact Et]).
    cbn [In] in Hi. repeat (destruct Hi as [<-|Hi]; [reflexivity|]). contradiction. }
  rewrite I in H. apply (IH _ _ H). intros j ty' Hj E. apply (Hin (j + 1)); [lia|]. replace (q + 8 * (j + 1)) with (q + 8 + 8 * j) by lia. exact E.
Qed.

Lemma children_true chk m x : forall n i, check_children chk m x n i = rret true -> forall j, i <= j < i + Z.of_nat n -> exists y, getChildByIndex m (Some x) j = Ok (Some y) /\ chk (Some y) = rret true.
Proof.
  induction n as [|n IH]; intros i H j Hj; [lia|]. cbn [check_children] in H. destruct (getChildByIndex m (Some x) i) as [[y|]| |] eqn:E; cbn [rbind] in H; try discriminate H.
  destruct (chk (Some y)) as [[[]| |]|] eqn:Ec; cbn [rbind] in H; try discriminate H. destruct (Z.eq_dec j i) as [->|]; [exists y; auto|]. apply (IH _ H). lia.
Qed.

Lemma Check_true k m R x : Check (S k) m R (Some x) true = rret true -> zlen m <= INT_MAX -> counts_ok m x -> inline_only m x ->
  element_inside m x /\ forall y, child m x y -> Check k m R (Some y) true = rret true.
Proof.
  intros H Hm Hc Hi. rewrite Check_S in H.
  destruct (Z.ltb_spec x 0); [discriminate H|]. destruct (Z.ltb_spec (zlen m) (x + 12)); [discriminate H|].
  destruct (it_length m x) as [l| |] eqn:El; [|discriminate H|discriminate H]. cbn [rbind] in H. destruct (Z.ltb_spec (zlen m) (x + l)); [discriminate H|].
  destruct (Z.eqb_spec (align_up 4 x) x) as [Ea|]; [|discriminate H]. cbn [negb] in H. destruct (it_name m x) as [nm| |]; [|discriminate H|discriminate H]. cbn [rbind] in H.
  destruct (_ || _); [discriminate H|]. destruct (it_paramcount m x) as [pc| |] eqn:Ep; [|discriminate H|discriminate H]. cbn [rbind] in H. destruct (it_childcount m x) as [cc| |] eqn:Ecc; [|discriminate H|discriminate H]. cbn [rbind] in H.
  destruct (Hc _ _ _ El Ep Ecc) as (L0 & P0 & C0).
  destruct (Z.ltb_spec (u32 l) (u64 (12 + 8 * pc + 4 * cc))) as [|Hs]; [discriminate H|].
  assert (Bp : pc <= 32767) by (unfold it_paramcount, rd_s16 in Ep; destruct (rd m (x + 2) 2); [|discriminate Ep|discriminate Ep]; cbn [obind] in Ep; unfold s16 in Ep; injection Ep as <-; lia).
  assert (Bc : cc <= 2147483647) by (unfold it_childcount, rd_s32 in Ecc; destruct (rd m (x + 4) 4); [|discriminate Ecc|discriminate Ecc]; cbn [obind] in Ecc; unfold s32 in Ecc; injection Ecc as <-; lia).
  unfold u32, u64 in Hs. unfold INT_MAX in Hm. rewrite (Z.mod_small l) in Hs by lia. rewrite (Z.mod_small (12 + 8 * pc + 4 * cc)) in Hs by lia.
  split.
  - exists l, pc, cc. repeat (split; [first [assumption|reflexivity|lia]|]). split; [rewrite <- Ea; apply align_up_mod; lia|]. lia.
  - destruct (check_params _ _ _ _ _ _) as [v| |] eqn:Ev; [|discriminate H|discriminate H]. cbn [rbind] in H.
    assert (Vn : v = None \/ v = Some false).
    { apply (no_params _ _ _ _ _ _ _ Ev). intros j ty Hj Et. apply (Hi j (x + 12 + 8 * j) ty); [|exact Et]. unfold getParamByIndex. destruct (Z.ltb_spec j 0); [lia|]. rewrite Ep. cbn [obind]. destruct (Z.leb_spec pc j); [lia|reflexivity]. }
    destruct Vn as [->| ->]; [|discriminate H]. intros y (i & Ey). pose proof Ey as Ey'. unfold getChildByIndex in Ey'. rewrite Ecc in Ey'. cbn [obind] in Ey'.
    destruct (Z.ltb_spec i 0); [discriminate Ey'|]. destruct (Z.leb_spec cc i); [discriminate Ey'|].
    destruct (children_true _ _ _ _ _ H i ltac:(lia)) as (y' & E1 & E2). rewrite Ey in E1. injection E1 as <-. exact E2.
Qed.

Lemma accepted_inside m R : zlen m <= INT_MAX -> forall x y, reach m x y -> (forall z, reach m x z -> counts_ok m z /\ inline_only m z) ->
  forall k, Check k m R (Some x) true = rret true -> element_inside m y.
Proof.
  intros Hm x y Hr. induction Hr as [x|x z y C Hr IH]; intros Ha k H; (destruct k as [|k]; [discriminate H|]).
  - apply (Check_true k m R x H Hm); apply Ha; constructor.
  - destruct (Check_true k m R x H Hm (proj1 (Ha x ltac:(constructor))) (proj2 (Ha x ltac:(constructor)))) as (_ & Hk).
    apply (IH ltac:(intros w Hw; apply Ha; eapply Relation_Operators.rt1n_trans; [exact C|exact Hw]) k (Hk z C)).
Qed.

(** ** No read outside the file *)
Lemma params_safe m R x length : 0 <= x -> 0 <= length -> x + length <= zlen m -> forall n q, 0 <= q -> q + 8 * Z.of_nat n <= zlen m -> check_params n m R x length q <> Ub.
Proof.
  intros Hx Hl Hxl. induction n as [|n IH]; intros q Hq Hqn; cbn [check_params]; [discriminate|].
  assert (Rd : forall p k, 0 <= p -> p + k <= zlen m -> rd m p k = Ok (slice m p k)) by (intros p k P1 P2; unfold rd; destruct (Z.leb_spec 0 p); [|lia]; destruct (Z.leb_spec (p + k) (zlen m)); [reflexivity|lia]).
  unfold pd_name, pd_type, pd_data, rd_s16, rd_u8, rd_s32. rewrite !Rd by lia. cbn [obind]. destruct (_ || _); [discriminate|].
  destruct (isin _ _); [apply IH; lia|]. destruct (Z.ltb_spec (s32 (unle (slice m (q + 4) 4))) 0) as [|D0]; [discriminate|]. destruct (Z.leb_spec length (s32 (unle (slice m (q + 4) 4)))) as [|D1]; [discriminate|].
  cbn [orb]. set (d := s32 _) in *. destruct (_ =? XBT_STRING).
  - unfold strnlen_. destruct (Z.ltb_spec (x + d) 0); [lia|]. cbv zeta. set (s := cstr _).
    destruct ((zlen s =? length - d) || (x + d + zlen s <? zlen m)) eqn:E; [discriminate|exfalso].
    assert (L : zlen s <= length - d). { unfold s. pose proof (cstr_len (ztake (length - d) (zskip (x + d) m))) as G. rewrite zlen_take in G by lia. lia. }
    lia.
  - destruct (isin _ _); [discriminate|]. destruct (_ =? XBT_SHA1); [discriminate|]. destruct (isin _ _); discriminate.
Qed.

Lemma children_safe chk m x pc cc : it_paramcount m x = Ok pc -> it_childcount m x = Ok cc -> 0 <= x -> 0 <= pc -> x + 12 + 8 * pc + 4 * cc <= zlen m ->
  (forall y, child m x y -> chk (Some y) <> Some Ub) -> forall n i, 0 <= i -> i + Z.of_nat n <= cc -> check_children chk m x n i <> Some Ub.
Proof.
  intros Ep Ec Hx Hp Hc Hk. induction n as [|n IH]; intros i Hi Hn; cbn [check_children]; [discriminate|].
  assert (E : exists y, getChildByIndex m (Some x) i = Ok (Some y)).
  { unfold getChildByIndex, children_pos. rewrite Ec, Ep. cbn [obind]. destruct (Z.ltb_spec i 0); [lia|]. destruct (Z.leb_spec cc i); [lia|]. cbn [orb]. unfold rd_s32, rd.
    destruct (Z.leb_spec 0 (x + 12 + 8 * pc + 4 * i)); [|lia]. destruct (Z.leb_spec (x + 12 + 8 * pc + 4 * i + 4) (zlen m)); [|lia]. cbn [andb obind]. eexists. reflexivity. }
  destruct E as (y & E). rewrite E. cbn [rbind]. specialize (Hk y ltac:(exists i; exact E)). destruct (chk (Some y)) as [[[]| |]|]; cbn [rbind]; try discriminate; try contradiction. apply IH; lia.
Qed.

Lemma Check_safe m R : zlen m <= INT_MAX -> forall k x, (forall z, reach m x z -> counts_ok m z) -> Check k m R (Some x) true <> Some Ub.
Proof.
  intros Hm. unfold INT_MAX in Hm. induction k as [|k IH]; intros x Ha; [discriminate|]. rewrite Check_S.
  destruct (Z.ltb_spec x 0); [discriminate|]. destruct (Z.ltb_spec (zlen m) (x + 12)); [discriminate|].
  assert (Rd : forall p n, 0 <= p -> p + n <= zlen m -> rd m p n = Ok (slice m p n)) by (intros p n P1 P2; unfold rd; destruct (Z.leb_spec 0 p); [|lia]; destruct (Z.leb_spec (p + n) (zlen m)); [reflexivity|lia]).
  assert (El : exists l, it_length m x = Ok l) by (unfold it_length, rd_s32; rewrite Rd by lia; eexists; reflexivity).
  assert (En : exists l, it_name m x = Ok l) by (unfold it_name, rd_s16; rewrite Rd by lia; eexists; reflexivity).
  assert (Ep : exists l, it_paramcount m x = Ok l /\ l <= 32767) by (unfold it_paramcount, rd_s16; rewrite Rd by lia; eexists; split; [reflexivity|unfold s16; lia]).
  assert (Ec : exists l, it_childcount m x = Ok l /\ l <= 2147483647) by (unfold it_childcount, rd_s32; rewrite Rd by lia; eexists; split; [reflexivity|unfold s32; lia]).
  destruct El as (l & El), En as (nm & En), Ep as (pc & Ep & Bp), Ec as (cc & Ec & Bc). rewrite El. cbn [rbind]. destruct (Z.ltb_spec (zlen m) (x + l)); [discriminate|].
  destruct (negb _); [discriminate|]. rewrite En. cbn [rbind]. destruct (_ || _); [discriminate|]. rewrite Ep. cbn [rbind]. rewrite Ec. cbn [rbind].
  destruct (Ha x ltac:(constructor) _ _ _ El Ep Ec) as (L0 & P0 & C0).
  destruct (Z.ltb_spec (u32 l) (u64 (12 + 8 * pc + 4 * cc))) as [|Hs]; [discriminate|].
  unfold u32, u64 in Hs. rewrite (Z.mod_small l) in Hs by lia. rewrite (Z.mod_small (12 + 8 * pc + 4 * cc)) in Hs by lia.
  pose proof (params_safe m R x l ltac:(lia) L0 ltac:(lia) (Z.to_nat pc) (x + 12) ltac:(lia) ltac:(lia)) as Ps.
  destruct (check_params _ _ _ _ _ _) as [[b|]| |]; cbn [rbind]; try discriminate; try contradiction.
  apply (children_safe (fun c => Check k m R c true) m x pc cc Ep Ec); try lia. intros y C. apply IH. intros z Hz. apply Ha. eapply Relation_Operators.rt1n_trans; [exact C|exact Hz].
Qed.

(** The first attribute that is a link is checked. *)
Lemma params_link m R x length : 0 <= x -> 0 <= length <= INT_MAX -> x + length <= zlen m -> forall n q, check_params n m R x length q = Ok (Some true) ->
  exists j ty d, 0 <= j < Z.of_nat n /\ pd_type m (q + 8 * j) = Ok ty /\ pd_data m (q + 8 * j) = Ok d /\ link_inside m x length ty d /\
    forall i t, 0 <= i < j -> pd_type m (q + 8 * i) = Ok t -> In t [XBT_NULL; XBT_INT32; XBT_FLOAT; XBT_UNIX_TIME; XBT_IPv4].
Proof.
  intros Hx Hl Hxl. unfold INT_MAX in Hl. induction n as [|n IH]; intros q H; cbn [check_params] in H; [discriminate H|].
  destruct (pd_name m q) as [nm| |]; [|discriminate H|discriminate H]. cbn [obind] in H. destruct (pd_type m q) as [ty| |] eqn:Et; [|discriminate H|discriminate H]. cbn [obind] in H.
  destruct (pd_data m q) as [d| |] eqn:Ed; [|discriminate H|discriminate H]. cbn [obind] in H. destruct (_ || _); [discriminate H|].
  assert (U : u32 length = length) by (unfold u32; apply Z.mod_small; lia). rewrite U in H.
  destruct (isin ty _) eqn:Ei.
  - apply isin_true in Ei. destruct (IH _ H) as (j & ty' & d' & J & A & B & C & D). exists (j + 1), ty', d'. replace (q + 8 * (j + 1)) with (q + 8 + 8 * j) by lia.
    split; [lia|]. split; [exact A|]. split; [exact B|]. split; [exact C|]. intros i t Hi Hit. destruct (Z.eq_dec i 0) as [->|].
    + replace (q + 8 * 0) with q in Hit by lia. rewrite Et in Hit. injection Hit as <-. exact Ei.
    + apply (D (i - 1)); [lia|]. replace (q + 8 + 8 * (i - 1)) with (q + 8 * i) by lia. exact Hit.
  - destruct (Z.ltb_spec d 0) as [|D0]; [discriminate H|]. destruct (Z.leb_spec length d) as [|D1]; [discriminate H|]. cbn [orb] in H.
    exists 0, ty, d. replace (q + 8 * 0) with q by lia. split; [lia|]. split; [exact Et|]. split; [exact Ed|]. split; [|intros; lia].
    split; [lia|]. destruct (Z.eqb_spec ty XBT_STRING) as [->|].
    + left. split; [reflexivity|]. unfold strnlen_ in H. destruct (Z.ltb_spec (x + d) 0); [lia|]. cbv zeta in H. set (s := cstr _) in *.
      destruct (_ || _); cbn [obind] in H; [|discriminate H]. injection H as H. destruct (Z.ltb_spec (zlen s) (length - d)) as [Hs|]; [|discriminate H].
      assert (Es : cstr (zskip (x + d) m) = s).
      { unfold s in *. assert (Sk : zskip (x + d) m = ztake (length - d) (zskip (x + d) m) ++ zskip (length - d) (zskip (x + d) m)) by (unfold ztake, zskip; symmetry; apply firstn_skipn).
        assert (Lt : zlen (ztake (length - d) (zskip (x + d) m)) = length - d) by (rewrite zlen_take, zlen_skip by lia; lia).
        destruct (cstr_split (ztake (length - d) (zskip (x + d) m)) ltac:(lia)) as (r & Er). pose proof (cstr_nz (ztake (length - d) (zskip (x + d) m))) as Nz.
        set (t := cstr (ztake _ _)) in *. rewrite Sk, Er, <- app_assoc, cstr_app_nz by exact Nz. cbn [app cstr]. change (0 =? 0) with true. cbv iota. apply app_nil_r. }
      exists s. split; [|lia]. unfold rd_str. rewrite Es. pose proof (zlen_nonneg s). destruct (Z.leb_spec 0 (x + d)); [|lia]. destruct (Z.ltb_spec (x + d) (zlen m)); [|lia]. cbv zeta. destruct (Z.ltb_spec (x + d + zlen s) (zlen m)); [reflexivity|lia].
    + right. destruct (isin ty [XBT_INT64; _; _; _]) eqn:E1; [left; apply isin_true in E1; split; [exact E1|]; injection H as H; lia|]. right.
      destruct (Z.eqb_spec ty XBT_SHA1) as [->|]; [left; split; [reflexivity|]; injection H as H; lia|]. right.
      destruct (isin ty [XBT_GUID; _]) eqn:E2; [|discriminate H]. apply isin_true in E2. split; [exact E2|]. injection H as H. lia.
Qed.

(** One element that was accepted, recursively or not. *)
Lemma Check_one k m R x recursive : Check (S k) m R (Some x) recursive = rret true -> zlen m <= INT_MAX -> counts_ok m x ->
  element_inside m x /\
  (inline_only m x \/ exists i q ty d l, getParamByIndex m (Some x) i = Ok (Some q) /\ pd_type m q = Ok ty /\ pd_data m q = Ok d /\ it_length m x = Ok l /\ link_inside m x l ty d /\
     forall j p t, 0 <= j < i -> getParamByIndex m (Some x) j = Ok (Some p) -> pd_type m p = Ok t -> In t [XBT_NULL; XBT_INT32; XBT_FLOAT; XBT_UNIX_TIME; XBT_IPv4]).
Proof.
  intros H Hm Hc. rewrite Check_S in H.
  destruct (Z.ltb_spec x 0); [discriminate H|]. destruct (Z.ltb_spec (zlen m) (x + 12)); [discriminate H|].
  destruct (it_length m x) as [l| |] eqn:El; [|discriminate H|discriminate H]. cbn [rbind] in H. destruct (Z.ltb_spec (zlen m) (x + l)); [discriminate H|].
  destruct (Z.eqb_spec (align_up 4 x) x) as [Ea|]; [|discriminate H]. cbn [negb] in H. destruct (it_name m x) as [nm| |]; [|discriminate H|discriminate H]. cbn [rbind] in H.
  destruct (_ || _); [discriminate H|]. destruct (it_paramcount m x) as [pc| |] eqn:Ep; [|discriminate H|discriminate H]. cbn [rbind] in H. destruct (it_childcount m x) as [cc| |] eqn:Ecc; [|discriminate H|discriminate H]. cbn [rbind] in H.
  destruct (Hc _ _ _ El Ep Ecc) as (L0 & P0 & C0).
  destruct (Z.ltb_spec (u32 l) (u64 (12 + 8 * pc + 4 * cc))) as [|Hs]; [discriminate H|].
  assert (Bp : pc <= 32767) by (unfold it_paramcount, rd_s16 in Ep; destruct (rd m (x + 2) 2); [|discriminate Ep|discriminate Ep]; cbn [obind] in Ep; unfold s16 in Ep; injection Ep as <-; lia).
  assert (Bc : cc <= 2147483647) by (unfold it_childcount, rd_s32 in Ecc; destruct (rd m (x + 4) 4); [|discriminate Ecc|discriminate Ecc]; cbn [obind] in Ecc; unfold s32 in Ecc; injection Ecc as <-; lia).
  unfold u32, u64 in Hs. unfold INT_MAX in Hm. rewrite (Z.mod_small l) in Hs by lia. rewrite (Z.mod_small (12 + 8 * pc + 4 * cc)) in Hs by lia.
  assert (Gp : forall j p, 0 <= j -> getParamByIndex m (Some x) j = Ok (Some p) -> j < pc /\ p = x + 12 + 8 * j).
  { intros j p Hj G. unfold getParamByIndex in G. destruct (Z.ltb_spec j 0); [lia|]. rewrite Ep in G. cbn [obind] in G. destruct (Z.leb_spec pc j); [discriminate G|]. injection G as <-. lia. }
  split.
  - exists l, pc, cc. repeat (split; [first [assumption|reflexivity|lia]|]). split; [rewrite <- Ea; apply align_up_mod; lia|]. lia.
  - destruct (check_params _ _ _ _ _ _) as [[[]|]| |] eqn:Ev; cbn [rbind] in H; try discriminate H.
    + right. destruct (params_link m R x l ltac:(lia) ltac:(unfold INT_MAX; lia) ltac:(lia) _ _ Ev) as (j & ty & d & J & A & B & C & D).
      exists j, (x + 12 + 8 * j), ty, d, l. split; [unfold getParamByIndex; destruct (Z.ltb_spec j 0); [lia|]; rewrite Ep; cbn [obind]; destruct (Z.leb_spec pc j); [lia|reflexivity]|].
      repeat (split; [assumption || reflexivity|]). intros i p t Hi G T. destruct (Gp i p ltac:(lia) G) as (_ & ->). apply (D i t Hi T).
    + left. intros i q ty G T. assert (I0 : 0 <= i) by (unfold getParamByIndex in G; destruct (Z.ltb_spec i 0); [discriminate G|lia]). destruct (Gp i q I0 G) as (Hi & ->).
      assert (All : forall n q, check_params n m R x l q = Ok None -> forall j t, 0 <= j < Z.of_nat n -> pd_type m (q + 8 * j) = Ok t -> In t [XBT_NULL; XBT_INT32; XBT_FLOAT; XBT_UNIX_TIME; XBT_IPv4]).
      { clear. induction n as [|n IH]; intros q H j t Hj T; [lia|]. cbn [check_params] in H.
        destruct (pd_name m q) as [nm| |]; [|discriminate H|discriminate H]. cbn [obind] in H. destruct (pd_type m q) as [ty| |] eqn:Et; [|discriminate H|discriminate H]. cbn [obind] in H.
        destruct (pd_data m q) as [d| |] eqn:Ed; [|discriminate H|discriminate H]. cbn [obind] in H. destruct (_ || _); [discriminate H|].
        destruct (isin ty _) eqn:Ei.
        - destruct (Z.eq_dec j 0) as [->|]; [replace (q + 8 * 0) with q in T by lia; rewrite Et in T; injection T as <-; apply isin_true, Ei|].
          apply (IH _ H (j - 1)); [lia|]. replace (q + 8 + 8 * (j - 1)) with (q + 8 * j) by lia. exact T.
        - exfalso. repeat match type of H with (if ?b then _ else _) = _ => destruct b; try discriminate H end. destruct (strnlen_ m (x + d) (l - d)); discriminate H. }
      apply (All _ _ Ev i ty); [lia|exact T].
Qed.

(** An element that is its own child. *)
Definition cycle_file : list Z := le 2 (-2) ++ le 2 0 ++ le 4 1 ++ le 4 16 ++ le 4 0.
Lemma cycle_endless fuel : Check fuel cycle_file (mkcounts 0 0) (Some 0) true = None.
Proof.
  induction fuel as [|k IH]; [reflexivity|]. rewrite Check_S.
  change (check_children (fun c => Check k cycle_file (mkcounts 0 0) c true) cycle_file 0 1 0 = None).
  cbn [check_children]. change (getChildByIndex cycle_file (Some 0) 0) with (Ok (Some 0)). cbn [rbind]. rewrite IH. reflexivity.
Qed.
