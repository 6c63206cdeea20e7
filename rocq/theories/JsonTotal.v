(** The sizes of the subtrees, and which texts a JSON source accepts. *)
From Verif Require Import Base BaseFacts ListFacts Types Sort SortProofs Xb XbWrite Jsmn JsmnProofs JsmnParse JsonSpec JsonProofs.

Lemma set_total_eq a t b n i : i = zlen a -> set_total (a ++ t :: b) i n = rret (n, a ++ T (ty t) (st t) (en t) (sz t) (par t) (Some n) :: b).
Proof. intros I. unfold set_total. rewrite at_app by exact I. cbn [rbind rret]. rewrite put_app by exact I. reflexivity. Qed.
Lemma total_loop_app k1 k2 call ts i n : total_loop (k1 + k2) call ts i n = rbind (total_loop k1 call ts i n) (fun r => total_loop k2 call (snd r) i (fst r)).
Proof.
  revert ts n. induction k1 as [|k IH]; intros ts n; [reflexivity|]. cbn [Nat.add total_loop]. destruct (call ts (i + n)) as [[[m ts']| |]|]; cbn [rbind]; auto.
Qed.
Lemma total_string fuel a t b : ty t = JSMN_STRING -> prepare_total_size (Datatypes.S fuel) (a ++ t :: b) (zlen a) = rret (1, a ++ T (ty t) (st t) (en t) (sz t) (par t) (Some 1) :: b).
Proof. intros TY. cbn [prepare_total_size]. rewrite at_app by reflexivity. cbn [rbind rret]. rewrite TY. change (isin JSMN_STRING [JSMN_STRING; JSMN_PRIMITIVE]) with true. cbv iota. rewrite set_total_eq, TY by reflexivity. reflexivity. Qed.
Lemma totals : (forall v fuel a b x i p, vcount v <= Z.of_nat fuel -> prepare_total_size fuel (a ++ vtoks false v x i p ++ b) (zlen a) = rret (vcount v, a ++ vtoks true v x i p ++ b)) /\
  (forall l fuel f a b x i p idx total, icount l <= Z.of_nat fuel -> idx + total = zlen a ->
    total_loop (Z.to_nat (ilen l)) (prepare_total_size fuel) (a ++ itoks false f l x i p ++ b) idx total = rret (total + icount l, a ++ itoks true f l x i p ++ b)) /\
  (forall l fuel f a b x i p idx total, mcount l <= Z.of_nat fuel -> idx + total = zlen a ->
    total_loop (Z.to_nat (2 * mlen l)) (prepare_total_size fuel) (a ++ mtoks false f l x i p ++ b) idx total = rret (total + mcount l, a ++ mtoks true f l x i p ++ b)).
Proof.
  destruct counts_pos as (CV & CI & CM). destruct toks_count as (TV & TI & TM).
  assert (IL : forall l, 0 <= ilen l) by (induction l; cbn [ilen]; lia). assert (ML : forall l, 0 <= mlen l) by (induction l; cbn [mlen]; lia).
  apply json_ind.
  - intros s [|f] a b x i p F; [cbn [vcount] in F; lia|]. cbn [vtoks vcount prepare_total_size app]. rewrite at_app by reflexivity. cbn [rbind rret ty]. change (isin JSMN_PRIMITIVE [JSMN_STRING; JSMN_PRIMITIVE]) with true. cbv iota. rewrite set_total_eq by reflexivity. reflexivity.
  - intros s [|f] a b x i p F; [cbn [vcount] in F; lia|]. cbn [vtoks vcount prepare_total_size app]. rewrite at_app by reflexivity. cbn [rbind rret ty]. change (isin JSMN_STRING [JSMN_STRING; JSMN_PRIMITIVE]) with true. cbv iota. rewrite set_total_eq by reflexivity. reflexivity.
  - intros w l IH [|f] a b x i p F; cbn [vcount] in F; [specialize (CI l); lia|]. cbn [vtoks vcount prepare_total_size app]. rewrite at_app by reflexivity. cbn [rbind rret ty sz].
    change (isin JSMN_ARRAY [JSMN_STRING; JSMN_PRIMITIVE]) with false. change (JSMN_ARRAY =? JSMN_OBJECT) with false. change (JSMN_ARRAY =? JSMN_ARRAY) with true. cbv iota.
    set (u := T JSMN_ARRAY x _ _ p (tot_ false _)). replace (a ++ u :: itoks false true l (x + 1 + zlen w) (i + 1) i ++ b) with ((a ++ [u]) ++ itoks false true l (x + 1 + zlen w) (i + 1) i ++ b) by (rewrite <- app_assoc; reflexivity).
    rewrite IH by (try rewrite zlen_app; try change (zlen [u]) with 1; lia). cbn [rbind rret fst snd]. rewrite <- app_assoc. cbn [app]. rewrite set_total_eq by reflexivity. reflexivity.
  - intros w l IH [|f] a b x i p F; cbn [vcount] in F; [specialize (CM l); lia|]. cbn [vtoks vcount prepare_total_size app]. rewrite at_app by reflexivity. cbn [rbind rret ty sz].
    change (isin JSMN_OBJECT [JSMN_STRING; JSMN_PRIMITIVE]) with false. change (JSMN_OBJECT =? JSMN_OBJECT) with true. cbv iota.
    set (u := T JSMN_OBJECT x _ _ p (tot_ false _)). replace (a ++ u :: mtoks false true l (x + 1 + zlen w) (i + 1) i ++ b) with ((a ++ [u]) ++ mtoks false true l (x + 1 + zlen w) (i + 1) i ++ b) by (rewrite <- app_assoc; reflexivity).
    rewrite IH by (try rewrite zlen_app; try change (zlen [u]) with 1; lia). cbn [rbind rret fst snd]. rewrite <- app_assoc. cbn [app]. rewrite set_total_eq by reflexivity. reflexivity.
  - intros fuel f a b x i p idx total F L. cbn [ilen itoks icount]. rewrite Z.add_0_r. reflexivity.
  - intros wa v IHv wb l IHl fuel f a b x i p idx total F L. cbn [ilen itoks icount] in *. specialize (CV v). specialize (CI l). specialize (IL l).
    replace (Z.to_nat (1 + ilen l)) with (Datatypes.S (Z.to_nat (ilen l))) by lia. cbn [total_loop]. rewrite L. rewrite <- !app_assoc. rewrite IHv by lia. cbn [rbind rret fst snd].
    rewrite (app_assoc a). rewrite IHl by (try rewrite zlen_app, TV; lia). rewrite <- app_assoc. do 2 f_equal. lia.
  - intros fuel f a b x i p idx total F L. cbn [mlen mtoks mcount]. rewrite Z.add_0_r. reflexivity.
  - intros wa k wb wc v IHv wd l IHl fuel f a b x i p idx total F L. cbn [mlen mtoks mcount] in *. specialize (CV v). specialize (CM l). specialize (ML l).
    replace (Z.to_nat (2 * (1 + mlen l))) with (Datatypes.S (Datatypes.S (Z.to_nat (2 * mlen l)))) by lia. cbn [total_loop app]. rewrite L. destruct fuel as [|fuel]; [lia|]. rewrite total_string by reflexivity. cbn [rbind rret fst snd ty st en sz par].
    set (u := T JSMN_STRING _ _ 1 p (Some 1)). rewrite <- !app_assoc. change (u :: ?q) with ([u] ++ q). rewrite (app_assoc a). replace (idx + (total + 1)) with (zlen (a ++ [u])) by (rewrite zlen_app; change (zlen [u]) with 1; lia).
    rewrite IHv by lia. cbn [rbind rret fst snd]. rewrite (app_assoc (a ++ [u])). rewrite IHl by (try rewrite !zlen_app, TV; try change (zlen [u]) with 1; lia). rewrite <- !app_assoc. do 2 f_equal. lia.
Qed.

(** ** Well-formed texts *)
Lemma skipn_here {A} (a b : list A) : zskip (zlen a) (a ++ b) = b.
Proof. apply zskip_app_len. reflexivity. Qed.
Lemma super_start : super_ok [] (-1).
Proof. split; [unfold zlen; cbn; lia|]. intros a t T0. apply tk_range in T0. unfold zlen in T0. cbn in T0. lia. Qed.
Lemma ok_start x : 0 <= x -> ok (P x (-1) (Some [])).
Proof. intros X. split; [exact X|]. exists []. split; [reflexivity|]. split; [apply good_nil|]. split; [cbn; unfold zlen; cbn; lia|]. intros a t T0. apply tk_range in T0. unfold zlen in T0. cbn in T0. lia. Qed.
Lemma closed_none ts : Forall (fun t => en t <> -1) ts -> existsb is_open ts = false.
Proof. induction 1 as [|t ts H _ IH]; [reflexivity|]. cbn. rewrite IH, orb_false_r. unfold is_open. replace (en t =? -1) with false by lia. apply andb_false_r. Qed.
Lemma parse_value v a b num fuel : json v -> white a -> white b -> let js := a ++ vtext v ++ b in zlen js <= INT_MAX -> vcount v <= num -> zlen js + num < Z.of_nat fuel ->
  exists p, jsmn_parse fuel js true num = rret (vcount v, p) /\ toks p = Some (vtoks false v (zlen a) 0 (-1)).
Proof.
  intros J WA WB js SH N F. pose proof (zlen_nonneg a). pose proof (proj1 counts_pos v) as CV.
  pose proof (white_steps js num a WA 0 (-1) [] 0 (vtext v ++ b) ltac:(lia) (zskip_0 _)) as S1. assert (E1 : zskip (0 + zlen a) js = vtext v ++ b) by (apply skipn_here).
  destruct (proj1 (steps_value js num) v J (0 + zlen a) (-1) [] 0 b E1) as (n & NL & S2).
  - destruct WB as [|c b W _]; [exact I|]. cbn. destruct W as [->|[->|[->| ->]]]; reflexivity.
  - apply ok_start. lia.
  - unfold zlen at 1. cbn. lia.
  - pose proof (zlen_nonneg (vtext v)). assert (E2 : zskip (0 + zlen a + zlen (vtext v)) js = b ++ []) by (rewrite app_nil_r; apply (skip_more js (0 + zlen a)); [lia|exact E1]).
    pose proof (white_steps js num b WB (0 + zlen a + zlen (vtext v)) (-1) (vtoks false v (0 + zlen a) 0 (-1)) (0 + vcount v) [] ltac:(lia) E2) as S3.
    change (add_super (-1) 1 [] ++ vtoks false v (0 + zlen a) (zlen (@nil tok)) (-1)) with (vtoks false v (0 + zlen a) 0 (-1)) in S2.
    pose proof (steps_app _ _ _ _ _ _ _ _ _ _ (steps_app _ _ _ _ _ _ _ _ _ _ S1 S2) S3) as ALL.
    set (k := (List.length a + n + List.length b)%nat) in *. assert (KL : Z.of_nat k <= zlen js) by (unfold k, js, zlen; rewrite !app_length; lia).
    unfold jsmn_parse. fold js. replace (INT_MAX <? zlen js) with false by lia. replace fuel with (k + (fuel - k))%nat by lia.
    change (P 0 (-1) (if true then Some [] else None)) with (P 0 (-1) (Some [])). rewrite (steps_loop _ _ _ _ _ _ _ ALL) by lia.
    destruct (fuel - k)%nat as [|f] eqn:FK; [lia|]. cbn [parse_loop pos].
    assert (E3 : zskip (0 + zlen a + zlen (vtext v) + zlen b) js = []). { apply zskip_all. unfold js. rewrite !zlen_app. lia. }
    rewrite E3. exists (P (0 + zlen a + zlen (vtext v) + zlen b) (-1) (Some (vtoks false v (zlen a) 0 (-1)))). split; [|reflexivity]. change (0 + zlen a) with (zlen a). unfold finish. cbn [toks]. rewrite closed_none; [reflexivity|]. apply (proj1 toks_closed). lia.
Qed.
Lemma count_value v a b fuel : json v -> white a -> white b -> let js := a ++ vtext v ++ b in zlen js <= INT_MAX -> 2 * zlen js + vcount v < Z.of_nat fuel ->
  exists p, jsmn_parse fuel js false 0 = rret (vcount v, p).
Proof.
  intros J WA WB js SH F. pose proof (zlen_nonneg js). pose proof (proj1 counts_pos v) as CV. destruct (parse_value v a b (vcount v) fuel J WA WB SH) as (p & E & TE); [lia|fold js; lia|]. fold js in E.
  unfold jsmn_parse in *. replace (INT_MAX <? zlen js) with false in * by lia.
  destruct (parse_ok js (vcount v) 0 fuel fuel 0 (-1) []) as (r & q & n & p0 & E1 & E2 & R & _); try lia.
  - apply good_nil.
  - apply super_start.
  - change (zlen (@nil tok)) with 0. lia.
  - change (zlen (@nil tok)) with 0 in *. cbv iota in E |- *. rewrite E in E1. injection E1 as <- <-. destruct R as [R _]; [lia|]. rewrite <- R in E2. exists p0. exact E2.
Qed.
