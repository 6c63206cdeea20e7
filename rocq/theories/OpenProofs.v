(** Opening what the converter wrote: the checks pass and the root is delivered. *)
From Verif Require Import Base BaseFacts ListFacts Types Sort SortProofs Symtab SymtabSpec SymtabProofs Xb XbSpec XbFacts XbSymProofs XbWrite DocSpec JoinProofs WriteProofs FillProofs InitProofs.
Open Scope Z_scope.

Lemma has_take m q cs n : has m q cs -> q + zlen cs <= n -> has (ztake n m) q cs.
Proof.
  intros (a & b & -> & <-) Hn. exists a, (ztake (n - zlen a - zlen cs) b). split; [|reflexivity].
  pose proof (zlen_nonneg a). pose proof (zlen_nonneg cs). rewrite ztake_app_ge by lia. rewrite ztake_app_ge by lia. reflexivity.
Qed.
Lemma take_moves m n : moves m (ztake n m) 0 n.
Proof. intros q cs H _ Hn. apply has_take; assumption. Qed.

Lemma doc_frame fl cr m m' limit size filename root y1 e1 y2 e2 y3 x : moves m m' 0 size ->
  doc_at fl cr m limit size filename root y1 e1 y2 e2 y3 x -> doc_at fl cr m' limit size filename root y1 e1 y2 e2 y3 x.
Proof.
  intros M (A1 & A2 & A3 & A4 & B1 & B2 & B3 & B4 & B5 & B6 & B7 & B8 & B9 & B10 & B11 & T1 & T2 & P).
  assert (Q1 : y1 + 36 <= e1) by apply T1. assert (Q2 : y2 + 36 <= e2) by apply T2. assert (Q3 : y3 + 17 <= x) by apply P. assert (Q4 : x + 12 < size) by apply P. pose proof (zlen_nonneg filename).
  unfold doc_at. repeat (split; [first [assumption | (apply M; [assumption|lia|len; lia])]|]).
  split; [eapply table_frame; [eapply moves_in; [exact M|lia|lia]|exact T1]|].
  split; [eapply table_frame; [eapply moves_in; [exact M|lia|lia]|exact T2]|].
  eapply payload_frame; [eapply moves_in; [exact M|lia|lia]|exact P].
Qed.

Definition name_limits (t : table) : Prop := good t /\ zlen t <= 32768 /\ forall n ty, In (n, ty) t -> cstring n.

(** The code the converter stores for a name is the code the reader gives back the name for. *)
Lemma find_symbol m sy t s id : name_limits t -> table_names m sy (names t) -> (In s (names t) \/ s = lit "et-tecera") -> find_ s t = Ok id ->
  -9 <= id < zlen t /\ getSymbol m sy id = Ok s.
Proof.
  intros (G & L & _) T I F. unfold find_ in F. pose proof (zlen_nonneg t).
  destruct (list_eq_dec Z.eq_dec s (lit "et-tecera")) as [E|E].
  - subst s. rewrite find_et_tecera in F. inversion F; subst id. split; [unfold XTNR_ET_TECERA; lia|reflexivity].
  - destruct I as [I|I]; [|contradiction]. destruct (find_ok s t G E) as (i & Fi & [[Hi Hn]|[_ Hn]]); [|contradiction].
    rewrite Fi in F. inversion F; subst id. split; [lia|]. destruct T as [Tc Tn]. unfold names in Tc, Tn. rewrite zlen_map in Tc, Tn.
    unfold getSymbol. destruct (Z.ltb_spec i 0); [lia|]. rewrite Tc. destruct (Z.leb_spec (zlen t) i); [lia|]. rewrite Tn by lia.
    destruct (nth_names t i Hi) as (n & ty & _ & En & E2). rewrite Hn in E2. inversion E2; subst n. f_equal. apply nth_error_nth. exact En.
Qed.

(** What opening relies on: the header, the two tables, the container of the payload. *)
Definition doc_shell cr m size filename y1 e1 y2 e2 y3 x : Prop :=
  57 + zlen filename + 1 <= size /\ 0 <= y1 /\ e1 <= size /\ 0 <= y2 /\ e2 <= size /\ 0 <= y3 <= size /\ 0 <= x <= size /\
  has m 0 (le 2 XTNR_META_ROOT ++ le 2 4 ++ le 4 3) /\ has m 8 (le 4 size) /\
  has m 12 (le 2 XPNR_FORMAT_VERSION ++ [XBT_INT32]) /\ has m 16 (le 4 256) /\
  has m 20 (le 2 XPNR_NAME ++ [XBT_STRING]) /\ has m 24 (le 4 57) /\ has m 57 (filename ++ [0]) /\
  has m 44 (le 4 y1) /\ has m 48 (le 4 y2) /\ has m 52 (le 4 y3) /\
  table_at m y1 e1 XTNR_TAG_SYMBOLS (cr_tags cr) /\ table_at m y2 e2 XTNR_PARAM_SYMBOLS (cr_params cr) /\
  has m y3 (le 2 XTNR_PAYLOAD ++ le 2 0 ++ le 4 1) /\ has m (y3 + 12) (le 4 (x - y3)).

Section SHELL.
Context (cr : creator) (m : list Z) (size : Z) (filename : list Z) (y1 e1 y2 e2 y3 x : Z).
Context (D : doc_shell cr m size filename y1 e1 y2 e2 y3 x) (Hf : cstring filename) (Hs : size <= zlen m) (Hm : int32 (zlen m)).
Context (N1 : name_limits (cr_tags cr)) (N2 : name_limits (cr_params cr)).

Lemma shell_order : 57 + zlen filename + 1 <= size /\ 0 <= y1 /\ y1 + 36 <= e1 /\ e1 <= size /\ 0 <= y2 /\ y2 + 36 <= e2 /\ e2 <= size /\ 0 <= y3 <= size /\ 0 <= x <= size /\ 0 <= zlen filename /\ size <= zlen m /\ zlen m <= 2147483647.
Proof using D Hs Hm.
  destruct D as (A1 & A2 & A3 & A4 & A5 & A6 & A7 & B1 & B2 & B3 & B4 & B5 & B6 & B7 & B8 & B9 & B10 & T1 & T2 & P).
  assert (Q1 : y1 + 36 <= e1) by apply T1. assert (Q2 : y2 + 36 <= e2) by apply T2. pose proof (zlen_nonneg filename). unfold int32, INT_MIN, INT_MAX in Hm. lia.
Qed.

Lemma shell_head : it_name m 0 = Ok XTNR_META_ROOT /\ it_paramcount m 0 = Ok 4 /\ it_childcount m 0 = Ok 3 /\ it_length m 0 = Ok size.
Proof using D Hs Hm.
  pose proof shell_order as O. destruct D as (_ & _ & _ & _ & _ & _ & _ & B1 & B2 & _). apply head_split in B1. destruct B1 as (A & B & C).
  repeat split; unfold it_name, it_paramcount, it_childcount, it_length; [apply has_s16|apply has_s16|apply has_s32|apply has_s32]; try assumption; unfold int32, INT_MIN, INT_MAX, XTNR_META_ROOT; lia.
Qed.

Lemma shell_check k R r : 0 <= ct_tags R -> 0 <= ct_params R -> Check (S k) m R (Some 0) r = rret true.
Proof using D Hf Hs Hm.
  intros R1 R2. pose proof shell_order as O. destruct shell_head as (A & B & C & L). destruct D as (_ & _ & _ & _ & _ & _ & _ & _ & _ & B3 & B4 & B5 & B6 & B7 & _).
  apply rec_split in B3. apply rec_split in B5. destruct B3 as [C1 C2]. destruct B5 as [C3 C4].
  assert (P1 : pd_name m 12 = Ok XPNR_FORMAT_VERSION) by (apply has_s16; [unfold XPNR_FORMAT_VERSION; lia|exact C1]).
  assert (P2 : pd_type m 12 = Ok XBT_INT32) by (apply has_u8; [unfold XBT_INT32; lia|exact C2]).
  assert (P3 : pd_data m 12 = Ok 256) by (apply has_s32; [unfold int32, INT_MIN, INT_MAX; lia|exact B4]).
  assert (P4 : pd_name m 20 = Ok XPNR_NAME) by (apply has_s16; [unfold XPNR_NAME; lia|exact C3]).
  assert (P5 : pd_type m 20 = Ok XBT_STRING) by (apply has_u8; [unfold XBT_STRING; lia|exact C4]).
  assert (P6 : pd_data m 20 = Ok 57) by (apply has_s32; [unfold int32, INT_MIN, INT_MAX; lia|exact B6]).
  cbn [Check]. change (0 <? 0) with false. cbv iota. destruct (Z.ltb_spec (zlen m) (0 + 12)); [lia|].
  rewrite L. change (Some (Ok size)) with (rret size). rb. destruct (Z.ltb_spec (zlen m) (0 + size)); [lia|]. change (align_up 4 0 =? 0) with true. cbn [negb].
  rewrite A. change (Some (Ok XTNR_META_ROOT)) with (rret XTNR_META_ROOT). rb. change (XTNR_META_ROOT <=? XTNR_LAST) with false.
  destruct (Z.leb_spec (ct_tags R) XTNR_META_ROOT); [unfold XTNR_META_ROOT in *; lia|]. cbn [orb].
  rewrite B. change (Some (Ok 4)) with (rret 4). rb. rewrite C. change (Some (Ok 3)) with (rret 3). rb.
  assert (E : (u32 size <? u64 (12 + 8 * 4 + 4 * 3)) = false) by (unfold u32, u64; lia). rewrite E.
  change (Z.to_nat 4) with 4%nat. cbn [check_params]. change (0 + 12) with 12. rewrite P1, P2, P3. cbn [obind].
  destruct (Z.leb_spec (ct_params R) XPNR_FORMAT_VERSION); [unfold XPNR_FORMAT_VERSION in *; lia|]. change (XPNR_FORMAT_VERSION <=? XPNR_LAST) with false. change (XBT_LAST <=? XBT_INT32) with false. cbn [orb].
  change (isin XBT_INT32 [XBT_NULL; XBT_INT32; XBT_FLOAT; XBT_UNIX_TIME; XBT_IPv4]) with true. cbv iota. change (12 + 8) with 20. rewrite P4, P5, P6. cbn [obind].
  destruct (Z.leb_spec (ct_params R) XPNR_NAME); [unfold XPNR_NAME in *; lia|]. change (XPNR_NAME <=? XPNR_LAST) with false. change (XBT_LAST <=? XBT_STRING) with false. cbn [orb].
  change (isin XBT_STRING [XBT_NULL; XBT_INT32; XBT_FLOAT; XBT_UNIX_TIME; XBT_IPv4]) with false. cbv iota. change (57 <? 0) with false.
  destruct (Z.leb_spec size 57); [lia|]. cbn [orb]. change (XBT_STRING =? XBT_STRING) with true. cbv iota. change (0 + 57) with 57.
  rewrite (strnlen_has m 57 filename size Hf B7) by lia. cbn [obind]. destruct (Z.ltb_spec (zlen filename) (size - 57)); [|lia]. reflexivity.
Qed.

Lemma shell_tables : table_at m y1 e1 XTNR_TAG_SYMBOLS (cr_tags cr) /\ table_at m y2 e2 XTNR_PARAM_SYMBOLS (cr_params cr) /\
  rd_s32 m 44 = Ok y1 /\ rd_s32 m 48 = Ok y2 /\ rd_s32 m 52 = Ok y3.
Proof using D Hs Hm.
  pose proof shell_order as O. destruct D as (A1 & A2 & A3 & A4 & A5 & A6 & A7 & B1 & B2 & B3 & B4 & B5 & B6 & B7 & B8 & B9 & B10 & T1 & T2 & P).
  split; [exact T1|]. split; [exact T2|]. repeat split; apply has_s32; try assumption; unfold int32, INT_MIN, INT_MAX; lia.
Qed.

Lemma shell_payload : it_name m y3 = Ok XTNR_PAYLOAD /\ it_paramcount m y3 = Ok 0 /\ it_childcount m y3 = Ok 1 /\ rd_s32 m (y3 + 12) = Ok (x - y3).
Proof using D Hs Hm.
  pose proof shell_order as O. destruct D as (_ & _ & _ & _ & _ & _ & _ & _ & _ & _ & _ & _ & _ & _ & _ & _ & _ & _ & _ & P5 & P6). apply head_split in P5. destruct P5 as (A & B & C).
  repeat split; unfold it_name, it_paramcount, it_childcount, it_length; [apply has_s16|apply has_s16|apply has_s32|apply has_s32]; try assumption; unfold int32, INT_MIN, INT_MAX, XTNR_PAYLOAD; lia.
Qed.

Lemma shell_child code : getChildByName m (Some 0) code =
  Ok (if XTNR_TAG_SYMBOLS =? code then Some y1 else if XTNR_PARAM_SYMBOLS =? code then Some y2 else if XTNR_PAYLOAD =? code then Some y3 else None).
Proof using D Hs Hm.
  destruct shell_head as (A & B & C & L). destruct shell_tables as (T1 & T2 & R1 & R2 & R3). destruct shell_payload as (P1 & _).
  destruct (table_head _ _ _ _ _ T1 ltac:(unfold XTNR_TAG_SYMBOLS; lia)) as (U1 & _). destruct (table_head _ _ _ _ _ T2 ltac:(unfold XTNR_PARAM_SYMBOLS; lia)) as (U2 & _).
  unfold getChildByName, children_pos. rewrite B, C. cbn [obind]. change (0 + 12 + 8 * 4) with 44. change (Z.to_nat 3) with 3%nat. cbn [find_child].
  change (44 + 4 + 4) with 52. change (44 + 4) with 48. change (0 + y1) with y1. rewrite R1. cbn [obind]. change (0 + y1) with y1. rewrite U1. cbn [obind]. destruct (XTNR_TAG_SYMBOLS =? code); [reflexivity|].
  rewrite R2. cbn [obind]. change (0 + y2) with y2. rewrite U2. cbn [obind]. destruct (XTNR_PARAM_SYMBOLS =? code); [reflexivity|].
  rewrite R3. cbn [obind]. change (0 + y3) with y3. rewrite P1. cbn [obind]. destruct (XTNR_PAYLOAD =? code); reflexivity.
Qed.

Lemma Initialize_shell k : exists R, Initialize (S k) m = rret R /\ rd_root R = Some x /\
  table_names m (rd_tags R) (names (cr_tags cr)) /\ table_names m (rd_params R) (names (cr_params cr)).
Proof using D Hf Hs Hm N1 N2.
  pose proof shell_order as O. destruct shell_head as (A & B & C & L). destruct shell_tables as (T1 & T2 & R1 & R2 & R3). destruct shell_payload as (P1 & P2 & P3 & P4).
  destruct N1 as (G1 & L1 & S1). destruct N2 as (G2 & L2 & S2).
  destruct (table_load m y1 e1 XTNR_TAG_SYMBOLS _ T1 L1 S1 ltac:(unfold XTNR_TAG_SYMBOLS; lia) ltac:(lia) Hm) as (tags & Q1 & Q2).
  destruct (table_load m y2 e2 XTNR_PARAM_SYMBOLS _ T2 L2 S2 ltac:(unfold XTNR_PARAM_SYMBOLS; lia) ltac:(lia) Hm) as (params & Q3 & Q4).
  assert (C1 : 0 <= sy_count tags) by (destruct Q2 as [-> _]; apply zlen_nonneg). assert (C2 : 0 <= sy_count params) by (destruct Q4 as [-> _]; apply zlen_nonneg).
  exists (mkreader tags params (Some x)). split; [|auto].
  unfold Initialize. destruct (Z.leb_spec (zlen m) 12); [lia|]. rewrite A. change (Some (Ok XTNR_META_ROOT)) with (rret XTNR_META_ROOT). rb.
  change (negb (XTNR_META_ROOT =? XTNR_META_ROOT)) with false. cbv iota. rewrite shell_check by (cbn; lia). unfold verdict at 1. rb.
  rewrite shell_child. change (XTNR_TAG_SYMBOLS =? XTNR_TAG_SYMBOLS) with true. cbv iota. change (Some (Ok (Some y1))) with (rret (Some y1)). rb.
  rewrite (table_check m y1 e1 _ _ _ _ T1 L1) by (first [exact Hm | cbn; unfold XTNR_TAG_SYMBOLS; lia]). unfold verdict at 1. rb.
  rewrite Q1. change (Some (Ok tags)) with (rret tags). rb. rewrite shell_child. change (XTNR_TAG_SYMBOLS =? XTNR_PARAM_SYMBOLS) with false. change (XTNR_PARAM_SYMBOLS =? XTNR_PARAM_SYMBOLS) with true. cbv iota.
  change (Some (Ok (Some y2))) with (rret (Some y2)). rb.
  rewrite (table_check m y2 e2 _ _ _ _ T2 L2) by (first [exact Hm | cbn; unfold XTNR_PARAM_SYMBOLS; lia]). unfold verdict at 1. rb.
  rewrite Q3. change (Some (Ok params)) with (rret params). rb. rewrite shell_check by (cbn; lia). unfold verdict at 1. rb.
  rewrite shell_child. change (XTNR_TAG_SYMBOLS =? XTNR_PAYLOAD) with false. change (XTNR_PARAM_SYMBOLS =? XTNR_PAYLOAD) with false. change (XTNR_PAYLOAD =? XTNR_PAYLOAD) with true. cbv iota.
  change (Some (Ok (Some y3))) with (rret (Some y3)). rb. unfold getChildByIndex, children_pos. rewrite P2, P3. cbn [obind]. change ((0 <? 0) || (1 <=? 0)) with false. cbv iota.
  replace (y3 + 12 + 8 * 0 + 4 * 0) with (y3 + 12) by lia. rewrite P4. cbn [obind]. replace (y3 + (x - y3)) with x by lia. reflexivity.
Qed.

End SHELL.

Section OPEN.
Context (fl : floats) (cr : creator) (m : list Z) (limit size : Z) (filename : list Z) (root : node) (y1 e1 y2 e2 y3 x : Z).
Context (D : doc_at fl cr m limit size filename root y1 e1 y2 e2 y3 x) (Hf : cstring filename) (Hs : size <= zlen m) (Hm : int32 (zlen m)).
Context (N1 : name_limits (cr_tags cr)) (N2 : name_limits (cr_params cr)).

Lemma doc_order : 58 <= y1 /\ y1 + 36 <= e1 /\ e1 <= y2 /\ y2 + 36 <= e2 /\ e2 <= y3 /\ y3 + 17 <= x /\ x + 12 < size /\ size <= zlen m /\ zlen m <= 2147483647 /\ 57 + zlen filename + 1 <= y1.
Proof using D Hs Hm.
  destruct D as (A1 & A2 & A3 & A4 & B1 & B2 & B3 & B4 & B5 & B6 & B7 & B8 & B9 & B10 & B11 & T1 & T2 & P).
  assert (Q1 : y1 + 36 <= e1) by apply T1. assert (Q2 : y2 + 36 <= e2) by apply T2. assert (Q3 : y3 + 17 <= x) by apply P. assert (Q4 : x + 12 < size) by apply P. pose proof (zlen_nonneg filename). unfold int32, INT_MIN, INT_MAX in Hm. lia.
Qed.

Lemma doc_shelled : doc_shell cr m size filename y1 e1 y2 e2 y3 x.
Proof using D Hs Hm.
  pose proof doc_order as O. destruct D as (A1 & A2 & A3 & A4 & B1 & B2 & B3 & B4 & B5 & B6 & B7 & B8 & B9 & B10 & B11 & T1 & T2 & P).
  destruct P as (P1 & P2 & P3 & P4 & P5 & P6 & _). pose proof (zlen_nonneg filename). unfold doc_shell. repeat (split; [first [assumption|lia]|]). assumption.
Qed.
Lemma doc_head : it_name m 0 = Ok XTNR_META_ROOT /\ it_paramcount m 0 = Ok 4 /\ it_childcount m 0 = Ok 3 /\ it_length m 0 = Ok size.
Proof using D Hs Hm. eapply shell_head; [apply doc_shelled|exact Hs|exact Hm]. Qed.
Lemma Initialize_doc k : exists R, Initialize (S k) m = rret R /\ rd_root R = Some x /\
  table_names m (rd_tags R) (names (cr_tags cr)) /\ table_names m (rd_params R) (names (cr_params cr)).
Proof using D Hf Hs Hm N1 N2. eapply Initialize_shell; [apply doc_shelled|exact Hf|exact Hs|exact Hm|exact N1|exact N2]. Qed.

End OPEN.

(** ** The tables of a document *)
Lemma flat_map_app {A B} (f : A -> list B) l1 l2 : flat_map f (l1 ++ l2) = flat_map f l1 ++ flat_map f l2.
Proof. induction l1 as [|a l IH]; [reflexivity|]. cbn [flat_map app]. rewrite IH, app_assoc. reflexivity. Qed.
Lemma tag_uses_elements t : tag_uses t = map (fun u => (name_of u, match value_of u with Some v => v | None => [] end)) (elements t).
Proof.
  induction t as [n v a k IH] using node_ind'. cbn [tag_uses elements map name_of value_of]. f_equal.
  induction IH as [|t k Ht _ IHk]; [reflexivity|]. cbn [flat_map]. rewrite map_app, Ht, IHk. reflexivity.
Qed.
Lemma attr_uses_elements t : attr_uses t = flat_map attrs_of (elements t).
Proof.
  induction t as [n v a k IH] using node_ind'. cbn [attr_uses elements flat_map attrs_of]. f_equal.
  induction IH as [|t k Ht _ IHk]; [reflexivity|]. cbn [flat_map]. rewrite flat_map_app, Ht, IHk. reflexivity.
Qed.

Lemma column_byte values : 0 <= column_type values < 256.
Proof.
  destruct values as [|v l]; [vm_compute; split; congruence|]. cbn [column_type].
  assert (H : forall l e, 0 <= e < 256 -> 0 <= fold_left (fun ty v => XBT_Detect2 v ty) l e < 256).
  { clear. induction l as [|v l IH]; intros e He; [exact He|]. cbn [fold_left]. apply IH, detect2_byte, He. }
  apply H. pose proof (detect_type v). lia.
Qed.
Lemma column_no_hex values : (forall v, In v values -> XBT_Detect v <> XBT_HEX) -> column_type values <> XBT_HEX.
Proof.
  destruct values as [|v l]; [intros _; discriminate|]. cbn [column_type]. intros Hv.
  assert (H : forall l e, (forall v, In v l -> XBT_Detect v <> XBT_HEX) -> e <> XBT_HEX -> fold_left (fun ty v => XBT_Detect2 v ty) l e <> XBT_HEX).
  { clear. induction l as [|v l IH]; intros e Hl He; [exact He|]. cbn [fold_left]. apply IH; [intros w Hw; apply Hl; right; exact Hw|].
    unfold XBT_Detect2. destruct (e =? XBT_VARIANT); [exact He|]. intros E. apply join_hex in E. destruct E as [E|E]; [|contradiction]. apply (Hl v); [left; reflexivity|exact E]. }
  apply H; [intros w Hw; apply Hv; right; exact Hw|apply Hv; left; reflexivity].
Qed.

Lemma register_table l t : register [] l = rret t -> different (map fst l) <= 32768 -> (forall n v, In (n, v) l -> cstring n) ->
  name_limits t /\ byte_table t /\ (forall n, In n (map fst l) -> In n (names t)) /\
  ((forall n v, In (n, v) l -> XBT_Detect v <> XBT_HEX) -> types_ok t).
Proof.
  intros H Hd Hc. apply register_holds in H. destruct H as (G & L & S & C). unfold MAX_SYMBOL_COUNT in *. specialize (C Hd).
  assert (Cs : forall n ty, In (n, ty) t -> cstring n).
  { intros n ty Hi. apply S in Hi. apply in_map_iff in Hi. destruct Hi as ((n' & v) & <- & Hi). eapply Hc, Hi. }
  assert (Ty : forall n ty, In (n, ty) t -> ty = column_type (values_of n l)).
  { intros n ty Hi. eapply good_unique; [exact G|exact Hi|]. apply C, (S _ _ Hi). }
  split; [split; [exact G|split; [exact L|exact Cs]]|]. split; [intros n ty Hi; split; [eapply Cs, Hi|rewrite (Ty _ _ Hi); apply column_byte]|].
  split; [intros n Hn; apply in_map_iff; exists (n, column_type (values_of n l)); split; [reflexivity|apply C, Hn]|].
  intros Hh n ty Hi. rewrite (Ty _ _ Hi). split; [apply column_byte|]. apply column_no_hex. intros v Hv. unfold values_of in Hv.
  apply in_map_iff in Hv. destruct Hv as ((n' & v') & <- & Hv). apply filter_In in Hv. apply (Hh n' v'), (proj1 Hv).
Qed.

Definition made (root : node) (cr : creator) : Prop :=
  name_limits (cr_tags cr) /\ name_limits (cr_params cr) /\ byte_table (cr_tags cr) /\ byte_table (cr_params cr) /\
  (forall u, In u (elements root) -> In (name_of u) (names (cr_tags cr)) /\ forall n v, In (n, v) (attrs_of u) -> In n (names (cr_params cr))) /\
  ((forall u, In u (elements root) -> no_hex_attr u) -> types_ok (cr_params cr)) /\
  (forall n ty, In (n, ty) (cr_params cr) -> ty = column_type (values_of n (flat_map attrs_of (elements root)))).

Lemma MakeSymbolTable_ok root : document_fits root -> exists cr, MakeSymbolTable root = rret cr /\ made root cr.
Proof.
  intros (F & D1 & D2). unfold MakeSymbolTable.
  destruct (register_ok (tag_uses root)) as (t1 & E1 & _). destruct (register_ok (attr_uses root)) as (t2 & E2 & _). rewrite E1, E2. rb. exists (mkcreator t1 t2). split; [reflexivity|].
  assert (D1' : different (map fst (tag_uses root)) <= 32768) by (rewrite tag_uses_elements, map_map; exact D1).
  assert (D2' : different (map fst (attr_uses root)) <= 32768) by (rewrite attr_uses_elements; exact D2).
  destruct (register_table _ _ E1 D1') as (A1 & A2 & A3 & _).
  { intros n v Hi. rewrite tag_uses_elements in Hi. apply in_map_iff in Hi. destruct Hi as (u & Eu & Hu). inversion Eu; subst. exact (proj1 (F u Hu)). }
  destruct (register_table _ _ E2 D2') as (B1 & B2 & B3 & B4).
  { intros n v Hi. rewrite attr_uses_elements in Hi. apply in_flat_map in Hi. destruct Hi as (u & Hu & Hi). destruct (F u Hu) as (_ & _ & Fa & _). exact (proj1 (Fa n v Hi)). }
  unfold made. cbn [cr_tags cr_params]. split; [exact A1|]. split; [exact B1|]. split; [exact A2|]. split; [exact B2|]. split; [|split].
  - intros u Hu. split; [apply A3; rewrite tag_uses_elements, map_map; apply (in_map name_of _ _ Hu)|].
    intros n v Hi. apply B3. rewrite attr_uses_elements. apply in_map_iff. exists (n, v). split; [reflexivity|]. apply in_flat_map. exists u. auto.
  - intros Hh. apply B4. intros n v Hi. rewrite attr_uses_elements in Hi. apply in_flat_map in Hi. destruct Hi as (u & Hu & Hi). apply (Hh u Hu n v Hi).
  - intros n ty Hi. apply register_holds in E2. destruct E2 as (G & _ & S & C). specialize (C D2'). rewrite <- attr_uses_elements. eapply good_unique; [exact G|exact Hi|]. apply C, (S _ _ Hi).
Qed.

(** ** The image *)
Lemma Make_xb_tables fl m filename modified root img : document_fits root -> cstring filename -> Make_xb fl m filename modified root = rret img ->
  exists cr size y1 e1 y2 e2 y3 x, made root cr /\ doc_at fl cr img (zlen m) size filename root y1 e1 y2 e2 y3 x /\ size <= zlen img <= zlen m /\ zlen img mod 4 = 0 /\ (bytes m -> bytes img) /\
    zlen img = align_up 4 size /\ MakeSymbolTable root = rret cr.
Proof.
  intros F Hf H. destruct (MakeSymbolTable_ok root F) as (cr & E & M). unfold Make_xb in H. rewrite E in H. rewrite rbind_ret in H.
  destruct (FillData fl cr m filename modified root) as [[m' size]| |] eqn:EF; [|discriminate H|discriminate H].
  destruct M as (A1 & A2 & A3 & A4 & A5 & A6). destruct (FillData_ok fl cr m filename modified root m' size A3 A4 Hf (proj1 F) EF) as (L & B & y1 & e1 & y2 & e2 & y3 & x & D).
  change (Some (Ok (m', size))) with (rret (m', size)) in H. rewrite rbind_ret in H. cbv zeta in H. destruct (Z.ltb_spec (zlen m') (align_up 4 size)); [discriminate H|]. inversion H; subst img. clear H.
  assert (0 <= size) by (assert (Q : size <= zlen m /\ 57 + zlen filename + 1 <= y1 /\ y1 + 36 <= e1 /\ e1 <= y2 /\ y2 + 36 <= e2 /\ e2 <= y3 /\ y3 + 17 <= x /\ x + 12 < size) by (repeat split; apply D); pose proof (zlen_nonneg filename); lia).
  pose proof (align_up_ge 4 size ltac:(lia)) as Sg.
  exists cr, size, y1, e1, y2, e2, y3, x. split; [unfold made; tauto|].
  split; [eapply doc_frame; [|exact D]; eapply moves_in; [apply (take_moves m' (align_up 4 size))|lia|lia]|].
  rewrite zlen_take by lia. rewrite Z.min_l by lia. split; [lia|]. split; [apply align_up_mod; lia|]. split; [intros Hb; apply bytes_take, B, Hb|]. split; [reflexivity|exact E].
Qed.
Lemma Make_xb_doc fl m filename modified root img : document_fits root -> cstring filename -> Make_xb fl m filename modified root = rret img ->
  exists cr size y1 e1 y2 e2 y3 x, made root cr /\ doc_at fl cr img (zlen m) size filename root y1 e1 y2 e2 y3 x /\ size <= zlen img <= zlen m /\ zlen img mod 4 = 0 /\ (bytes m -> bytes img).
Proof.
  intros F Hf H. destruct (Make_xb_tables _ _ _ _ _ _ F Hf H) as (cr & size & y1 & e1 & y2 & e2 & y3 & x & A & B & C & D & E & _). exists cr, size, y1, e1, y2, e2, y3, x. auto.
Qed.

Lemma opens fl m filename modified root img k : document_fits root -> cstring filename -> zlen m <= INT_MAX ->
  Make_xb fl m filename modified root = rret img ->
  exists R x nm, Initialize (S k) img = rret R /\ rd_root R = Some x /\ it_name img x = Ok nm /\ getSymbol img (rd_tags R) nm = Ok (name_of root).
Proof.
  intros F Hf Hm H. destruct (Make_xb_doc _ _ _ _ _ _ F Hf H) as (cr & size & y1 & e1 & y2 & e2 & y3 & x & M & D & L & _).
  destruct M as (A1 & A2 & A3 & A4 & A5 & _). assert (Hi : int32 (zlen img)) by (pose proof (zlen_nonneg img); unfold int32, INT_MIN, INT_MAX in *; lia).
  destruct (Initialize_doc fl cr img (zlen m) size filename root y1 e1 y2 e2 y3 x D Hf ltac:(lia) Hi A1 A2 k) as (R & E & Ex & T1 & T2).
  assert (P : payload_at fl cr img (zlen m) y3 x size root) by apply D. destruct P as (_ & _ & _ & _ & _ & _ & _ & _ & (id & Fi & Hid) & _).
  assert (In (name_of root) (names (cr_tags cr))) by (apply A5; destruct root; left; reflexivity).
  destruct (find_symbol img (rd_tags R) _ _ id A1 T1 (or_introl H0) Fi) as (I1 & I2).
  exists R, x, id. split; [exact E|]. split; [exact Ex|]. split; [|exact I2]. apply has_s16; [|exact Hid]. destruct A1 as (_ & ? & _). lia.
Qed.
