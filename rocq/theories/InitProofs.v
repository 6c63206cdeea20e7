(** Opening what the converter wrote. *)
From Verif Require Import Base BaseFacts ListFacts Types Sort SortProofs Symtab SymtabSpec SymtabProofs Xb XbSpec XbFacts XbSymProofs XbWrite DocSpec WriteProofs FillProofs.
Open Scope Z_scope.

Tactic Notation "step" hyp(H) ident(E) simple_intropattern(n) :=
  match type of H with obind ?o _ = _ => destruct o as [n| |] eqn:E; [|discriminate H|discriminate H] end; cbn [obind] in H.

Lemma table_frame m m' x e tag t : moves m m' x e -> table_at m x e tag t -> table_at m' x e tag t.
Proof.
  intros M (A & B & C & D & E & F & G & H & I & J & b & K & L & N). pose proof (zlen_nonneg t).
  pose proof (names_mono _ _ _ _ _ _ _ N).
  repeat (split; [first [assumption | (apply M; [assumption|lia|len; lia])]|]). exists b. split; [apply M; [assumption|lia|len; lia]|]. split; [exact L|].
  eapply names_frame; [exact M| | | | | | |exact N]; lia.
Qed.

(** What FillData leaves in the buffer. *)
Definition doc_at fl cr m limit size filename root y1 e1 y2 e2 y3 x : Prop :=
  57 + zlen filename + 1 <= y1 /\ e1 <= y2 /\ e2 <= y3 /\ size <= limit /\
  has m 0 (le 2 XTNR_META_ROOT ++ le 2 4 ++ le 4 3) /\ has m 8 (le 4 size) /\
  has m 12 (le 2 XPNR_FORMAT_VERSION ++ [XBT_INT32]) /\ has m 16 (le 4 256) /\
  has m 20 (le 2 XPNR_NAME ++ [XBT_STRING]) /\ has m 24 (le 4 57) /\ has m 57 (filename ++ [0]) /\
  has m 44 (le 4 y1) /\ has m 48 (le 4 y2) /\ has m 52 (le 4 y3) /\ has m 56 [XBT_NULL] /\
  table_at m y1 e1 XTNR_TAG_SYMBOLS (cr_tags cr) /\ table_at m y2 e2 XTNR_PARAM_SYMBOLS (cr_params cr) /\
  payload_at fl cr m limit y3 x size root.

Definition byte_table (t : table) : Prop := forall n ty, In (n, ty) t -> cstring n /\ 0 <= ty < 256.

Ltac backa := repeat (first [assumption |
  match goal with |- has ?m' _ _ => match goal with X : except ?m m' _ _ _ _ |- _ => eapply has_except; [exact X| |len; lia|len; lia] 
   | X : above ?m m' _ |- _ => eapply above_has; [exact X| |len; lia] end end]).

Ltac wr_step H E X T := apply wr_ok in E; [destruct E as (_ & X & H & T)|].

Lemma payload_frame fl cr m m' limit y x e root : moves m m' y e -> payload_at fl cr m limit y x e root -> payload_at fl cr m' limit y x e root.
Proof.
  intros M (A & B & C & D & E & F & G & H & (id & I & J) & K).
  repeat (split; [first [assumption | (apply M; [assumption|lia|len; lia])]|]). split; [exists id; split; [exact I|apply M; [exact J|lia|len; lia]]|].
  intros S. eapply node_frame; [|apply (K S)]. eapply moves_in; [exact M|lia|lia].
Qed.

Lemma FillData_ok fl cr m filename modified root m' size : byte_table (cr_tags cr) -> byte_table (cr_params cr) -> cstring filename ->
  (forall u, In u (elements root) -> element_fits u) ->
  FillData fl cr m filename modified root = Ok (m', size) ->
  zlen m' = zlen m /\ (bytes m -> bytes m') /\ exists y1 e1 y2 e2 y3 x, doc_at fl cr m' (zlen m) size filename root y1 e1 y2 e2 y3 x.
Proof.
  intros T1 T2 Hf G H. unfold FillData, FillDataOf in H. cbv zeta in H.
  change (12 + 8 * 4) with 44 in H. change (44 + 4 * 3) with 56 in H. change (56 + 1) with 57 in H.
  change (12 + 4) with 16 in H. change (12 + 8) with 20 in H. change (12 + 12) with 24 in H. change (12 + 16) with 28 in H. change (12 + 20) with 32 in H.
  change (12 + 24) with 36 in H. change (12 + 28) with 40 in H. change (44 + 4) with 48 in H. change (44 + 8) with 52 in H.
  pose proof (zlen_nonneg filename) as F0. set (w := align_up 4 (57 + zlen filename + 1)) in *.
  pose proof (align_up_ge 4 (57 + zlen filename + 1) ltac:(lia)) as Wg. fold w in Wg.
  step H E1 m1. step H E2 m2. step H E3 m3. step H E4 m4. step H E5 m5. step H E6 m6. step H E7 m7. step H E8 m8. step H E9 m9. step H E10 m10. step H E11 m11. step H E12 m12.
  step H E13 [[m13 wp13] y1]. step H E14 m14. step H E15 [[m15 wp15] y2]. step H E16 m16. step H E17 [[m17 wp17] y3]. step H E18 m18. step H E19 m19.
  inversion H; subst m' size. clear H.
  assert (Hone : forall b, 0 <= b < 256 -> bytes [b]) by (intros; apply one_byte; assumption).
  assert (Hpd : forall a b, 0 <= b < 256 -> bytes (le 2 a ++ [b])) by (intros; rewrite bytes_app; split; [apply le_bytes|auto]).
  apply wr_ok in E1; [|rewrite !bytes_app; repeat split; apply le_bytes]. destruct E1 as (_ & _ & H1 & X1). specialize (X1 0 8).
  apply wr_ok in E2; [|apply Hone; unfold XBT_NULL; lia]. destruct E2 as (_ & _ & H2 & X2). specialize (X2 56 57).
  apply wr_ok in E3; [|apply Hpd; unfold XBT_INT32; lia]. destruct E3 as (_ & _ & H3 & X3). specialize (X3 12 15).
  apply wr_ok in E4; [|apply le_bytes]. destruct E4 as (_ & _ & H4 & X4). specialize (X4 16 20).
  apply wr_ok in E5; [|apply Hpd; unfold XBT_STRING; lia]. destruct E5 as (_ & _ & H5 & X5). specialize (X5 20 23).
  apply wr_ok in E6; [|apply le_bytes]. destruct E6 as (_ & _ & H6 & X6). specialize (X6 24 28).
  apply wr_ok in E7; [|apply cstr0_bytes; exact Hf]. destruct E7 as (_ & _ & H7 & X7). specialize (X7 57 (57 + zlen (filename ++ [0]))).
  apply wr_ok in E8; [|apply Hpd; unfold XBT_SHA1; lia]. destruct E8 as (_ & _ & H8 & X8). specialize (X8 28 31).
  apply wr_ok in E9; [|apply le_bytes]. destruct E9 as (_ & _ & H9 & X9). specialize (X9 32 36).
  apply wr_ok in E10; [|apply Forall_forall; intros b Hb; apply repeat_spec in Hb; unfold is_byte; lia]. destruct E10 as (_ & _ & H10 & X10). specialize (X10 w (w + 20)).
  apply wr_ok in E11; [|apply Hpd; unfold XBT_UNIX_TIME; lia]. destruct E11 as (_ & _ & H11 & X11). specialize (X11 36 39).
  apply wr_ok in E12; [|apply le_bytes]. destruct E12 as (_ & _ & H12 & X12). specialize (X12 40 44).
  destruct (WriteChildSymbols_ok _ (w + 20) _ _ _ _ _ T1 ltac:(lia) E13) as (Y1 & Y1' & X13 & H13).
  pose proof (align_up_ge 4 (w + 20) ltac:(lia)) as Yg1. rewrite <- Y1 in Yg1. assert (Q1 : y1 + 36 <= wp13) by apply H13.
  apply wr_ok in E14; [|apply le_bytes]. destruct E14 as (_ & _ & H14 & X14). specialize (X14 44 48).
  destruct (WriteChildSymbols_ok _ wp13 _ _ _ _ _ T2 ltac:(lia) E15) as (Y2 & Y2' & X15 & H15).
  pose proof (align_up_ge 4 wp13 ltac:(lia)) as Yg2. rewrite <- Y2 in Yg2. assert (Q2 : y2 + 36 <= wp15) by apply H15.
  apply wr_ok in E16; [|apply le_bytes]. destruct E16 as (_ & _ & H16 & X16). specialize (X16 48 52).
  assert (BT : byte_types (cr_params cr)) by (intros n ty Hin; apply (T2 n ty Hin)).
  destruct (WritePayloadContainer_ok fl cr _ wp15 root _ _ _ BT G ltac:(lia) E17) as (Y3 & Y3' & X17 & x & H17).
  pose proof (align_up_ge 4 wp15 ltac:(lia)) as Yg3. rewrite <- Y3 in Yg3.
  apply wr_ok in E18; [|apply le_bytes]. destruct E18 as (_ & _ & H18 & X18). specialize (X18 52 56).
  apply wr_ok in E19; [|apply le_bytes]. destruct E19 as (_ & _ & H19 & X19). specialize (X19 8 12).
  rewrite ?zlen_app, ?le_zlen in *. change (zlen [XBT_NULL]) with 1 in *. change (zlen [XBT_INT32]) with 1 in *. change (zlen [XBT_STRING]) with 1 in *.
  change (zlen [XBT_SHA1]) with 1 in *. change (zlen [XBT_UNIX_TIME]) with 1 in *. change (zlen [0]) with 1 in *. change (zlen (zrepeat 161 20)) with 20 in *.
  change (Z.of_nat 2) with 2 in *. change (Z.of_nat 4) with 4 in *.
  assert (Lz : zlen m19 = zlen m) by (
    etransitivity; [apply X19|]; etransitivity; [apply X18|]; etransitivity; [apply X17|]; etransitivity; [apply X16|]; etransitivity; [apply X15|]; etransitivity; [apply X14|];
    etransitivity; [apply X13|]; etransitivity; [apply X12|]; etransitivity; [apply X11|]; etransitivity; [apply X10|]; etransitivity; [apply X9|]; etransitivity; [apply X8|];
    etransitivity; [apply X7|]; etransitivity; [apply X6|]; etransitivity; [apply X5|]; etransitivity; [apply X4|]; etransitivity; [apply X3|]; etransitivity; [apply X2|]; apply X1).
  assert (Lm : zlen m16 = zlen m) by (
    etransitivity; [apply X16|]; etransitivity; [apply X15|]; etransitivity; [apply X14|];
    etransitivity; [apply X13|]; etransitivity; [apply X12|]; etransitivity; [apply X11|]; etransitivity; [apply X10|]; etransitivity; [apply X9|]; etransitivity; [apply X8|];
    etransitivity; [apply X7|]; etransitivity; [apply X6|]; etransitivity; [apply X5|]; etransitivity; [apply X4|]; etransitivity; [apply X3|]; etransitivity; [apply X2|]; apply X1).
  split; [exact Lz|]. split.
  { intros Hb. apply X19, X18, X17, X16, X15, X14, X13, X12, X11, X10, X9, X8, X7, X6, X5, X4, X3, X2, X1. exact Hb. }
  exists y1, wp13, y2, wp15, y3, x. unfold doc_at.
  split; [lia|]. split; [lia|]. split; [lia|]. split; [lia|].
  do 11 (split; [backa|]).
  split. { eapply table_frame; [|exact H13]. intros q cs Hq Hl Hh. backa. }
  split. { eapply table_frame; [|exact H15]. intros q cs Hq Hl Hh. backa. }
  rewrite <- Lm. eapply payload_frame; [|exact H17]. intros q cs Hq Hl Hh. backa.
Qed.
