(** Proofs about the command line tools. *)
From Verif Require Import Base BaseFacts Tools.

Lemma beq_spec a b : beq a b = true <-> a = b.
Proof. unfold beq. destruct (list_eq_dec Z.eq_dec a b); split; intros; congruence. Qed.
Lemma convert_first cv t f argv : forall d c r, convert_args cv t f argv d = (c, r) -> Forall (eq f) d -> Forall (eq f) r.
Proof.
  induction argv as [|a argv IH]; intros d c r E F; cbn [convert_args] in E; [congruence|]. destruct (beq a (lit "--test")); [congruence|]. destruct (cv f); [|congruence]. eapply IH; [exact E|]. apply Forall_app. auto.
Qed.
Lemma only_first cv t a argv c r f : main_2xb cv t (a :: argv) = (c, r) -> In f r -> f = a.
Proof. intros E I. unfold main_2xb in E. apply convert_first in E; [|constructor]. rewrite Forall_forall in E. symmetry. auto. Qed.
Lemma exit_code cv t a argv : ~ In (lit "--test") (a :: argv) -> main_2xb cv t (a :: argv) = if cv a then (0, repeat a (List.length (a :: argv))) else (1, []).
Proof.
  intros N. unfold main_2xb. assert (G : forall l d, ~ In (lit "--test") l -> cv a = true -> convert_args cv t a l d = (0, d ++ repeat a (List.length l))).
  { induction l as [|b l IH]; intros d NL C; cbn [convert_args List.length repeat]; [rewrite app_nil_r; reflexivity|]. destruct (beq b (lit "--test")) eqn:B; [exfalso; apply NL; left; apply beq_spec; exact B|]. rewrite C, IH; [rewrite <- app_assoc; reflexivity|intros I; apply NL; right; exact I|exact C]. }
  destruct (cv a) eqn:C; [apply G; auto|]. cbn [convert_args]. destruct (beq a (lit "--test")) eqn:B; [exfalso; apply N; left; apply beq_spec; exact B|]. rewrite C. reflexivity.
Qed.
Lemma pool_room size : 0 < size <= 1431644842 -> exists M, xb2xml_pool_size size = Some M /\ size + 12288 <= M /\ M mod 4096 = 0.
Proof.
  intros B. unfold xb2xml_pool_size, s32. rewrite (Z.mod_small (size + 2147483648)) by lia. replace (size + 2147483648 - 2147483648) with size by lia. replace (size <=? 0) with false by lia.
  rewrite Z.shiftl_mul_pow2, !Z.shiftr_div_pow2 by lia. change (2 ^ 1) with 2. change (2 ^ 12) with 4096. set (q := (size * 3 / 2 + 16384) / 4096). assert (12288 + size <= q * 4096 <= 2147483647) by (subst q; lia). rewrite (Z.mod_small (q * 4096 + 2147483648)) by lia. eexists. split; [reflexivity|]. lia.
Qed.
Lemma pool_none size : xb2xml_pool_size size = None <-> s32 size <= 0.
Proof. unfold xb2xml_pool_size. destruct (Z.leb_spec (s32 size) 0); split; intros; (lia || congruence || discriminate). Qed.
