(** The checks of a pool and the name its messages give it. *)
From Verif Require Import Base BaseFacts Types ListFacts Sort Text Symtab PathProofs Xb XbSpec XbFacts XbWrite XbBin WriteProofs Bw BwFacts BwSpec BwHist BwAlloc BwProofs BwSym BwReg BwFile BwFileSpec BwFileProofs BwNamesSpec BwNamesFacts BwNamesInv BwNamesReg BwNamesOps BwNamesTop BwLifeSpec BwLife BwLifeTop BwTitle BwCrash BwCheck.

Lemma id_accepted k s m T P F : life k s m T P F -> check_id m = Ok true.
Proof.
  intro LI. apply life_titled in LI. unfold titled in LI. assert (E : rd_str m 4 = Ok TYPE_INFO).
  { apply type_info_str. apply rd_inv in LI as (A & B & H & _); [|lia]. change (TYPE_INFO ++ zrepeat 0 7) with ((TYPE_INFO ++ [0; 0; 0]) ++ zrepeat 0 4) in H. apply has_app in H as [H _]. exact (has_rd _ _ _ H). }
  unfold check_id. rewrite E. cbn [obind]. destruct (list_eq_dec _ _ _); congruence.
Qed.
Lemma table_checked m t n x L a R : pool m a -> table m t n x L -> spread (regions n x L ++ R) a -> checkTable m t = Ok (match L with [] => true | _ => false end).
Proof.
  intros PO TB SP. pose proof TB as (MX & N & X & _ & _ & _ & _ & _ & _ & IX). unfold checkTable. rewrite MX. cbn [obind]. destruct L as [|e L]; [reflexivity|].
  pose proof (zlen_nonneg L). rewrite zlen_cons. replace (1 + zlen L - 1 <? 0) with false by (symmetry; apply Z.ltb_ge; lia). rewrite X. cbn [obind]. destruct (HEADER <=? x) eqn:C; [|reflexivity]. cbn [negb]. rewrite N. cbn [obind].
  destruct (table_bound _ _ _ _ _ _ _ PO TB SP) as [B _]; [discriminate|]. apply Z.leb_le in C. unfold HEADER in *. destruct IX as [_ IX]; [lia|]. specialize (IX 0%nat e eq_refl). change (off (e :: L) 0) with 0 in IX.
  replace (Z.to_nat (1 + zlen L - 1 + 1)) with (S (Z.to_nat (zlen L))) by lia. cbn [check_entries]. replace (x + 4 * 0) with (x + 4 * Z.of_nat 0) by lia. rewrite IX. cbn [obind]. replace (n + 0) with n by lia.
  destruct (Z.eqb_spec n 0); [lia|]. rewrite Z.leb_refl, Z.ltb_irrefl. reflexivity.
Qed.
Lemma tables_checked k s m T P F : life k s m T P F -> checkTable m TAGS = Ok (match T with [] => true | _ => false end) /\ checkTable m PARAMS = Ok (match P with [] => true | _ => false end).
Proof.
  intro LI. apply life_whole in LI as (B & a & I & _). split.
  - destruct I as (n & x & n' & x' & PO & TB & _ & SP). eapply table_checked; eauto.
  - apply inv_swap in I. destruct I as (n & x & n' & x' & PO & TB & _ & SP). eapply table_checked; eauto.
Qed.
Lemma empty_accepted k s m T P F : life k s m T P F -> (T = [] -> checkTable m TAGS = Ok true) /\ (P = [] -> checkTable m PARAMS = Ok true).
Proof. intro LI. destruct (tables_checked k s m T P F LI) as [A B]. split; intros ->; assumption. Qed.
Lemma others_rejected k s m T P F : life k s m T P F -> (T <> [] -> checkTable m TAGS = Ok false) /\ (P <> [] -> checkTable m PARAMS = Ok false).
Proof. intro LI. destruct (tables_checked k s m T P F LI) as [A B]. split; intro N; [destruct T|destruct P]; congruence. Qed.

Section Root.
Variables (k : Z -> bool) (s : Z -> Z) (m : list Z) (T P : names) (F : forest) (e : Z).
Hypothesis LI : life k s m T P F.
Hypothesis RO : p_root m = Ok e.
Hypothesis IE : In e (members F).

Lemma root_facts : exists a f mx, p_allocator m = Ok a /\ e < a /\ el_flags m e = Ok f /\ is_element f = k e /\ t_max_id m TAGS = Ok mx /\ mx = zlen T - 1.
Proof.
  destruct (life_whole _ _ _ _ _ _ LI) as (B & a & I & EL & _). destruct I as (n & x & n' & x' & PO & TB & _ & SP). destruct (inv_in _ _ _ _ _ _ EL PO IE) as (H1 & H2 & H3).
  destruct EL as (h & b & PL & _). destruct (pl_kind _ _ _ _ _ PL e IE) as (f & Ef & Kf). exists a, f, (zlen T - 1). repeat (split; [first [apply PO|exact Ef|exact Kf|apply TB|lia]|]). reflexivity.
Qed.
Lemma root_named calls fuel pl i nm ty : HEADER < e -> k e = true -> el_id m e = Ok (Z.of_nat i) -> nth_error T i = Some (nm, ty) -> (2 * List.length T < fuel)%nat -> getDocTypeName (S calls) fuel m pl = rret nm.
Proof.
  intros HE KE ID NE FU. destruct root_facts as (a & f & mx & A & EA & FL & IS & MX & ->). cbn [getDocTypeName]. rewrite RO, rbind_ok, A, rbind_ok.
  replace ((HEADER <? e) && (e <? a)) with true by (symmetry; apply andb_true_intro; split; apply Z.ltb_lt; lia). cbn [negb]. rewrite FL, rbind_ok, IS, KE. cbn [negb]. rewrite ID, rbind_ok.
  replace (Z.of_nat i <? 0) with false by (symmetry; apply Z.ltb_ge; lia). rewrite MX, rbind_ok. assert (i < List.length T)%nat by (apply nth_error_Some; congruence). replace (zlen T - 1 <? Z.of_nat i) with false by (symmetry; apply Z.ltb_ge; unfold zlen; lia).
  destruct (life_known _ _ _ _ _ _ LI) as ((_ & KN) & _). destruct (KN fuel FU) as [G _]. destruct (G i nm ty NE) as (_ & GN & _). rewrite GN, rbind_rret. reflexivity.
Qed.
Lemma root_builtin calls fuel pl id : HEADER < e -> k e = true -> el_id m e = Ok id -> id < 0 -> getDocTypeName (S calls) fuel m pl = rret (XTNR2str id).
Proof.
  intros HE KE ID NE. destruct root_facts as (a & f & mx & A & EA & FL & IS & MX & ->). cbn [getDocTypeName]. rewrite RO, rbind_ok, A, rbind_ok.
  replace ((HEADER <? e) && (e <? a)) with true by (symmetry; apply andb_true_intro; split; apply Z.ltb_lt; lia). cbn [negb]. rewrite FL, rbind_ok, IS, KE. cbn [negb]. rewrite ID, rbind_ok.
  replace (id <? 0) with true by (symmetry; apply Z.ltb_lt; lia). reflexivity.
Qed.
Lemma root_endless calls fuel pl id : HEADER < e -> el_id m e = Ok id -> k e = false \/ zlen T <= id -> getDocTypeName calls fuel m pl = None.
Proof.
  intros HE ID C. destruct root_facts as (a & f & mx & A & EA & FL & IS & MX & ->). induction calls as [|calls IH]; [reflexivity|]. cbn [getDocTypeName]. rewrite RO, rbind_ok, A, rbind_ok.
  replace ((HEADER <? e) && (e <? a)) with true by (symmetry; apply andb_true_intro; split; apply Z.ltb_lt; lia). cbn [negb]. rewrite FL, rbind_ok, IS. destruct (k e); cbn [negb]; [|rewrite IH; reflexivity].
  destruct C as [C|C]; [discriminate|]. pose proof (zlen_nonneg T). rewrite ID, rbind_ok. replace (id <? 0) with false by (symmetry; apply Z.ltb_ge; lia). rewrite MX, rbind_ok. replace (zlen T - 1 <? id) with true by (symmetry; apply Z.ltb_lt; lia). rewrite IH. reflexivity.
Qed.
End Root.
Lemma file_named k s m T P F e calls fuel d b : life k s m T P F -> p_root m = Ok e -> e <= HEADER -> ~ In 47 b ->
  getDocTypeName (S calls) fuel m (Some (Some b)) = rret b /\ getDocTypeName (S calls) fuel m (Some (Some (d ++ 47 :: b))) = rret b.
Proof.
  intros LI RO HE NI. destruct (life_whole _ _ _ _ _ _ LI) as (B & a & (n & x & n' & x' & (A & _) & _) & _). cbn [getDocTypeName]. rewrite RO, !rbind_ok, A, !rbind_ok.
  replace (HEADER <? e) with false by (symmetry; apply Z.ltb_ge; lia). cbn [andb negb]. unfold plugin_name, SLASH. rewrite strrchr_none, strrchr_last by exact NI. split; [reflexivity|]. f_equal. f_equal.
  unfold zskip. replace (Z.to_nat (zlen d + 1)) with (List.length (d ++ [47])) by (rewrite app_length; unfold zlen; cbn; lia). change (47 :: b) with ([47] ++ b). rewrite app_assoc. clear. induction (d ++ [47]); [reflexivity|]. cbn. exact IHl.
Qed.
