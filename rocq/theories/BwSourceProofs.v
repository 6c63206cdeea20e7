(** What the converter sees of a pool. *)
From Verif Require Import Base BaseFacts Types ListFacts Sort Symtab Xb XbSpec XbFacts XbWrite WriteProofs XbBin BinFill BinSpec Bw BwFacts BwRing BwSpec BwHist BwAlloc BwProofs BwRead BwTop BwSym BwReg BwFileSpec BwFileProofs BwNamesSpec BwNamesFacts BwNamesInv BwNamesReg BwNamesOps BwNamesIndex BwNamesProofs BwLifeSpec BwLife BwSet BwAttrProofs BwSource BwSourceSpec.

(** ** Names *)
Lemma name_at b m t u L K B a i nm ty : BwNamesInv.inv m t u L K B a -> t_index m t <> Ok 0 -> nth_error L i = Some (nm, ty) -> name_of b t m (Z.of_nat i) = Ok (Some nm).
Proof.
  intros (n & x & n2 & x2 & PO & TB & _ & SP) IX NI. pose proof TB as (MX & N & X & FL & L1 & G & ND & N4 & H & XX). assert (IL : (i < List.length L)%nat) by (apply nth_error_Some; congruence).
  assert (TY : 0 <= ty < 256) by (apply (proj1 (Forall_forall _ _) G (nm, ty)); eapply nth_error_In; eauto). rewrite X in IX. assert (X0 : x <> 0) by congruence. destruct (XX X0) as [NE II]. specialize (II i _ NI).
  destruct (table_bound _ _ _ _ _ _ _ PO TB SP NE) as [N1 N2]. unfold name_of. rewrite X. cbn [obind]. destruct (Z.eqb_spec x 0); [congruence|]. replace (Z.of_nat i <? 0) with false by lia. rewrite MX. cbn [obind]. replace (zlen L - 1 <? Z.of_nat i) with false by (unfold zlen; lia). rewrite II. cbn [obind].
  assert (O0 : 0 <= off L i) by (unfold off; apply zlen_nonneg). unfold HEADER in *. destruct (Z.eqb_spec (n + off L i) 0); [lia|]. pose proof (stored_at m n L i (nm, ty) (H NE) NI) as HE. cbn [fst snd] in HE. destruct (proj1 (Forall_forall _ _) G _ (nth_error_In _ _ NI)) as [PS _]. apply has_entry in HE as (_ & _ & _ & _ & RS); [rewrite RS; reflexivity|unfold zlen in *; lia|exact TY|apply PS].
Qed.
Lemma symbols_ok (gn : Z -> outcome (option (list Z))) gt (L : names) : (forall i n ty, nth_error L i = Some (n, ty) -> gn (Z.of_nat i) = Ok (Some n) /\ gt (Z.of_nat i) = Ok ty) ->
  forall suf pre, L = pre ++ suf -> symbols_from (List.length suf) gn gt (zlen pre) = Ok suf.
Proof.
  intros H. induction suf as [|[n ty] suf IH]; intros pre E; [reflexivity|]. cbn [List.length symbols_from]. destruct (H (List.length pre) n ty) as [HN HT]; [rewrite E, nth_error_app2, Nat.sub_diag by lia; reflexivity|]. fold (zlen pre) in HN, HT. rewrite HT, HN. cbn [obind].
  specialize (IH (pre ++ [(n, ty)])). rewrite zlen_app in IH. change (zlen [(n, ty)]) with 1 in IH. rewrite IH by (rewrite <- app_assoc; exact E). reflexivity.
Qed.
Lemma tags_read m T P B a : BwNamesInv.inv m TAGS PARAMS T P B a -> (T <> [] -> t_index m TAGS <> Ok 0) -> pool_tags m = Ok T.
Proof.
  intros I IX. pose proof I as (n & x & n2 & x2 & PO & (MX & _) & _). unfold pool_tags. rewrite MX. cbn [obind]. replace (zlen T - 1 + 1) with (zlen T) by lia. unfold zlen. rewrite Nat2Z.id. change 0 with (zlen (@nil (list Z * Z))). apply (symbols_ok _ _ T); [|reflexivity].
  intros i nm ty E. assert (NE : T <> []) by (intros ->; destruct i; discriminate). split; [apply (name_at _ _ _ _ _ _ _ _ _ _ ty I); auto|apply (tag_type _ _ _ _ _ _ nm _ I); auto].
Qed.
Lemma params_read m T P B a : BwNamesInv.inv m TAGS PARAMS T P B a -> (P <> [] -> t_index m PARAMS <> Ok 0) -> pool_params m = Ok P.
Proof.
  intros I IX. pose proof I as (n & x & n2 & x2 & PO & _ & (MX & _) & _). unfold pool_params. rewrite MX. cbn [obind]. replace (zlen P - 1 + 1) with (zlen P) by lia. unfold zlen. rewrite Nat2Z.id. change 0 with (zlen (@nil (list Z * Z))). apply (symbols_ok _ _ P); [|reflexivity].
  intros i nm ty E. assert (NE : P <> []) by (intros ->; destruct i; discriminate). split; [apply (name_at _ _ _ _ _ _ _ _ _ _ ty (inv_swap _ _ _ _ _ _ _ I)); auto|apply (param_type _ _ _ _ _ _ nm _ I); auto].
Qed.

(** ** Lists *)
Lemma visit_ok follow m p fd L : lists m p fd L -> (forall e, In e L -> follow e = Ok e) -> forall l2 l1 e fuel, L = l1 ++ e :: l2 -> (List.length l2 < fuel)%nat -> visit fuel follow m fd e = rret (e :: l2).
Proof.
  intros (SO & SC & ND & NX) HF. induction l2 as [|y l2 IH]; intros l1 e fuel E FU; (destruct fuel as [|fuel]; [cbn in FU; lia|]); cbn [visit]; destruct (NX l1 e _ E) as [_ EN]; cbn [hd] in EN; rewrite EN, rbind_ok, SC, rbind_ok.
  - rewrite Z.eqb_refl. reflexivity.
  - assert (E' : L = (l1 ++ [e]) ++ y :: l2) by (rewrite <- app_assoc; exact E).
    assert (NF : y <> hd 0 L). { rewrite E. rewrite E in ND. destruct l1 as [|z l1]; cbn [app hd]; cbn [app] in ND; inversion ND as [|? ? N1 N2]; subst; intros ->; apply N1; [left; reflexivity|]. apply in_or_app. right. right. left. reflexivity. }
    destruct (Z.eqb_spec y (hd 0 L)); [congruence|]. rewrite HF, rbind_ok by (rewrite E'; apply in_or_app; right; left; reflexivity). rewrite (IH (l1 ++ [e]) y fuel E') by (cbn in FU; lia). reflexivity.
Qed.
Lemma for_all_ok follow m p fd L fuel : lists m p fd L -> (forall e, In e L -> follow e = Ok e /\ plugin_bwe m e = Ok e) -> (List.length L <= fuel)%nat -> for_all fuel follow m fd = rret L.
Proof.
  intros SH HF FU. pose proof SH as (SO & SC & ND & NX). unfold for_all. rewrite SC, rbind_ok. destruct L as [|e l]; [reflexivity|]. cbn [hd]. destruct (NX [] e l eq_refl) as [E0 _]. replace (e =? 0) with false by lia. rewrite (proj2 (HF e (or_introl eq_refl))), rbind_ok.
  apply (visit_ok follow m p fd (e :: l) SH ltac:(intros; apply HF; assumption) l [] e fuel eq_refl). cbn in FU. lia.
Qed.
Lemma inv_list k s m F p c L : BwProofs.inv k s m F -> In p (members F) -> owned F p c L -> lists m p (p + field_of c) L.
Proof.
  intros (h & a & _ & R & S) I O. destruct (owned_ring _ _ _ _ _ S I O) as (HD & ND & IN & NX). unfold lists.
  rewrite (rep_off _ _ _ R p I), (rep_link _ _ _ R p _ I (link_field c)), HD. repeat split; auto.
  - apply (rep_in _ _ _ R), IN. rewrite H. apply in_or_app. right. left. reflexivity.
  - assert (J : In e L) by (rewrite H; apply in_or_app; right; left; reflexivity). rewrite (rep_next _ _ _ e R) by auto. f_equal. eapply NX; eauto.
Qed.

(** ** Values *)
Definition fine ty v src : Prop :=
  (value_there ty src \/ string_there ty src) /\ value_bytes ty src = value_bytes ty v /\ value_size ty src = value_size ty v /\ 0 <= value_size ty v <= zlen v /\
  (ty = XBT_STRING -> hd 0 v = 0 -> cstr src = []).
Lemma in_cstr v r : In 0 v -> cstr (v ++ r) = cstr v /\ zlen (cstr v) < zlen v.
Proof.
  induction v as [|c v IH]; [intros []|]. intro I. cbn [app cstr]. destruct (Z.eqb_spec c 0) as [->|N]; [split; [reflexivity|]; unfold zlen; cbn [List.length]; lia|]. destruct I as [I|I]; [congruence|]. destruct (IH I) as [E L]. rewrite E. split; [reflexivity|]. unfold zlen in *. cbn [List.length]. lia.
Qed.
Lemma size_of ty n z : XBT_Size2 ty n = Ok z -> 0 <= z -> (In ty four_bytes -> z = 4) /\ (In ty eight_bytes -> z = 8) /\ (In ty [XBT_GUID; XBT_IPv6] -> z = 16) /\ (ty = XBT_SHA1 -> z = 24).
Proof.
  intros E Z0. repeat split; intro I; cbn [In four_bytes eight_bytes] in I; repeat destruct I as [<-|I]; try contradiction; try subst ty;
    unfold XBT_Size2 in E; cbv beta delta [isin existsb XBT_NULL XBT_UNKNOWN XBT_LAST XBT_VARIANT XBT_STRING XBT_BLOB_STRING XBT_BLOB XBT_HEX XBT_INT32 XBT_UINT32 XBT_INT32_DECI XBT_INT32_CENTI XBT_INT32_MILI XBT_INT32_MICRO XBT_INT32_NANO XBT_FLOAT XBT_UNIX_TIME XBT_UNIX_DATE XBT_IPv4 XBT_INT64 XBT_UINT64 XBT_DOUBLE XBT_UNIX_TIME64_MSEC XBT_GUID XBT_IPv6 XBT_SHA1] in E; cbn [Z.eqb Pos.eqb orb] in E; injection E as E; destruct ((_ =? _) || (_ =? _)) in E; lia.
Qed.
Lemma value_fine ty n z v r : XBT_Size2 ty n = Ok z -> 0 <= z <= zlen v -> complete ty v -> bytes (v ++ r) -> zlen (v ++ r) <= INT_MAX -> fine ty v (v ++ r).
Proof.
  intros SZ Z0 C BY MX. destruct (size_of _ _ _ SZ ltac:(lia)) as (S4 & S8 & S16 & S20). pose proof (zlen_nonneg r) as R0. pose proof (zlen_nonneg v) as V0. assert (ZL : zlen (v ++ r) = zlen v + zlen r) by apply zlen_app.
  assert (KEY : forall w, (forall src, value_size ty src = w) -> 0 <= w <= zlen v -> value_bytes ty (v ++ r) = value_bytes ty v /\ value_size ty (v ++ r) = value_size ty v /\ 0 <= value_size ty v <= zlen v).
  { intros w W WB. unfold value_bytes. rewrite !W. rewrite ztake_app_l by lia. auto. }
  unfold fine. destruct C as [I|[[I LN]|[-> I]]].
  - assert (NS : ty <> XBT_STRING) by (intros ->; cbn in I; repeat destruct I as [I|I]; try discriminate; exact I).
    split; [left; split; [exact BY|]; rewrite !in_app_iff in I; cbn [In] in I|].
    { destruct I as [I|[I|[I|[I|[I|[I|[]]]]]]]; [left|right; left|right; right; left|right; right; left|right; right; right; left|right; right; right; right; right].
      - split; [exact I|]. specialize (S4 I). lia.
      - split; [exact I|]. specialize (S8 I). lia.
      - subst ty. split; [cbn; auto|]. specialize (S16 ltac:(cbn; auto)). lia.
      - subst ty. split; [cbn; auto|]. specialize (S16 ltac:(cbn; auto)). lia.
      - subst ty. split; [auto|]. specialize (S20 eq_refl). lia.
      - auto. }
    assert (X : exists w, (forall src, value_size ty src = w) /\ 0 <= w <= zlen v).
    { rewrite !in_app_iff in I. cbn [In] in I. destruct I as [I|[I|[I|[I|[I|[I|[]]]]]]].
      - exists 4. specialize (S4 I). split; [|lia]. intro src. unfold value_size. apply isin_true in I. rewrite I. reflexivity.
      - exists 8. specialize (S8 I). split; [|lia]. intro src. cbn [In eight_bytes] in I. repeat destruct I as [<-|I]; try contradiction; reflexivity.
      - subst ty. specialize (S16 ltac:(cbn; auto)). exists 16. split; [reflexivity|lia].
      - subst ty. specialize (S16 ltac:(cbn; auto)). exists 16. split; [reflexivity|lia].
      - subst ty. specialize (S20 eq_refl). exists 20. split; [reflexivity|lia].
      - subst ty. exists 0. split; [reflexivity|lia]. }
    destruct X as (w & W & WB). destruct (KEY w W WB) as (A & B & C). repeat (split; [assumption|]). intro. congruence.
  - assert (Z4 : 4 <= zlen v) by (assert (XBT_Size2 ty n = Ok (n + 4)) by (cbn in I; repeat destruct I as [<-|I]; try contradiction; reflexivity); assert (z = n + 4) by congruence; pose proof (Forall_app is_byte v r) as [FA _]; destruct (FA BY) as [BV _]; pose proof (unle_bound (ztake 4 v) (bytes_take 4 v BV)); lia).
    assert (BV : bytes v) by (apply Forall_app in BY; apply BY). pose proof (unle_bound (ztake 4 v) (bytes_take 4 v BV)) as [U0 _].
    assert (VS : forall src, value_size ty src = 4 + unle (ztake 4 src)) by (intro src; cbn in I; repeat destruct I as [<-|I]; try contradiction; reflexivity).
    assert (TK : ztake 4 (v ++ r) = ztake 4 v) by (apply ztake_app_l; lia).
    split; [left; split; [exact BY|]; right; right; right; right; left; rewrite TK; split; [exact I|]; lia|]. unfold value_bytes. rewrite !VS, TK. split; [apply ztake_app_l; lia|]. split; [reflexivity|]. split; [lia|]. intros ->. exfalso. cbn in I. repeat destruct I as [I|I]; try discriminate; exact I.
  - destruct (in_cstr v r I) as [CE CL]. pose proof (zlen_nonneg (cstr v)). split; [right; split; [exact BY|]; split; [reflexivity|]; rewrite CE; lia|].
    assert (VS : forall src, value_size XBT_STRING src = zlen (cstr src) + 1) by reflexivity. unfold value_bytes. rewrite !VS, CE. split; [apply ztake_app_l; lia|]. split; [reflexivity|]. split; [lia|]. intros _ HZ. destruct v as [|c v]; [destruct I|]. cbn [hd] in HZ. subst c. reflexivity.
Qed.

(** ** The walk *)
Section Walk.
Variables (k : Z -> bool) (s : Z -> Z) (m : list Z) (T P : names) (F : forest).
Hypothesis LI : life k s m T P F.
Hypothesis BY : bytes m.
Hypothesis IT : t_index m TAGS <> Ok 0.
Hypothesis IP : P <> [] -> t_index m PARAMS <> Ok 0.
Local Notation tree := (tree_at k s m T P F).

Lemma tree_rec (Q : Z -> bnode -> Prop) :
  (forall x A L name ty v attrs kids, In x (members F) -> k x = true -> says s m T x name ty v -> owned F x false A -> owned F x true L ->
    Forall2 (attr_says k s m P) A attrs -> Forall2 tree L kids -> Forall2 Q L kids -> Q x (BNode name ty v attrs kids)) -> forall x t, tree x t -> Q x t.
Proof.
  intro H. fix IH 3. intros x t [y A L name ty v attrs kids H1 H2 H3 H4 H5 H6 H7]. apply (H y A L); auto. clear - IH H7. induction H7 as [|c d l l' HH FF IHF]; constructor; [apply IH; exact HH|exact IHF].
Qed.
Lemma pool_of : exists a, pool m a /\ BwProofs.inv k s m F /\ zlen m <= INT_MAX.
Proof. destruct (life_whole _ _ _ _ _ _ LI) as (B & a & I & EL & _). destruct (names_pool _ _ _ _ _ _ _ I) as [PO _]. exists a. split; [exact PO|]. split; [exact EL|]. destruct (pool_len _ _ PO) as [X _]. apply X. Qed.
Lemma leaf x nm L ty v : In x (members F) -> says s m L x nm ty v -> complete ty v -> exists r, zskip (x + 24) m = v ++ r /\ fine ty v (v ++ r) /\ zlen v = s x - 24.
Proof.
  intros I (i & ty' & _ & _ & _ & TY & RD) C. pose proof (life_whole _ _ _ _ _ _ LI) as (B & a & IN & EL & _ & SZ). destruct (SZ x I) as (ty0 & n & z & TY0 & _ & S2 & Z0 & ZS). rewrite TY in TY0. injection TY0 as <-.
  destruct pool_of as (a' & PO & EL' & MX). destruct (inv_in _ _ _ _ _ _ EL PO I) as (X1 & X2 & X3). unfold HEADER in X1. apply rd_inv in RD as (_ & _ & HS & LV); [|lia]. apply has_skip in HS as (r & ER). exists r. split; [exact ER|]. split; [|exact LV].
  apply (value_fine ty n z); auto; [lia|rewrite <- ER; apply bytes_skip, BY|]. rewrite <- ER, zlen_skip by lia. pose proof (zlen_nonneg m). unfold INT_MAX in *. lia.
Qed.
Lemma follow_ok x e : In x (members F) -> In e (members F) -> bwe m x e = Ok e /\ plugin_bwe m e = Ok e.
Proof.
  intros IX IE. destruct pool_of as (a & PO & (h & a2 & PL & R & S) & _). split; [apply (rep_bwe _ _ _ _ _ R IX)|]. unfold plugin_bwe. pose proof PO as (_ & _ & FS & _). rewrite FS. cbn [obind]. destruct (rep_in _ _ _ R e IE). replace ((0 <=? e) && (e + 24 <=? zlen m)) with true by lia. reflexivity.
Qed.
Lemma owned_short x c L : owned F x c L -> NoDup (members F) -> (List.length L <= List.length (members F))%nat.
Proof.
  intros [O|[-> _]] ND; [|cbn; lia]. apply NoDup_incl_length; [|intros e J; eapply members_in; eauto].
  apply in_split in O as (F1 & F2 & ->). rewrite members_app, members_cons in ND. destruct (nodup_app _ _ ND) as (_ & ND2 & _). destruct (nodup_app _ _ ND2) as (ND3 & _ & _). exact ND3.
Qed.

Definition ext_attr (d d' : list Z * Z * list Z) : Prop := fst d' = fst d /\ fine (snd (fst d)) (snd d) (snd d').
Inductive ext : bnode -> bnode -> Prop :=
| ext_at n ty v src attrs attrs' kids kids' : fine ty v src -> Forall2 ext_attr attrs attrs' -> Forall2 ext kids kids' -> ext (BNode n ty v attrs kids) (BNode n ty src attrs' kids').

Lemma attrs_ok A attrs : Forall2 (attr_says k s m P) A attrs -> (forall a, In a A -> In a (members F)) -> (forall n ty v, In (n, ty, v) attrs -> complete ty v) ->
  exists attrs', each (fun a => Some (pool_param m a)) A = rret attrs' /\ Forall2 ext_attr attrs attrs'.
Proof.
  induction 1 as [|a [[n ty] v] A attrs [KA SA] _ IH]; intros IN CO; [exists []; split; [reflexivity|constructor]|].
  destruct IH as (attrs' & E & X); [intros; apply IN; right; assumption|intros; eapply CO; right; eassumption|]. destruct (leaf a n P ty v (IN a (or_introl eq_refl)) SA (CO n ty v (or_introl eq_refl))) as (r & ER & FI & _).
  destruct SA as (i & ty' & EI & NI & _ & TY & _). exists ((n, ty, v ++ r) :: attrs'). split; [|constructor; [split; [reflexivity|exact FI]|exact X]].
  cbn [each]. unfold pool_param at 1. rewrite EI. cbn [obind]. destruct (life_whole _ _ _ _ _ _ LI) as (B & b & I & _). unfold getAttrName. rewrite (name_at XPNR2str _ _ _ _ _ _ _ _ _ _ (inv_swap _ _ _ _ _ _ _ I) (IP ltac:(intros ->; destruct i; discriminate)) NI). cbn [obind]. rewrite TY. cbn [obind]. rewrite ER, rbind_ok, E, rbind_rret. reflexivity.
Qed.
Lemma node_ok lf : (List.length (members F) <= lf)%nat -> forall x t, tree x t -> (forall u, In u (belements t) -> convertible u) -> forall fuel, (bheight t <= fuel)%nat -> exists t', pool_node fuel lf m x = rret t' /\ ext t t'.
Proof.
  intro LF. apply (tree_rec (fun x t => (forall u, In u (belements t) -> convertible u) -> forall fuel, (bheight t <= fuel)%nat -> exists t', pool_node fuel lf m x = rret t' /\ ext t t')).
  intros x A L name ty v attrs kids IX KX SX OA OL AT _ IH CO fuel FU. destruct fuel as [|fuel]; [cbn in FU; lia|].
  destruct pool_of as (a & PO & EL & _). pose proof EL as (h & a2 & PL & R & S). pose proof (sh_nodup _ _ S) as ND.
  destruct (CO _ (or_introl eq_refl)) as (CX & _ & _ & CA). destruct (leaf x name T ty v IX SX CX) as (r & ER & FI & _).
  destruct (attrs_ok A attrs AT) as (attrs' & EA & XA); [intros e J; exact (owned_in _ _ _ _ _ OA J)|intros n0 ty0 v0 J; apply (CA n0 ty0 v0 J)|].
  assert (KID : exists kids', each (pool_node fuel lf m) L = rret kids' /\ Forall2 ext kids kids').
  { assert (CK : forall c u, In c kids -> In u (belements c) -> convertible u) by (intros c u J1 J2; apply CO; right; apply in_flat_map; exists c; auto). assert (HK : forall c, In c kids -> (bheight c <= fuel)%nat).
    { intros c JJ. cbn [bheight] in FU. apply in_split in JJ as (l1 & l2 & ->). rewrite map_app, fold_right_app in FU. cbn [map fold_right] in FU. assert (GE : forall l b, (b <= fold_right Nat.max b (map bheight l))%nat) by (induction l as [|d l IHl]; intro b; cbn; [lia|]; specialize (IHl b); lia). specialize (GE l1 (Nat.max (bheight c) (fold_right Nat.max 0%nat (map bheight l2)))). lia. }
    clear - IH CK HK. induction IH as [|c d L kids HH FF IHF]; [exists []; split; [reflexivity|constructor]|]. destruct (HH (fun u => CK d u (or_introl eq_refl)) fuel (HK d (or_introl eq_refl))) as (t' & E1 & X1). destruct IHF as (kids' & E2 & X2); [intros c0 u J; apply CK; right; exact J|intros; apply HK; right; assumption|].
    exists (t' :: kids'). split; [cbn [each]; rewrite E1, rbind_rret, E2, rbind_rret; reflexivity|constructor; assumption]. }
  destruct KID as (kids' & EK & XK). exists (BNode name ty (v ++ r) attrs' kids'). split; [|constructor; assumption].
  cbn [pool_node]. pose proof SX as (i & ty' & EI & NI & _ & TY & _). unfold getNodeName. pose proof PO as (_ & _ & FS & _). rewrite FS. cbn [obind]. destruct (rep_in _ _ _ R x IX). replace ((0 <? x) && (x + 24 <=? zlen m)) with true by lia. destruct (pl_kind _ _ _ _ _ PL x IX) as (f & Ef & KF). rewrite Ef, EI. cbn [obind]. rewrite KF, KX.
  destruct (life_whole _ _ _ _ _ _ LI) as (B & b & I & _). unfold getTagName. rewrite (name_at XTNR2str _ _ _ _ _ _ _ _ _ _ I IT NI). cbn [obind]. rewrite rbind_ok, TY, rbind_ok.
  unfold ForAllBinParams. pose proof (inv_list _ _ _ _ _ _ _ EL IX OA) as LA. cbn [field_of] in LA. rewrite (for_all_ok _ _ _ _ _ lf LA), rbind_rret; [|intros e J; split; apply (follow_ok x); auto; exact (owned_in _ _ _ _ _ OA J)|pose proof (owned_short _ _ _ OA ND); lia]. rewrite EA, rbind_rret.
  unfold ForAllChildren. pose proof (inv_list _ _ _ _ _ _ _ EL IX OL) as LL. cbn [field_of] in LL. rewrite (for_all_ok _ _ _ _ _ lf LL), rbind_rret; [|intros e J; split; apply (follow_ok x); auto; exact (owned_in _ _ _ _ _ OL J)|pose proof (owned_short _ _ _ OL ND); lia]. rewrite EK, rbind_rret. rewrite ER. reflexivity.
Qed.
End Walk.
