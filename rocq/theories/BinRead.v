(** The client reads back what the writer leaves of a binary source. *)
From Verif Require Import Base BaseFacts ListFacts Types Sort SortProofs Symtab SymtabSpec SymtabProofs Xb XbSpec XbFacts XbSymProofs XbWrite XbBin BinSpec
  WriteProofs FillProofs InitProofs OpenProofs BinProofs.

Lemma rbind_some {A B} (x : A) (f : A -> run B) : rbind (Some (Ok x)) f = f x.
Proof. reflexivity. Qed.

Lemma read_at m p bs ty n : has m p bs -> n = zlen bs -> read_data m (mkref ty (Some p) n) = Ok (ty, bs).
Proof. intros H ->. unfold read_data. cbn [dr_data dr_size dr_type]. rewrite (has_rd _ _ _ H). reflexivity. Qed.

Lemma shows_kind ty src : value_there ty src -> ty <> XBT_NULL ->
  XBT_IS_4 ty = isin ty four_bytes /\ XBT_IS_8 ty = isin ty eight_bytes /\
  (isin ty four_bytes = true -> value_size ty src = 4) /\ (isin ty eight_bytes = true -> value_size ty src = 8) /\
  (isin ty four_bytes = false -> isin ty [XBT_BLOB; XBT_HEX] = false -> XBT_FIXEDSIZE ty = value_size ty src).
Proof.
  intros (B & T) N.
  assert (Go : (exists l, In ty l /\ forall t, In t l -> 
     XBT_IS_4 t = isin t four_bytes /\ XBT_IS_8 t = isin t eight_bytes /\
  (isin t four_bytes = true -> value_size t src = 4) /\ (isin t eight_bytes = true -> value_size t src = 8) /\
  (isin t four_bytes = false -> isin t [XBT_BLOB; XBT_HEX] = false -> XBT_FIXEDSIZE t = value_size t src)) ->
  XBT_IS_4 ty = isin ty four_bytes /\ XBT_IS_8 ty = isin ty eight_bytes /\
  (isin ty four_bytes = true -> value_size ty src = 4) /\ (isin ty eight_bytes = true -> value_size ty src = 8) /\
  (isin ty four_bytes = false -> isin ty [XBT_BLOB; XBT_HEX] = false -> XBT_FIXEDSIZE ty = value_size ty src)).
  { intros (l & I & F). apply F, I. }
  apply Go. clear Go. exists [XBT_INT32; XBT_INT32_DECI; XBT_INT32_CENTI; XBT_INT32_MILI; XBT_INT32_MICRO; XBT_INT32_NANO; XBT_UINT32; XBT_FLOAT; XBT_UNIX_TIME; XBT_IPv4;
     XBT_INT64; XBT_UINT64; XBT_DOUBLE; XBT_UNIX_TIME64_MSEC; XBT_GUID; XBT_IPv6; XBT_SHA1; XBT_BLOB; XBT_HEX]. split.
  - destruct T as [[T _]|[[T _]|[[T _]|[[T _]|[[T _]|T]]]]]; [| | | | |contradiction]; try symmetry in T; unfold four_bytes, eight_bytes in *; cbn [In] in *; tauto.
  - intros t It. cbn [In] in It. repeat (destruct It as [<-|It]; [unfold value_size, XBT_IS_4, XBT_IS_8, XBT_FIXEDSIZE; known; repeat split; intros; first [reflexivity|discriminate]|]). contradiction.
Qed.

Lemma has_unle m p ty src : value_there ty src -> isin ty [XBT_BLOB; XBT_HEX] = true -> has m p (value_bytes ty src) -> rd_s32 m p = Ok (unle (ztake 4 src)) /\ value_size ty src = 4 + unle (ztake 4 src).
Proof.
  intros V E H. pose proof (blob_length ty src V E) as L. unfold content in L. rewrite E in L.
  assert (Vs : value_size ty src = 4 + unle (ztake 4 src)) by (apply isin_true in E; cbn [In] in E; destruct E as [<-|[<-|[]]]; unfold value_size; known; reflexivity).
  assert (U : 0 <= unle (ztake 4 src)) by (apply unle_bound, bytes_take, V).
  split; [|exact Vs]. unfold value_bytes in H. rewrite Vs, take_add in H by lia. apply has_app in H. destruct H as [H _].
  assert (L4 : 4 <= zlen src) by (unfold rd_s32, rd in L; change (0 <=? 0) with true in L; cbn [andb] in L; destruct (Z.leb_spec (0 + 4) (zlen src)); [lia|discriminate L]).
  assert (Z4 : zlen (ztake 4 src) = 4) by (rewrite zlen_take; lia). unfold rd_s32. rewrite <- Z4 at 1. rewrite (has_rd _ _ _ H). cbn [obind].
  rewrite <- L. unfold rd_s32, rd. change (0 <=? 0) with true. destruct (Z.leb_spec (0 + 4) (zlen src)); [|lia]. cbn [andb obind]. unfold slice. rewrite zskip_0. reflexivity.
Qed.

Section READ.
Context (cr : creator) (m : list Z) (R : reader).
Context (N1 : name_limits (cr_tags cr)) (N2 : name_limits (cr_params cr)) (Hm : int32 (zlen m)).
Context (T1 : table_names m (rd_tags R) (names (cr_tags cr))) (T2 : table_names m (rd_params R) (names (cr_params cr))).

Lemma value_bytes_zlen ty src : value_there ty src -> ty <> XBT_NULL -> zlen (value_bytes ty src) = value_size ty src.
Proof. intros V N. apply value_bytes_len, there_kind; assumption. Qed.

Lemma attr_data x q n ty src wp e : battr_at cr m x q (n, ty, src) wp e -> bin_attr_ok (n, ty, src) -> 0 <= x <= zlen m ->
  obind (param_getData m (Some q) (Some x)) (read_data m) = Ok (ty, value_bytes ty src).
Proof using Hm.
  intros (_ & id & F & I1 & (I2 & _) & C) A Hx. unfold int32, INT_MIN, INT_MAX in Hm.
  unfold param_getData. assert (Ty : 0 <= ty < 128).
  { destruct A as [A|((_ & -> & _) & _)]; [|unfold XBT_STRING; lia]. destruct (Z.eq_dec ty XBT_NULL) as [->|N]; [unfold XBT_NULL; lia|]. apply (k_names _ _ (there_kind _ _ A N)). }
  unfold pd_type. rewrite (has_u8 _ _ ty ltac:(lia) I2). cbn [obind].
  destruct C as [(-> & (C & _))|[(Cf & (C & _))|(Nn & Nf & p & (C & _) & (D & _))]].
  - change (XBT_IS_4 XBT_NULL) with false. cbv iota. unfold pd_data. rewrite (has_s32 _ _ 0 ltac:(unfold int32, INT_MIN, INT_MAX; lia) C). cbn [obind]. change (XBT_NULL =? XBT_STRING) with false. change (XBT_IS_VARSIZE XBT_NULL) with false. cbv iota. cbn [obind].
    unfold read_data. cbn [dr_data dr_size dr_type]. change (XBT_FIXEDSIZE XBT_NULL) with 0. change (value_bytes XBT_NULL src) with (@nil Z). replace (x + 0) with x by lia. change (rd m x 0) with (rd m x (zlen (@nil Z))). rewrite (has_rd _ _ [] (has_nil m x ltac:(lia))). reflexivity.
  - destruct A as [A|((_ & -> & _) & _)]; [|exfalso; revert Cf; vm_compute; intuition discriminate].
    assert (Nn : ty <> XBT_NULL) by (intros ->; revert Cf; vm_compute; intuition discriminate).
    destruct (shows_kind _ _ A Nn) as (S1 & S2 & S3 & S4 & S5). assert (E : isin ty four_bytes = true) by (apply isin_true, Cf). rewrite S1, E. cbn [obind]. apply read_at; [exact C|rewrite (value_bytes_zlen _ _ A Nn), (S3 E); reflexivity].
  - unfold pd_data. pose proof (has_range _ _ _ D). pose proof (zlen_nonneg (value_bytes ty src)). rewrite (has_s32 _ _ (p - x) ltac:(unfold int32, INT_MIN, INT_MAX; lia) C). cbn [obind]. replace (x + (p - x)) with p by lia.
    destruct A as [A|((Bs & -> & L) & Es)].
    + destruct (shows_kind _ _ A Nn) as (S1 & S2 & S3 & S4 & S5). assert (E : isin ty four_bytes = false) by (destruct (isin ty four_bytes) eqn:E; [contradiction (Nf ltac:(apply isin_true, E))|reflexivity]). rewrite S1, E.
      pose proof (there_kind _ _ A Nn) as K. destruct (k_names _ _ K) as (K1 & _). destruct (Z.eqb_spec ty XBT_STRING); [contradiction|]. rewrite (k_var _ _ K). destruct (isin ty [XBT_BLOB; XBT_HEX]) eqn:Ev.
      * destruct (has_unle _ _ _ _ A Ev D) as (U1 & U2). rewrite U1. cbn [obind]. apply read_at; [exact D|rewrite (value_bytes_zlen _ _ A Nn), U2; reflexivity].
      * cbn [obind]. apply read_at; [exact D|rewrite (value_bytes_zlen _ _ A Nn); apply (S5 E eq_refl)].
    + destruct src as [|b r]; [cbn in L; lia|]. cbn [cstr] in Es. destruct (Z.eqb_spec b 0) as [->|]; [|discriminate Es]. change (value_bytes XBT_STRING (0 :: r)) with [0] in *.
      change (XBT_IS_4 XBT_STRING) with false. change (XBT_STRING =? XBT_STRING) with true. cbv iota. rewrite (has_str m p []); [|constructor|exact D]. cbn [obind]. apply read_at; [exact D|reflexivity].
Qed.

Lemma attrs_data x pc l : it_paramcount m x = Ok pc -> 0 <= x <= zlen m -> (forall a, In a l -> bin_attr_ok a /\ In (fst (fst a)) (names (cr_params cr))) ->
  forall i wp e, 0 <= i -> i + zlen l <= pc -> battrs_at cr m x (x + 12 + 8 * i) l wp e -> read_bin_attrs (List.length l) m R x i = Ok (map attr_doc l).
Proof using N2 Hm T2.
  intros Hpc Hx. induction l as [|[[n ty] src] l IH]; intros Ha i wp e Hi Hl H; [reflexivity|]. cbn [battrs_at] in H. destruct H as (e1 & A & B). rewrite zlen_cons in Hl. pose proof (zlen_nonneg l).
  destruct (Ha _ (or_introl eq_refl)) as [Ok1 In1]. cbn [fst] in In1.
  cbn [List.length read_bin_attrs map attr_doc]. unfold getParamByIndex. destruct (Z.ltb_spec i 0); [lia|]. rewrite Hpc. cbn [obind]. destruct (Z.leb_spec pc i); [lia|].
  pose proof A as (_ & id & F & (I1 & _) & _). destruct (find_symbol m (rd_params R) _ _ id N2 T2 (or_introl In1) F) as (J1 & J2).
  assert (J3 : zlen (cr_params cr) <= 32768) by apply N2. unfold pd_name. rewrite (has_s16 _ _ id ltac:(lia) I1). cbn [obind]. rewrite J2. cbn [obind].
  rewrite (attr_data _ _ _ _ _ _ _ A Ok1 Hx). cbn [obind]. replace (x + 12 + 8 * i + 8) with (x + 12 + 8 * (i + 1)) in B by lia.
  rewrite (IH (fun a Hin => Ha a (or_intror Hin)) (i + 1) e1 e ltac:(lia) ltac:(lia) B). reflexivity.
Qed.

Lemma value_data x p ty src e : value_pos m x = Ok p -> bvalue_at m p ty src e -> value_there ty src /\ ty <> XBT_IPv6 \/ string_there ty src -> align_up 4 e <= zlen m ->
  obind (getData m (Some x)) (read_data m) = Ok (ty, value_bytes ty src).
Proof using.
  intros Hp (Le & (I1 & _) & C) V Hz. pose proof (has_range _ _ _ I1) as Rp. change (zlen [ty]) with 1 in Rp. pose proof (align_up_ge 4 e ltac:(lia)).
  assert (Ty : 0 <= ty < 128).
  { destruct V as [(A & _)|(_ & -> & _)]; [|unfold XBT_STRING; lia]. destruct (Z.eq_dec ty XBT_NULL) as [->|N]; [unfold XBT_NULL; lia|]. apply (k_names _ _ (there_kind _ _ A N)). }
  unfold getData, value_type. rewrite Hp. cbn [obind]. rewrite (has_u8 _ _ ty ltac:(lia) I1). cbn [obind]. replace (s8 ty) with ty by (unfold s8; lia). cbv zeta.
  destruct (Z.eq_dec ty XBT_NULL) as [->|N].
  { change (XBT_IS_4 XBT_NULL) with false. change (XBT_IS_8 XBT_NULL) with false. change (XBT_NULL =? XBT_STRING) with false. change (XBT_IS_VARSIZE XBT_NULL) with false. cbv iota. change (XBT_FIXEDSIZE XBT_NULL) with 0. change (0 <? 0) with false. cbv iota. cbn [obind].
    unfold read_data. cbn [dr_data dr_size dr_type]. change (value_bytes XBT_NULL src) with (@nil Z). change (rd m (align_up 4 (p + 1)) 0) with (rd m (align_up 4 (p + 1)) (zlen (@nil Z))). rewrite (has_rd _ _ []); [reflexivity|]. apply has_nil. unfold align_up in *. lia. }
  destruct (C N) as (D & _). pose proof (has_range _ _ _ D) as Rd. destruct V as [(A & N6)|(Bs & -> & L)].
  - destruct (shows_kind _ _ A N) as (S1 & S2 & S3 & S4 & S5). pose proof (there_kind _ _ A N) as K. pose proof (k_size _ _ K). destruct (k_names _ _ K) as (K1 & _). pose proof (k_read _ _ K N6) as Kr.
    pose proof (value_bytes_zlen _ _ A N) as Vz. rewrite S1, S2, (k_var _ _ K). rewrite Kr in D. unfold read_align in D. destruct (Z.eqb_spec ty XBT_STRING) as [|_]; [contradiction|].
    destruct (isin ty four_bytes) eqn:E4.
    + assert (E8 : isin ty eight_bytes = false) by (destruct (isin ty eight_bytes) eqn:E8; [specialize (S3 eq_refl); specialize (S4 eq_refl); lia|reflexivity]). rewrite E8 in D.
      change (align_to 4 (p + 1)) with (align_up 4 (p + 1)) in D. change (4 <? 0) with false. cbv iota. cbn [obind]. apply read_at; [exact D|rewrite Vz, (S3 eq_refl); reflexivity].
    + destruct (isin ty eight_bytes) eqn:E8.
      * change (align_to 8 (p + 1)) with (align_up 8 (p + 1)) in D. change (8 <? 0) with false. cbv iota. cbn [obind]. apply read_at; [exact D|rewrite Vz, (S4 eq_refl); reflexivity].
      * change (align_to 4 (p + 1)) with (align_up 4 (p + 1)) in D. destruct (isin ty [XBT_BLOB; XBT_HEX]) eqn:Ev.
        -- destruct (has_unle _ _ _ _ A Ev D) as (U1 & U2). rewrite U1. cbn [obind]. rewrite <- U2. destruct (Z.ltb_spec (value_size ty src) 0); [lia|]. cbn [obind]. apply read_at; [exact D|rewrite Vz; reflexivity].
        -- rewrite (S5 eq_refl eq_refl). destruct (Z.ltb_spec (value_size ty src) 0); [lia|]. cbn [obind]. apply read_at; [exact D|rewrite Vz; reflexivity].
  - destruct (cstr_stored src L) as (r & Er). set (s := cstr src) in *. pose proof (zlen_nonneg s).
    assert (Vb : value_bytes XBT_STRING src = s ++ [0]).
    { unfold value_bytes. change (value_size XBT_STRING src) with (zlen s + 1). rewrite Er. rewrite ztake_app_ge by lia. f_equal. replace (zlen s + 1 - zlen s) with 1 by lia. reflexivity. }
    change (XBT_IS_4 XBT_STRING) with false. change (XBT_IS_8 XBT_STRING) with false. change (XBT_STRING =? XBT_STRING) with true. cbv iota. change (align_to (XBT_Align XBT_STRING) (p + 1)) with (p + 1) in D. rewrite Vb in *.
    rewrite (has_str m (p + 1) s (cstr_cstring src Bs) D). cbn [obind]. destruct (Z.ltb_spec (zlen s + 1) 0); [lia|]. cbn [obind]. apply read_at; [exact D|rewrite zlen_app; reflexivity].
Qed.

Lemma node_data t : (forall u, In u (belements t) -> bin_element_ok u /\ In (bname u) (names (cr_tags cr)) /\ forall a, In a (battrs u) -> In (fst (fst a)) (names (cr_params cr))) ->
  forall k x e, (bheight t <= k)%nat -> align_up 4 e <= zlen m -> bnode_at cr m x e t -> read_bin_node k m R x = rret (doc_of t).
Proof using N1 N2 Hm T1 T2.
  induction t as [name ty src attrs kids IH] using bnode_ind'. intros G k x e Hk He H. pose proof (bnode_mono _ _ _ _ _ H) as (X1 & X2 & X3). pose proof (align_up_ge 4 e ltac:(lia)) as Eg. unfold int32, INT_MIN, INT_MAX in Hm.
  cbn [bnode_at] in H. destruct H as (id & e1 & e2 & F & _ & _ & (H1 & _) & _ & V & A & K).
  destruct (G _ (or_introl eq_refl)) as ((Gv & Ga & Gp & Gc) & Gn & Gan). cbn [bname battrs] in *. pose proof (zlen_nonneg attrs). pose proof (zlen_nonneg kids).
  apply head_split in H1. destruct H1 as (Hid & Hpc & Hcc). destruct (find_symbol m (rd_tags R) _ _ id N1 T1 (or_introl Gn) F) as (J1 & J2). assert (J3 : zlen (cr_tags cr) <= 32768) by apply N1.
  assert (PC : it_paramcount m x = Ok (zlen attrs)) by (unfold it_paramcount; apply has_s16; [lia|exact Hpc]).
  assert (CC : it_childcount m x = Ok (zlen kids)) by (unfold it_childcount; apply has_s32; [unfold int32, INT_MIN, INT_MAX in *; lia|exact Hcc]).
  pose proof (battrs_mono _ _ _ _ _ _ _ A) as M1. pose proof (bkids_mono _ _ _ _ _ _ _ K) as M2.
  destruct k as [|k]; [cbn [bheight] in Hk; lia|]. cbn [read_bin_node doc_of].
  unfold it_name at 1. rewrite (has_s16 _ _ id ltac:(lia) Hid). cbn [obind]. rewrite J2. rewrite rbind_some. rewrite PC, rbind_some, CC, rbind_some.
  replace (Z.to_nat (zlen attrs)) with (List.length attrs) by (unfold zlen; lia).
  rewrite (attrs_data x (zlen attrs) attrs PC ltac:(lia) (fun a Ha => conj (Ga a Ha) (Gan a Ha)) 0 e1 e2 ltac:(lia) ltac:(lia)); [|replace (x + 12 + 8 * 0) with (x + 12) by lia; exact A]. rewrite rbind_some.
  assert (VP : value_pos m x = Ok (x + 12 + 8 * zlen attrs + 4 * zlen kids)) by (unfold value_pos; rewrite PC, CC; reflexivity).
  rewrite (value_data x _ ty src e1 VP V Gv); [|unfold align_up in *; lia]. rewrite rbind_some.
  match goal with |- rbind (?f _ 0) _ = _ => set (children := f) end.
  assert (Kd : forall l, (forall t, In t l -> In t kids) -> forall i wp, 0 <= i -> i + zlen l <= zlen kids -> bkids_at (fun y e t => bnode_at cr m y e t) m x (x + 12 + 8 * zlen attrs + 4 * i) l wp e -> 0 <= wp ->
     children (List.length l) i = rret (map doc_of l)).
  { induction l as [|t l IHl]; intros Hl i wp Hi Hz HK Hwp; [reflexivity|]. rewrite zlen_cons in Hz. pose proof (zlen_nonneg l). cbn [bkids_at] in HK. destruct HK as (e3 & P & P1 & (P2 & _) & P3). fold (bkids_at (fun y e t => bnode_at cr m y e t) m x) in P3.
    pose proof (bkids_mono _ _ _ _ _ _ _ P3) as M3. pose proof (align_up_ge 4 wp ltac:(lia)). pose proof (Hl t (or_introl eq_refl)) as Hin.
    unfold children. cbn [List.length]. fold children. unfold getChildByIndex. rewrite CC. cbn [obind]. destruct (Z.ltb_spec i 0); [lia|]. destruct (Z.leb_spec (zlen kids) i); [lia|]. cbn [orb].
    unfold children_pos. rewrite PC. cbn [obind]. rewrite (has_s32 _ _ (align_up 4 wp - x) ltac:(unfold int32, INT_MIN, INT_MAX; lia) P2). cbn [obind]. replace (x + (align_up 4 wp - x)) with (align_up 4 wp) by lia. rewrite rbind_some.
    rewrite Forall_forall in IH. rewrite (IH t Hin) with (e := e3); [| | | |exact P].
    - rewrite rbind_ret. replace (x + 12 + 8 * zlen attrs + 4 * i + 4) with (x + 12 + 8 * zlen attrs + 4 * (i + 1)) in P3 by lia. rewrite (IHl (fun t Hin => Hl t (or_intror Hin)) (i + 1) e3 ltac:(lia) ltac:(lia) P3 ltac:(lia)). rewrite rbind_ret. reflexivity.
    - intros u Hu. apply G, (in_kids _ _ _ _ _ _ _ Hin Hu).
    - cbn [bheight] in Hk. assert (bheight t <= fold_right Nat.max 0%nat (map bheight kids))%nat; [|lia]. clear - Hin. induction kids as [|a l IH]; [contradiction|]. cbn [map fold_right]. destruct Hin as [->|Hin]; [lia|]. specialize (IH Hin). lia.
    - unfold align_up in *. lia. }
  replace (Z.to_nat (zlen kids)) with (List.length kids) by (unfold zlen; lia).
  rewrite (Kd kids (fun _ Hk => Hk) 0 e2 ltac:(lia) ltac:(lia)); [|replace (x + 12 + 8 * zlen attrs + 4 * 0) with (x + 12 + 8 * zlen attrs) by lia; exact K|destruct V; lia].
  rewrite rbind_ret. reflexivity.
Qed.

End READ.
