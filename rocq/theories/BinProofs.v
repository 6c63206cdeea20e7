(** What the writer leaves of a binary source. *)
From Verif Require Import Base BaseFacts ListFacts Types Sort SortProofs Symtab Xb XbSpec XbFacts XbWrite XbBin BinSpec WriteProofs.

(** ** Copying a value *)
Definition copied (ty : Z) (src : list Z) : Z := if ty =? XBT_SHA1 then 24 else value_size ty src.
Definition content (ty : Z) (src : list Z) : Z := if isin ty [XBT_BLOB; XBT_HEX] then unle (ztake 4 src) else 0.
(** Where the reader looks for the value of an element behind its type. *)
Definition read_align (ty : Z) : Z := if isin ty eight_bytes then 8 else if ty =? XBT_STRING then 0 else 4.

Ltac known := repeat match goal with
  | |- context [isin ?a ?l] => is_ground a; let v := eval vm_compute in (isin a l) in change (isin a l) with v
  | |- context [?a =? ?b] => is_ground a; is_ground b; let v := eval vm_compute in (a =? b) in change (a =? b) with v
  end; cbv iota.

Record kind ty src : Prop := {
  k_size : 0 <= value_size ty src <= copied ty src; k_more : copied ty src <= value_size ty src + 4; k_len : copied ty src <= zlen src;
  k_size2 : XBT_Size2 ty (content ty src) = Ok (copied ty src);
  k_align : XBT_Align ty = 4 \/ XBT_Align ty = 8;
  k_var : XBT_IS_VARSIZE ty = isin ty [XBT_BLOB; XBT_HEX];
  k_names : ty <> XBT_STRING /\ ty <> XBT_NULL /\ ty <> XBT_UNKNOWN /\ 0 <= ty < 128;
  k_four : In ty four_bytes -> copied ty src = 4 /\ value_size ty src = 4 /\ XBT_Align ty = 4 /\ content ty src = 0;
  k_other : ~ In ty four_bytes -> isin ty [XBT_BLOB; XBT_HEX] = false -> content ty src = 0 /\ 4 < copied ty src;
  k_read : ty <> XBT_IPv6 -> XBT_Align ty = read_align ty }.

Ltac kind_case := constructor; unfold copied, value_size, content, XBT_Size2, XBT_Align, XBT_IS_VARSIZE, read_align, four_bytes, eight_bytes; known;
  change (0 =? 0) with true; cbn [orb];
  first [lia | reflexivity | (left; reflexivity) | (right; reflexivity) | (repeat split; first [discriminate | (vm_compute; congruence)])
        | (intros [] ; fail) | (intros; repeat split; first [reflexivity|lia]) | (intros H; exfalso; apply H; cbn [In]; tauto)
        | (intros H; exfalso; cbn [In] in H; decompose [or] H; first [contradiction|discriminate]) | (intros _ H; discriminate H) | (intros H; exfalso; apply H; reflexivity) | idtac].
Lemma there_kind ty src : value_there ty src -> ty <> XBT_NULL -> kind ty src.
Proof.
  intros (B & T) N.
  assert (U : 0 <= unle (ztake 4 src)) by (apply unle_bound, bytes_take, B).
  destruct T as [[T L]|[[T L]|[[T L]|[[T L]|[[T (L1 & L2)]|T]]]]]; [| | | | |contradiction].
  - unfold four_bytes in T. cbn [In] in T. repeat (destruct T as [<-|T]; [kind_case|]). contradiction.
  - unfold eight_bytes in T. cbn [In] in T. repeat (destruct T as [<-|T]; [kind_case|]). contradiction.
  - cbn [In] in T. repeat (destruct T as [<-|T]; [kind_case|]). contradiction.
  - subst ty. kind_case.
  - cbn [In] in T. repeat (destruct T as [<-|T]; [kind_case|]); [| |contradiction]; f_equal; lia.
Qed.

Lemma copy_there ty src wp limit : kind ty src -> copied ty src + 8 <= limit - wp ->
  XBT_Copy src ty (content ty src) wp limit =
    Ok (mkstored (align_to (XBT_Align ty) wp) (ztake (copied ty src) src) (align_to (XBT_Align ty) wp + copied ty src)).
Proof.
  intros K L. destruct (k_names _ _ K) as (N1 & _). pose proof (k_size _ _ K). pose proof (k_len _ _ K).
  unfold XBT_Copy. rewrite (k_size2 _ _ K). cbn [obind]. destruct (Z.ltb_spec (limit - wp) (copied ty src + XBT_Align ty)) as [E|_].
  { destruct (k_align _ _ K) as [A|A]; rewrite A in E; lia. }
  destruct (Z.eqb_spec ty XBT_STRING); [contradiction|]. destruct (Z.ltb_spec (copied ty src) 0); [lia|]. destruct (Z.ltb_spec (zlen src) (copied ty src)); [lia|]. cbn [orb].
  destruct (k_align _ _ K) as [A|A]; rewrite A; reflexivity.
Qed.
Lemma align_to_range a wp : a = 4 \/ a = 8 -> wp <= align_to a wp <= wp + 7.
Proof. intros [-> | ->]; [change (align_to 4 wp) with (align_up 4 wp)|change (align_to 8 wp) with (align_up 8 wp)]; unfold align_up; lia. Qed.
Lemma align_to_twice a wp : a = 4 \/ a = 8 -> align_to a (align_to a wp) = align_to a wp.
Proof.
  intros [-> | ->]; [change (align_up 4 (align_up 4 wp) = align_up 4 wp)|change (align_up 8 (align_up 8 wp) = align_up 8 wp)]; (apply align_up_id; [lia|apply align_up_mod; lia]).
Qed.

Lemma wr_fits m p bs : bytes bs -> 0 <= p -> p + zlen bs <= zlen m ->
  exists m', wr m p bs = Ok m' /\ zlen m' = zlen m /\ has m' p bs /\ forall c d, except m m' p (p + zlen bs) c d.
Proof.
  intros B P L. assert (E : exists m', wr m p bs = Ok m') by (unfold wr; destruct (Z.leb_spec 0 p); [|lia]; destruct (Z.leb_spec (p + zlen bs) (zlen m)); [|lia]; eexists; reflexivity).
  destruct E as (m' & E). exists m'. split; [exact E|]. apply wr_ok in E; [|exact B]. destruct E as (_ & _ & H & X). split; [apply (X 0 0)|]. split; [exact H|exact X].
Qed.

Section BIN.
Context (cr : creator).

Definition battr_at m x q (a : list Z * Z * list Z) (wp e : Z) : Prop :=
  let '(n, ty, src) := a in
  wp <= e /\ exists id, find_ n (cr_params cr) = Ok id /\ inside m q (q + 8) q (le 2 id) /\ inside m q (q + 8) (q + 2) [ty] /\
  (ty = XBT_NULL /\ inside m q (q + 8) (q + 4) (le 4 0) \/
   In ty four_bytes /\ inside m q (q + 8) (q + 4) (value_bytes ty src) \/
   ty <> XBT_NULL /\ ~ In ty four_bytes /\ exists p, inside m q (q + 8) (q + 4) (le 4 (p - x)) /\ inside m wp e p (value_bytes ty src)).

Lemma take_add {A} a b (l : list A) : 0 <= a -> 0 <= b -> ztake (a + b) l = ztake a l ++ ztake b (zskip a l).
Proof.
  intros Ha Hb. rewrite <- (ztake_zskip a l) at 1. destruct (Z.le_gt_cases a (zlen l)).
  - rewrite ztake_app_ge by (rewrite zlen_take; lia). rewrite zlen_take by lia. do 2 f_equal. lia.
  - rewrite zskip_all by lia. rewrite app_nil_r. rewrite ztake_all by (rewrite zlen_take; lia). symmetry. replace (ztake b (@nil A)) with (@nil A); [apply app_nil_r|]. unfold ztake. destruct (Z.to_nat b); reflexivity.
Qed.
Lemma value_bytes_of ty src : kind ty src -> ztake (copied ty src) src = value_bytes ty src ++ ztake (copied ty src - value_size ty src) (zskip (value_size ty src) src).
Proof.
  intros K. pose proof (k_size _ _ K). unfold value_bytes. rewrite <- take_add by lia. f_equal. lia.
Qed.
Lemma value_bytes_len ty src : kind ty src -> zlen (value_bytes ty src) = value_size ty src.
Proof. intros K. pose proof (k_size _ _ K). pose proof (k_len _ _ K). unfold value_bytes. rewrite zlen_take by lia. lia. Qed.

Ltac lens := rewrite ?le_zlen in *; change (Z.of_nat 2) with 2 in *; change (Z.of_nat 4) with 4 in *; repeat match goal with |- context [zlen [?a]] => change (zlen [a]) with 1 | H : context [zlen [?a]] |- _ => change (zlen [a]) with 1 in H end.
Ltac fit H := destruct H as (?m & ?E & ?L & ?H & ?X); lens.

(** A value that stands apart from its record: [off] is where it goes, [bs] all that is copied. *)
Lemma apart_ok m x q n ty src id wp p bs rest : find_ n (cr_params cr) = Ok id -> ty <> XBT_NULL -> ~ In ty four_bytes -> bytes (bs ++ rest) -> 0 <= ty < 256 -> value_bytes ty src = bs ->
  0 <= q -> q + 8 <= wp -> wp <= p -> p + zlen (bs ++ rest) <= zlen m -> has m q (le 2 id) ->
  exists m', obind (wr m (q + 2) [ty]) (fun m => obind (wr m (q + 4) (le 4 (p - x))) (fun m => obind (wr m p (bs ++ rest)) (fun m => Ok (m, p + zlen (bs ++ rest))))) = Ok (m', p + zlen (bs ++ rest)) /\
    zlen m' = zlen m /\ except m m' (q + 2) (q + 8) wp (p + zlen (bs ++ rest)) /\ battr_at m' x q (n, ty, src) wp (p + zlen (bs ++ rest)).
Proof.
  intros F N1 N2 B T V Q W P R Hid. pose proof (zlen_nonneg (bs ++ rest)) as Z0.
  destruct (wr_fits m (q + 2) [ty] (one_byte ty T) ltac:(lia)) as (m1 & E1 & L1 & H1 & X1); [lens; lia|]. lens.
  destruct (wr_fits m1 (q + 4) (le 4 (p - x)) (le_bytes _ _) ltac:(lia)) as (m2 & E2 & L2 & H2 & X2); [lens; lia|]. lens.
  destruct (wr_fits m2 p (bs ++ rest) B ltac:(lia)) as (m3 & E3 & L3 & H3 & X3); [lia|].
  exists m3. rewrite E1. cbn [obind]. rewrite E2. cbn [obind]. rewrite E3. cbn [obind]. split; [reflexivity|]. split; [lia|].
  specialize (X1 (q + 2) (q + 2 + 1)). specialize (X2 (q + 4) (q + 4 + 4)). specialize (X3 p (p + zlen (bs ++ rest))).
  assert (Y2 : except m1 m3 (q + 4) (q + 8) p (p + zlen (bs ++ rest))) by (eapply except_trans; [exact X2|exact X3|lia|lia|lia|lia]).
  assert (Y1 : except m m3 (q + 2) (q + 8) p (p + zlen (bs ++ rest))) by (eapply except_trans; [exact X1|exact Y2|lia|lia|lia|lia]).
  split; [eapply except_trans; [exact Y1|apply (except_refl m3 p p p p)|lia|lia|lia|lia]|].
  unfold battr_at. split; [lia|]. exists id. split; [exact F|].
  split; [split; [eapply has_except; [exact Y1|exact Hid|lens; lia|lens; lia]|lens; lia]|].
  split; [split; [eapply has_except; [exact Y2|exact H1|lens; lia|lens; lia]|lens; lia]|].
  right. right. split; [exact N1|]. split; [exact N2|]. exists p. split; [split; [eapply has_except; [exact X3|exact H2|lens; lia|lens; lia]|lens; lia]|].
  rewrite V. apply has_app in H3. rewrite zlen_app. pose proof (zlen_nonneg rest). split; [apply H3|lia].
Qed.

Lemma store_bin_param_ok m wp x q a : (exists id, find_ (fst (fst a)) (cr_params cr) = Ok id) -> bin_attr_ok a -> 0 <= q -> q mod 4 = 0 -> q + 8 <= wp ->
  wp + attr_room a <= zlen m ->
  exists m' wp', store_bin_param cr m wp x q a = Ok (m', wp') /\ wp <= wp' <= wp + attr_room a - 8 /\ zlen m' = zlen m /\ except m m' q (q + 8) wp wp' /\ battr_at m' x q a wp wp'.
Proof.
  intros (id & F) A Q0 Q W R. destruct a as [[n ty] src]. cbn [fst] in F. unfold attr_room in R. unfold attr_room.
  assert (V0 : 0 <= value_size ty src).
  { destruct A as [A|((_ & -> & _) & _)]; [|unfold value_size; known; pose proof (zlen_nonneg (cstr src)); lia]. destruct (Z.eq_dec ty XBT_NULL) as [->|N]; [vm_compute; congruence|]. apply (k_size _ _ (there_kind _ _ A N)). }
  destruct (wr_fits m q (le 2 id) (le_bytes _ _) Q0) as (m1 & E1 & L1 & H1 & X1); [lens; lia|]. lens. specialize (X1 q (q + 2)).
  unfold store_bin_param. rewrite F. cbn [obind]. rewrite E1. cbn [obind].
  destruct (Z.eqb_spec ty XBT_NULL) as [->|N].
  - destruct (wr_fits m1 (q + 2) [XBT_NULL] (one_byte XBT_NULL ltac:(unfold XBT_NULL; lia)) ltac:(lia)) as (m2 & E2 & L2 & H2 & X2); [lens; lia|]. lens. specialize (X2 (q + 2) (q + 2 + 1)).
    destruct (wr_fits m2 (q + 4) (le 4 0) (le_bytes _ _) ltac:(lia)) as (m3 & E3 & L3 & H3 & X3); [lens; lia|]. lens. specialize (X3 (q + 4) (q + 4 + 4)).
    rewrite E2. cbn [obind]. rewrite E3. cbn [obind]. exists m3, wp. split; [reflexivity|]. split; [lia|]. split; [lia|].
    assert (Y : except m1 m3 (q + 2) (q + 8) (q + 2) (q + 8)) by (eapply except_trans; [exact X2|exact X3|lia|lia|lia|lia]).
    split; [eapply except_trans; [exact X1|exact Y|lia|lia|lia|lia]|]. split; [lia|]. exists id. split; [exact F|].
    split; [split; [eapply has_except; [exact Y|exact H1|lens; lia|lens; lia]|lens; lia]|].
    split; [split; [eapply has_except; [exact X3|exact H2|lens; lia|lens; lia]|lens; lia]|]. left. split; [reflexivity|]. split; [exact H3|lens; lia].
  - assert (Case : (ty = XBT_STRING /\ exists r, src = 0 :: r) \/ kind ty src).
    { destruct A as [A|((_ & E & A1) & A2)]; [right; apply there_kind; assumption|left]. split; [exact E|]. destruct src as [|b r]; [cbn in A1; lia|]. cbn [cstr] in A2. destruct (Z.eqb_spec b 0) as [->|]; [exists r; reflexivity|discriminate A2]. }
    destruct Case as [(-> & r & ->)|K].
    + change (XBT_IS_VARSIZE XBT_STRING) with false. cbv iota. change (XBT_Size2 XBT_STRING 0) with (Ok 1). cbn [obind]. change (negb (XBT_STRING =? XBT_STRING)) with false. cbn [andb]. cbv iota. cbv zeta.
      change (align_to (XBT_Align XBT_STRING) wp) with wp. change (value_size XBT_STRING (0 :: r)) with 1 in *.
      assert (C : XBT_Copy (0 :: r) XBT_STRING 0 wp (zlen m1) = Ok (mkstored wp [0] (wp + 1))).
      { unfold XBT_Copy. change (XBT_Size2 XBT_STRING 0) with (Ok 1). cbn [obind]. change (XBT_Align XBT_STRING) with 0. destruct (Z.ltb_spec (zlen m1 - wp) (1 + 0)); [lia|]. change (XBT_STRING =? XBT_STRING) with true. cbv iota.
        change (cstr (0 :: r)) with (@nil Z). rewrite zlen_cons. change (zlen (@nil Z)) with 0. pose proof (zlen_nonneg r). destruct (Z.eqb_spec 0 (1 + zlen r)); [lia|]. reflexivity. }
      rewrite C. cbn [st_pos st_bytes st_wp].
      destruct (apart_ok m1 x q n XBT_STRING (0 :: r) id wp wp [0] [] F N) as (m' & M1 & M2 & M3 & M4); [vm_compute; intuition discriminate|apply one_byte; lia|unfold XBT_STRING; lia|reflexivity|lia|lia|lia|change (zlen ([0] ++ [])) with 1; lia|exact H1|].
      change (zlen ([0] ++ [])) with 1 in *. rewrite app_nil_r in M1. exists m', (wp + 1). split; [exact M1|]. split; [lia|]. split; [lia|].
      split; [eapply except_trans; [exact X1|exact M3|lia|lia|lia|lia]|exact M4].
    + pose proof (k_size _ _ K). pose proof (k_more _ _ K). pose proof (k_len _ _ K). destruct (k_names _ _ K) as (N1 & _ & _ & N4).
      assert (Bs : bytes src) by (destruct A as [A|((A & _) & _)]; [apply A|exact A]).
      cbv zeta. rewrite (k_var _ _ K).
      assert (AP : ~ In ty four_bytes -> exists m' wp',
        obind (wr m1 (q + 2) [ty]) (fun m => obind (wr m (q + 4) (le 4 (align_to (XBT_Align ty) wp - x))) (fun m =>
          match XBT_Copy src ty (content ty src) (align_to (XBT_Align ty) wp) (zlen m1) with
          | Ok st => obind (wr m (st_pos st) (st_bytes st)) (fun m => Ok (m, st_wp st)) | Fail => Ok (m, align_to (XBT_Align ty) wp) | Ub => Ub end)) = Ok (m', wp') /\
        wp <= wp' <= wp + (8 + value_size ty src + 11) - 8 /\ zlen m' = zlen m /\ except m m' q (q + 8) wp wp' /\ battr_at m' x q (n, ty, src) wp wp').
      { intros Nf. pose proof (align_to_range (XBT_Align ty) wp (k_align _ _ K)). 
        assert (Lm : copied ty src + 8 <= zlen m1 - align_to (XBT_Align ty) wp) by lia.
        rewrite (copy_there ty src _ _ K Lm). rewrite (align_to_twice _ _ (k_align _ _ K)). cbn [st_pos st_bytes st_wp]. rewrite (value_bytes_of _ _ K).
        pose proof (value_bytes_of _ _ K) as Vb. assert (Lb : zlen (ztake (copied ty src) src) = copied ty src) by (rewrite zlen_take; lia).
        destruct (apart_ok m1 x q n ty src id wp (align_to (XBT_Align ty) wp) (value_bytes ty src) (ztake (copied ty src - value_size ty src) (zskip (value_size ty src) src)) F N Nf) as (m' & M1 & M2 & M3 & M4);
          try rewrite <- Vb; [apply bytes_take, Bs|lia|reflexivity|lia|lia|lia|lia|exact H1|].
        rewrite <- Vb in *. rewrite Lb in *. exists m', (align_to (XBT_Align ty) wp + copied ty src). split; [exact M1|]. split; [lia|]. split; [lia|].
        split; [eapply except_trans; [exact X1|exact M3|lia|lia|lia|lia]|exact M4]. }
      destruct (isin ty [XBT_BLOB; XBT_HEX]) eqn:Ev.
      * assert (Nf : ~ In ty four_bytes) by (apply isin_true in Ev; intros Hf; cbn [In] in Ev; destruct Ev as [<-|[<-|[]]]; revert Hf; vm_compute; intuition discriminate).
        assert (Rs : rd_s32 src 0 = Ok (content ty src)).
        { unfold content. rewrite Ev. destruct A as [(_ & [[T _]|[[T _]|[[T _]|[[T _]|[[T (L & L')]|T]]]]])|((_ & T & _) & _)]; try contradiction; try (exfalso; apply isin_true in Ev; cbn [In] in Ev; destruct Ev as [<-|[<-|[]]]; revert T; vm_compute; intuition discriminate).
          unfold rd_s32, rd. destruct (Z.leb_spec (0 + 4) (zlen src)); [|lia]. change (0 <=? 0) with true. cbn [andb obind]. unfold slice. rewrite zskip_0. f_equal. assert (0 <= unle (ztake 4 src)) by (apply unle_bound, bytes_take, Bs). unfold INT_MAX in *. unfold s32. rewrite Z.mod_small by lia. lia. }
        rewrite Rs. cbn [obind]. apply AP, Nf.
      * destruct (in_dec Z.eq_dec ty four_bytes) as [Hf|Nf].
        -- destruct (k_four _ _ K Hf) as (C1 & C2 & C3 & C4). pose proof (k_size2 _ _ K) as S2. rewrite C4, C1 in S2. rewrite S2. cbn [obind].
           destruct (Z.eqb_spec ty XBT_STRING); [contradiction|]. cbn [negb andb]. change (4 <=? 4) with true. cbv iota.
           assert (Lm : copied ty src + 8 <= zlen m1 - (q + 4)) by lia.
           pose proof (copy_there ty src (q + 4) (zlen m1) K Lm) as Cp. rewrite C4 in Cp. rewrite Cp. cbn [st_pos st_bytes st_wp]. rewrite C3.
           assert (Al : align_to 4 (q + 4) = q + 4) by (change (align_up 4 (q + 4) = q + 4); apply align_up_id; lia). rewrite Al, C1.
           assert (Lb : zlen (ztake 4 src) = 4) by (rewrite zlen_take; lia).
           destruct (wr_fits m1 (q + 4) (ztake 4 src) (bytes_take _ _ Bs) ltac:(lia)) as (m2 & E2 & L2 & G2 & X2); [lia|]. rewrite Lb in *. specialize (X2 (q + 4) (q + 4 + 4)).
           destruct (wr_fits m2 (q + 2) [ty] (one_byte ty ltac:(lia)) ltac:(lia)) as (m3 & E3 & L3 & G3 & X3); [lens; lia|]. lens. specialize (X3 (q + 2) (q + 2 + 1)).
           rewrite E2. cbn [obind]. rewrite E3. cbn [obind]. exists m3, wp. split; [reflexivity|]. split; [lia|]. split; [lia|].
           assert (Y : except m1 m3 (q + 2) (q + 8) (q + 2) (q + 8)) by (eapply except_trans; [exact X2|exact X3|lia|lia|lia|lia]).
           split; [eapply except_trans; [exact X1|exact Y|lia|lia|lia|lia]|]. split; [lia|]. exists id. split; [exact F|].
           split; [split; [eapply has_except; [exact Y|exact H1|lens; lia|lens; lia]|lens; lia]|].
           split; [split; [exact G3|lens; lia]|]. right. left. split; [exact Hf|]. unfold value_bytes. rewrite C2. split; [eapply has_except; [exact X3|exact G2|lia|lia]|lia].
        -- destruct (k_other _ _ K Nf Ev) as (C1 & C2). pose proof (k_size2 _ _ K) as S2. rewrite C1 in S2. rewrite S2. cbn [obind].
           destruct (Z.leb_spec (copied ty src) 4); [lia|]. rewrite andb_false_r. rewrite <- C1. apply AP, Nf.
Qed.

Fixpoint battrs_at m x q l wp e : Prop :=
  match l with
  | [] => e = wp
  | a :: r => exists e1, battr_at m x q a wp e1 /\ battrs_at m x (q + 8) r e1 e
  end.
Lemma battrs_mono m x l : forall q wp e, battrs_at m x q l wp e -> wp <= e.
Proof. induction l as [|[[n ty] src] l IH]; intros q wp e; cbn [battrs_at]; [lia|]. intros (e1 & (A & _) & B). apply IH in B. lia. Qed.
Lemma battr_mono m x q a wp e : battr_at m x q a wp e -> wp <= e.
Proof. destruct a as [[n ty] src]. intros (A & _). exact A. Qed.
Lemma battr_frame m m' x q a wp e : moves m m' q (q + 8) -> moves m m' wp e -> battr_at m x q a wp e -> battr_at m' x q a wp e.
Proof.
  destruct a as [[n ty] src]. intros S S' (L & id & A & B & C & D). split; [exact L|]. exists id. split; [exact A|]. split; [eapply inside_frame; eassumption|]. split; [eapply inside_frame; eassumption|].
  destruct D as [(D & E)|[(D & E)|(D & E & p & F & G)]]; [left|right; left|right; right].
  - split; [exact D|eapply inside_frame; eassumption].
  - split; [exact D|eapply inside_frame; eassumption].
  - split; [exact D|]. split; [exact E|]. exists p. split; eapply inside_frame; eassumption.
Qed.
Lemma battrs_frame m m' x l : forall q wp e, moves m m' q (q + 8 * zlen l) -> moves m m' wp e -> battrs_at m x q l wp e -> battrs_at m' x q l wp e.
Proof.
  induction l as [|a l IH]; intros q wp e S S'; cbn [battrs_at]; [auto|]. rewrite zlen_cons in S. pose proof (zlen_nonneg l).
  intros (e1 & A & B). pose proof (battrs_mono _ _ _ _ _ _ B). pose proof (battr_mono _ _ _ _ _ _ A). exists e1.
  split; [eapply battr_frame; [eapply moves_in; [exact S|lia|lia]|eapply moves_in; [exact S'|lia|lia]|exact A]|].
  apply IH; [eapply moves_in; [exact S|lia|lia]|eapply moves_in; [exact S'|lia|lia]|exact B].
Qed.

Lemma attr_value_size a : bin_attr_ok a -> 8 <= attr_room a - 11.
Proof.
  destruct a as [[n ty] src]. intros A. unfold attr_room. enough (0 <= value_size ty src) by lia.
  destruct A as [A|((_ & -> & _) & _)]; [|unfold value_size; known; pose proof (zlen_nonneg (cstr src)); lia].
  destruct (Z.eq_dec ty XBT_NULL) as [->|N]; [vm_compute; congruence|]. apply (k_size _ _ (there_kind _ _ A N)).
Qed.

Lemma store_bin_params_ok x l : (forall a, In a l -> (exists id, find_ (fst (fst a)) (cr_params cr) = Ok id) /\ bin_attr_ok a) ->
  forall m wp q, 0 <= q -> q mod 4 = 0 -> q + 8 * zlen l <= wp -> wp + total (map attr_room l) - 8 * zlen l + 8 <= zlen m ->
  exists m' wp', store_bin_params cr m wp x q l = Ok (m', wp') /\ wp <= wp' <= wp + total (map attr_room l) - 8 * zlen l /\ zlen m' = zlen m /\ except m m' q (q + 8 * zlen l) wp wp' /\ battrs_at m' x q l wp wp'.
Proof.
  induction l as [|a l IH]; intros Hl m wp q Q0 Q W R; cbn [store_bin_params battrs_at map total fold_right] in *.
  - change (zlen (@nil (list Z * Z * list Z))) with 0 in *. exists m, wp. split; [reflexivity|]. split; [lia|]. split; [reflexivity|]. split; [apply except_refl|reflexivity].
  - rewrite zlen_cons in *. pose proof (zlen_nonneg l). fold (total (map attr_room l)) in *. destruct (Hl a (or_introl eq_refl)) as [F A]. pose proof (attr_value_size a A) as As.
    assert (T : 8 * zlen l <= total (map attr_room l)).
    { clear - Hl. induction l as [|b l IHl]; [vm_compute; congruence|]. rewrite zlen_cons. cbn [map total fold_right]. fold (total (map attr_room l)). pose proof (attr_value_size b (proj2 (Hl b (or_intror (or_introl eq_refl))))).
      specialize (IHl ltac:(intros c [<-|Hc]; apply Hl; [left; reflexivity|right; right; exact Hc])). lia. }
    destruct (store_bin_param_ok m wp x q a F A Q0 Q ltac:(lia) ltac:(lia)) as (m1 & wp1 & E1 & A1 & L1 & A2 & A3).
    destruct (IH (fun a Hin => Hl a (or_intror Hin)) m1 wp1 (q + 8) ltac:(lia) ltac:(lia) ltac:(lia) ltac:(lia)) as (m2 & wp2 & E2 & B1 & L2 & B2 & B3).
    rewrite E1. cbn [obind]. exists m2, wp2. split; [exact E2|]. split; [lia|]. split; [lia|]. split; [eapply except_trans; [exact A2|exact B2|lia|lia|lia|lia]|].
    exists wp1. split; [|exact B3]. eapply battr_frame; [| |exact A3]; eapply except_moves; try exact B2; lia.
Qed.

(** ** The value of an element *)
Definition bvalue_at m p ty src e : Prop :=
  p < e /\ inside m p e p [ty] /\ (ty <> XBT_NULL -> inside m p e (align_to (XBT_Align ty) (p + 1)) (value_bytes ty src)).
Lemma bvalue_frame m m' p ty src e : moves m m' p e -> bvalue_at m p ty src e -> bvalue_at m' p ty src e.
Proof. intros S (A & B & C). split; [exact A|]. split; [eapply inside_frame; eassumption|]. intros N. eapply inside_frame; [exact S|apply C, N]. Qed.

Lemma blob_length ty src : value_there ty src -> isin ty [XBT_BLOB; XBT_HEX] = true -> rd_s32 src 0 = Ok (content ty src).
Proof.
  intros A Ev. unfold content. rewrite Ev. destruct A as (Bs & [[T _]|[[T _]|[[T _]|[[T _]|[[T (L & L')]|T]]]]]); try (exfalso; apply isin_true in Ev; cbn [In] in Ev; destruct Ev as [<-|[<-|[]]]; revert T; vm_compute; intuition discriminate).
  unfold rd_s32, rd. destruct (Z.leb_spec (0 + 4) (zlen src)); [|lia]. change (0 <=? 0) with true. cbn [andb obind]. unfold slice. rewrite zskip_0. f_equal. assert (0 <= unle (ztake 4 src)) by (apply unle_bound, bytes_take, Bs). unfold INT_MAX in *. unfold s32. rewrite Z.mod_small by lia. lia.
Qed.

Lemma cstr_stored src : zlen (cstr src) < zlen src -> exists r, src = cstr src ++ 0 :: r.
Proof.
  induction src as [|b l IH]; [cbn; lia|]. cbn [cstr]. destruct (Z.eqb_spec b 0) as [->|N]; [intros _; exists l; reflexivity|]. rewrite !zlen_cons. intros H.
  destruct IH as (r & E); [lia|]. exists r. cbn [app]. f_equal. exact E.
Qed.

Lemma store_bin_value_ok m wp ty src : value_there ty src \/ string_there ty src -> 0 <= wp -> wp + 1 + value_size ty src + 4 + 8 <= zlen m ->
  exists m' wp', store_bin_value m wp ty src = Ok (m', wp') /\ wp < wp' <= wp + 1 + value_size ty src + 11 /\ zlen m' = zlen m /\ except m m' wp wp' wp wp' /\ bvalue_at m' wp ty src wp'.
Proof.
  intros V W R. unfold store_bin_value. destruct (Z.eq_dec ty XBT_NULL) as [->|N].
  { change (node_bin_size XBT_NULL src) with (@Ok (option Z) None). cbn [obind]. change (XBT_NULL =? XBT_UNKNOWN) with false. cbv iota. change (value_size XBT_NULL src) with 0 in *.
    destruct (wr_fits m wp [XBT_NULL] (one_byte XBT_NULL ltac:(unfold XBT_NULL; lia)) W) as (m1 & E1 & L1 & H1 & X1); [lens; lia|]. lens. rewrite E1. cbn [obind].
    exists m1, (wp + 1). split; [reflexivity|]. split; [lia|]. split; [lia|]. split; [apply X1|]. split; [lia|]. split; [split; [exact H1|lens; lia]|]. intros C. contradiction C. reflexivity. }
  assert (G : forall n p bs e, 0 <= ty < 256 -> ty <> XBT_UNKNOWN -> node_bin_size ty src = Ok (Some n) -> 0 <= value_size ty src -> bytes bs -> p = align_to (XBT_Align ty) (wp + 1) -> wp + 1 <= p -> p + zlen bs = e -> e <= wp + 1 + value_size ty src + 11 -> e <= zlen m ->
     XBT_Copy src ty n (wp + 1) (zlen m) = Ok (mkstored p bs e) -> (exists r, bs = value_bytes ty src ++ r) ->
     exists m' wp', obind (node_bin_size ty src) (fun size => if ty =? XBT_UNKNOWN then Fail else match size with
        | None => obind (wr m wp [XBT_NULL]) (fun m => Ok (m, wp + 1))
        | Some n => obind (wr m wp [ty]) (fun m => obind (XBT_Copy src ty n (wp + 1) (zlen m)) (fun st => obind (wr m (st_pos st) (st_bytes st)) (fun m => Ok (m, st_wp st)))) end) = Ok (m', wp') /\
       wp < wp' <= wp + 1 + value_size ty src + 11 /\ zlen m' = zlen m /\ except m m' wp wp' wp wp' /\ bvalue_at m' wp ty src wp').
  { intros n p bs e T U En V0 Hb Hp P1 Pe E1 E2 C (r & Er). rewrite En. cbn [obind]. destruct (Z.eqb_spec ty XBT_UNKNOWN); [contradiction|]. pose proof (zlen_nonneg bs).
    destruct (wr_fits m wp [ty] (one_byte ty T) W) as (m1 & F1 & L1 & H1 & X1); [lens; lia|]. lens. rewrite F1. cbn [obind]. rewrite L1, C. cbn [obind st_pos st_bytes st_wp].
    destruct (wr_fits m1 p bs Hb ltac:(lia)) as (m2 & F2 & L2 & H2 & X2); [lia|]. rewrite F2. cbn [obind]. specialize (X1 wp (wp + 1)). specialize (X2 p (p + zlen bs)).
    exists m2, e. split; [reflexivity|]. split; [lia|]. split; [lia|]. split; [eapply except_trans; [exact X1|exact X2|lia|lia|lia|lia]|].
    split; [lia|]. split; [split; [eapply has_except; [exact X2|exact H1|lens; lia|lens; lia]|lens; lia]|]. intros _. rewrite <- Hp. subst bs. apply has_app in H2. rewrite zlen_app in *. pose proof (zlen_nonneg r). split; [apply H2|lia]. }
  destruct V as [V|(Bs & -> & L)].
  - pose proof (there_kind _ _ V N) as K. pose proof (k_size _ _ K). pose proof (k_more _ _ K). pose proof (k_len _ _ K). destruct (k_names _ _ K) as (N1 & _ & N3 & N4).
    pose proof (align_to_range (XBT_Align ty) (wp + 1) (k_align _ _ K)). assert (Lb : zlen (ztake (copied ty src) src) = copied ty src) by (rewrite zlen_take; lia).
    eapply (G (content ty src)); [lia|exact N3| |lia|apply bytes_take, V|reflexivity|lia|rewrite Lb; reflexivity|lia|lia|apply copy_there; [exact K|lia]|eexists; apply value_bytes_of, K].
    unfold node_bin_size. destruct (isin ty [XBT_BLOB; XBT_HEX]) eqn:Ev.
    + rewrite (blob_length _ _ V Ev). cbn [isin existsb] in Ev. replace ((ty =? XBT_BLOB) || (ty =? XBT_HEX)) with true; [reflexivity|]. symmetry. rewrite <- Ev. unfold isin. cbn [existsb]. rewrite orb_false_r. reflexivity.
    + unfold content. rewrite Ev. unfold isin in Ev. cbn [existsb] in Ev. rewrite orb_false_r in Ev. rewrite Ev. destruct (Z.eqb_spec ty XBT_STRING); [contradiction|]. destruct (Z.eqb_spec ty XBT_NULL); [contradiction|]. reflexivity.
  - destruct (cstr_stored src L) as (r & Er). set (s := cstr src) in *. pose proof (zlen_nonneg s) as S0.
    assert (Vs : value_size XBT_STRING src = zlen s + 1) by reflexivity. rewrite Vs in *.
    assert (Vb : value_bytes XBT_STRING src = s ++ [0]).
    { unfold value_bytes. rewrite Vs. rewrite Er. rewrite ztake_app_ge by lia. f_equal. replace (zlen s + 1 - zlen s) with 1 by lia. reflexivity. }
    eapply (G (zlen s) (wp + 1) (s ++ [0]) (wp + 1 + (zlen s + 1))); [unfold XBT_STRING; lia|discriminate| |lia| |reflexivity|lia|rewrite zlen_app; reflexivity|lia|lia| |].
    + change (node_bin_size XBT_STRING src) with (obind (rd_str src 0) (fun s => Ok (Some (zlen s)))). unfold rd_str. change (0 <=? 0) with true. destruct (Z.ltb_spec 0 (zlen src)); [|lia]. cbn [andb]. cbv zeta. rewrite zskip_0. fold s. destruct (Z.ltb_spec (0 + zlen s) (zlen src)); [|lia]. reflexivity.
    + rewrite Er in Bs. rewrite bytes_app in *. split; [apply Bs|apply one_byte; lia].
    + unfold XBT_Copy. change (XBT_Size2 XBT_STRING (zlen s)) with (Ok (zlen s + 1)). cbn [obind]. change (XBT_Align XBT_STRING) with 0. destruct (Z.ltb_spec (zlen m - (wp + 1)) (zlen s + 1 + 0)); [lia|]. change (XBT_STRING =? XBT_STRING) with true. cbv iota. cbv zeta. fold s. destruct (Z.eqb_spec (zlen s) (zlen src)); [lia|]. reflexivity.
    + exists []. rewrite Vb, app_nil_r. reflexivity.
Qed.

(** ** Elements *)
Definition bkids_at (P : Z -> Z -> bnode -> Prop) m x :=
  fix go c (l : list bnode) wp e {struct l} : Prop :=
    match l with
    | [] => e = wp
    | k :: r => exists e1, P (align_up 4 wp) e1 k /\ align_up 4 wp <= e1 /\ inside m c (c + 4) c (le 4 (align_up 4 wp - x)) /\ go (c + 4) r e1 e
    end.
Fixpoint bnode_at m x e (t : bnode) {struct t} : Prop :=
  let '(BNode name ty src attrs kids) := t in
  exists id e1 e2, find_ name (cr_tags cr) = Ok id /\ x mod 4 = 0 /\ 0 <= x /\
  inside m x (x + 8) x (le 2 id ++ le 2 (zlen attrs) ++ le 4 (zlen kids)) /\ inside m (x + 8) (x + 12) (x + 8) (le 4 (e - x)) /\
  bvalue_at m (x + 12 + 8 * zlen attrs + 4 * zlen kids) ty src e1 /\
  battrs_at m x (x + 12) attrs e1 e2 /\
  bkids_at (fun y e t => bnode_at m y e t) m x (x + 12 + 8 * zlen attrs) kids e2 e.

Lemma bnode_ind' (P : bnode -> Prop) : (forall n ty v a k, Forall P k -> P (BNode n ty v a k)) -> forall t, P t.
Proof.
  intros H. fix IH 1. intros [n ty v a k]. apply H. induction k as [|t r IHr]; constructor; [apply IH|exact IHr].
Qed.
Lemma bkids_mono P m x l : forall c wp e, bkids_at P m x c l wp e -> wp <= e.
Proof.
  induction l as [|k l IH]; intros c wp e; cbn; [lia|]. intros (e1 & _ & A & _ & B). apply IH in B. pose proof (align_up_ge 4 wp ltac:(lia)). lia.
Qed.
Lemma bnode_mono m t x e : bnode_at m x e t -> x + 13 <= e /\ x mod 4 = 0 /\ 0 <= x.
Proof.
  destruct t as [name ty src attrs kids]. cbn [bnode_at]. intros (id & e1 & e2 & _ & X & X0 & _ & _ & (V & _) & A & K).
  apply battrs_mono in A. apply bkids_mono in K. pose proof (zlen_nonneg attrs). pose proof (zlen_nonneg kids). lia.
Qed.
Lemma bkids_frame (P P' : Z -> Z -> bnode -> Prop) m m' x l : forall c wp e, moves m m' c (c + 4 * zlen l) ->
  Forall (fun k => forall y e1, wp <= y -> e1 <= e -> P y e1 k -> P' y e1 k) l ->
  bkids_at P m x c l wp e -> bkids_at P' m' x c l wp e.
Proof.
  induction l as [|k l IH]; intros c wp e S F; cbn; [auto|]. rewrite zlen_cons in S. pose proof (zlen_nonneg l).
  intros (e1 & A & L & B & R). pose proof (bkids_mono _ _ _ _ _ _ _ R). pose proof (align_up_ge 4 wp ltac:(lia)). inversion F; subst.
  exists e1. split; [apply H4; [lia|lia|exact A]|]. split; [exact L|].
  split; [eapply inside_frame; [eapply moves_in; [exact S|lia|lia]|exact B]|].
  apply IH; [eapply moves_in; [exact S|lia|lia]| |exact R]. eapply Forall_impl; [|exact H5]. intros t Ht y e3 Hy He. apply Ht; lia.
Qed.
Lemma bnode_frame m m' t : forall x e, moves m m' x e -> bnode_at m x e t -> bnode_at m' x e t.
Proof.
  induction t as [name ty src attrs kids IH] using bnode_ind'. intros x e S. cbn [bnode_at].
  intros (id & e1 & e2 & F & X & X0 & H1 & H2 & V & A & K). pose proof (battrs_mono _ _ _ _ _ _ A). pose proof (bkids_mono _ _ _ _ _ _ _ K).
  pose proof (proj1 V). pose proof (zlen_nonneg attrs). pose proof (zlen_nonneg kids).
  exists id, e1, e2. split; [exact F|]. split; [exact X|]. split; [exact X0|].
  split; [eapply inside_frame; [eapply moves_in; [exact S|lia|lia]|exact H1]|]. split; [eapply inside_frame; [eapply moves_in; [exact S|lia|lia]|exact H2]|].
  split; [eapply bvalue_frame; [eapply moves_in; [exact S|lia|lia]|exact V]|].
  split; [eapply battrs_frame; [eapply moves_in; [exact S|lia|lia]|eapply moves_in; [exact S|lia|lia]|exact A]|].
  eapply bkids_frame; [eapply moves_in; [exact S|lia|lia]| |exact K]. eapply Forall_impl; [|exact IH]. intros k Hk y e3 L U Hn. apply Hk; [|exact Hn].
  eapply moves_in; [exact S|lia|lia].
Qed.

Lemma value_size_nonneg ty src : value_there ty src \/ string_there ty src -> 0 <= value_size ty src.
Proof.
  intros [A|(_ & -> & _)]; [|unfold value_size; known; pose proof (zlen_nonneg (cstr src)); lia].
  destruct (Z.eq_dec ty XBT_NULL) as [->|N]; [vm_compute; congruence|]. apply (k_size _ _ (there_kind _ _ A N)).
Qed.
Lemma attrs_room l : (forall a, In a l -> bin_attr_ok a) -> 8 * zlen l <= total (map attr_room l).
Proof.
  induction l as [|a l IH]; intros H; [vm_compute; congruence|]. rewrite zlen_cons. cbn [map total fold_right]. fold (total (map attr_room l)).
  pose proof (attr_value_size a (H a (or_introl eq_refl))). specialize (IH (fun a Hin => H a (or_intror Hin))). lia.
Qed.
Lemma in_kids n ty s a k t u : In t k -> In u (belements t) -> In u (belements (BNode n ty s a k)).
Proof. intros H1 H2. right. apply in_flat_map. exists t. auto. Qed.
Definition named (t : bnode) : Prop :=
  (exists id, find_ (bname t) (cr_tags cr) = Ok id) /\ forall a, In a (battrs t) -> exists id, find_ (fst (fst a)) (cr_params cr) = Ok id.

Lemma bin_room_35 t : (forall u, In u (belements t) -> bin_element_ok u) -> 35 <= bin_room t.
Proof.
  induction t as [n ty s a k IH] using bnode_ind'. intros H. destruct (H _ (or_introl eq_refl)) as (V & A & _). cbn [bin_room].
  assert (0 <= value_size ty s) by (apply value_size_nonneg; tauto). pose proof (attrs_room a A). pose proof (zlen_nonneg a).
  assert (0 <= total (map bin_room k)); [|lia]. rewrite Forall_forall in IH.
  assert (Hk : forall t, In t k -> 35 <= bin_room t) by (intros t Ht; apply IH; [exact Ht|intros u Hu; eapply H, in_kids; eassumption]). clear - Hk.
  induction k as [|t k IHk]; [vm_compute; congruence|]. cbn [map total fold_right]. fold (total (map bin_room k)). pose proof (Hk t (or_introl eq_refl)). specialize (IHk (fun t Hin => Hk t (or_intror Hin))). lia.
Qed.

Lemma BinWriteNode_ok t : (forall u, In u (belements t) -> bin_element_ok u /\ named u) ->
  forall m wp, 0 <= wp -> wp + bin_room t <= zlen m ->
  exists m' wp', BinWriteNode cr m wp t = Ok (m', wp', align_up 4 wp) /\ align_up 4 wp < wp' <= wp + bin_room t - 8 /\ zlen m' = zlen m /\
    except m m' (align_up 4 wp) wp' (align_up 4 wp) wp' /\ bnode_at m' (align_up 4 wp) wp' t.
Proof.
  induction t as [name ty src attrs kids IH] using bnode_ind'. intros G m wp Hw R. cbn [BinWriteNode bin_room] in *.
  destruct (G _ (or_introl eq_refl)) as [(Hv & Ha & Hpc & Hcc) (Hn & Hna)]. cbn [bname battrs] in *.
  set (X := align_up 4 wp) in *. assert (X4 : X mod 4 = 0) by (apply align_up_mod; lia). assert (Xg : wp <= X <= wp + 3) by (unfold X, align_up; lia).
  pose proof (zlen_nonneg attrs). pose proof (zlen_nonneg kids).
  assert (PC : s16 (zlen attrs) = zlen attrs) by (unfold s16; lia). assert (CC : s32 (zlen kids) = zlen kids) by (unfold s32, INT_MAX in *; lia).
  assert (Hv' : value_there ty src \/ string_there ty src) by tauto. pose proof (value_size_nonneg ty src Hv') as V0. pose proof (attrs_room attrs Ha) as A0.
  assert (K0 : forall l, (forall k, In k l -> In k kids) -> 35 * zlen l <= total (map bin_room l)).
  { clear - G. induction l as [|t k IHk]; intros Hk; [vm_compute; congruence|]. rewrite zlen_cons. cbn [map total fold_right]. fold (total (map bin_room k)). specialize (IHk (fun t Hin => Hk t (or_intror Hin))).
    assert (35 <= bin_room t); [|lia]. apply bin_room_35. intros u Hu. eapply G, in_kids; [apply Hk; left; reflexivity|exact Hu]. }
  pose proof (K0 kids (fun _ Hk => Hk)) as K1.
  destruct Hn as (id & Fid). rewrite Fid. cbn [obind]. cbv zeta. rewrite PC, CC.
  assert (Bh : bytes (le 2 id ++ le 2 (zlen attrs) ++ le 4 (zlen kids))) by (rewrite !bytes_app; repeat split; apply le_bytes).
  assert (L8 : zlen (le 2 id ++ le 2 (zlen attrs) ++ le 4 (zlen kids)) = 8) by (rewrite !zlen_app, !le_zlen; reflexivity).
  destruct (wr_fits m X _ Bh ltac:(lia)) as (m1 & E1 & L1 & H1 & X1); [lia|]. rewrite E1. cbn [obind]. rewrite L8 in X1. specialize (X1 X (X + 8)).
  set (c := X + 12 + 8 * zlen attrs) in *.
  destruct (store_bin_value_ok m1 (c + 4 * zlen kids) ty src Hv' ltac:(lia) ltac:(lia)) as (m2 & wp2 & E2 & W2 & L2 & X2 & V2). rewrite E2. cbn [obind].
  destruct (store_bin_params_ok X attrs (fun a Hin => conj (Hna a Hin) (Ha a Hin)) m2 wp2 (X + 12) ltac:(lia) ltac:(lia) ltac:(lia) ltac:(lia)) as (m3 & wp3 & E3 & W3 & L3 & X3 & V3). rewrite E3. cbn [obind].
  assert (K : forall l, (forall k, In k l -> In k kids) -> forall m wp c, X < wp -> c + 4 * zlen l <= wp -> X <= c -> wp + total (map bin_room l) - 8 * zlen l + 8 <= zlen m ->
     exists m' wp', store_bin_children (fun m wp t => BinWriteNode cr m wp t) X m wp c l = Ok (m', wp') /\
     wp <= wp' <= wp + total (map bin_room l) - 8 * zlen l /\ zlen m' = zlen m /\ except m m' c (c + 4 * zlen l) wp wp' /\ bkids_at (fun y e t => bnode_at m' y e t) m' X c l wp wp').
  { clear - IH G Xg Hw K0. induction l as [|k l IHl]; intros Hk m wp1 c Hwp Hc Hcx R.
    - change (zlen (@nil bnode)) with 0 in *. cbn [map total fold_right] in *. cbn. exists m, wp1. split; [reflexivity|]. split; [lia|]. split; [reflexivity|]. split; [apply except_refl|reflexivity].
    - cbn [store_bin_children map total fold_right] in *. fold (total (map bin_room l)) in *. rewrite zlen_cons in *. pose proof (zlen_nonneg l). pose proof (K0 l (fun k Hin => Hk k (or_intror Hin))).
      rewrite Forall_forall in IH. pose proof (Hk k (or_introl eq_refl)) as Hin. pose proof (align_up_ge 4 wp1 ltac:(lia)) as Yg.
      destruct (IH k Hin (fun u Hu => G u (in_kids _ _ _ _ _ _ _ Hin Hu)) m wp1 ltac:(lia) ltac:(lia)) as (m1 & wp2 & E1 & A1 & L1 & A3 & A4). rewrite E1. cbn [obind].
      destruct (wr_fits m1 c (le 4 (align_up 4 wp1 - X)) (le_bytes _ _) ltac:(lia)) as (m2 & E2 & L2 & B3 & B4); [lens; lia|]. lens. rewrite E2. cbn [obind].
      pose proof (B4 c (c + 4)) as X2.
      destruct (IHl (fun k Hin => Hk k (or_intror Hin)) m2 wp2 (c + 4) ltac:(lia) ltac:(lia) ltac:(lia) ltac:(lia)) as (m' & wp' & E3 & C1 & L3 & C2 & C3).
      exists m', wp'. split; [exact E3|]. split; [lia|]. split; [lia|].
      assert (Y : except m1 m' c (c + 4 * (1 + zlen l)) wp2 wp') by (eapply except_trans; [exact X2|exact C2|lia|lia|lia|lia]).
      split; [eapply except_trans; [exact A3|exact Y|lia|lia|lia|lia]|].
      exists wp2. split; [eapply bnode_frame; [|exact A4]; eapply except_moves; [exact Y|lia|lia]|]. split; [lia|].
      split; [split; [|lens; lia]; eapply has_except; [exact C2|exact B3|lens; lia|lens; lia]|]. exact C3. }
  destruct (K kids (fun k Hin => Hin) m3 wp3 c ltac:(lia) ltac:(lia) ltac:(lia) ltac:(lia)) as (m4 & wp4 & E4 & W4 & L4 & X5 & V4).
  match goal with |- context [store_bin_children ?f X m3 wp3 c kids] => replace (store_bin_children f X m3 wp3 c kids) with (Ok (m4, wp4)) by (symmetry; exact E4) end. cbn [obind].
  destruct (wr_fits m4 (X + 8) (le 4 (wp4 - X)) (le_bytes _ _) ltac:(lia)) as (m5 & E5 & L5 & H5 & X6); [lens; lia|]. lens. rewrite E5. cbn [obind]. specialize (X6 (X + 8) (X + 12)).
  exists m5, wp4. split; [reflexivity|]. split; [lia|]. split; [lia|].
  assert (Z3 : except m3 m5 (X + 8) wp4 (X + 8) wp4) by (eapply except_trans; [exact X5|exact X6|lia|lia|lia|lia]).
  assert (Z2 : except m2 m5 (X + 8) wp4 (X + 8) wp4) by (eapply except_trans; [exact X3|exact Z3|lia|lia|lia|lia]).
  assert (Z1 : except m1 m5 (X + 8) wp4 (X + 8) wp4) by (eapply except_trans; [exact X2|exact Z2|lia|lia|lia|lia]).
  split; [eapply except_trans; [exact X1|exact Z1|lia|lia|lia|lia]|].
  cbn [bnode_at]. exists id, wp2, wp3. split; [exact Fid|]. split; [exact X4|]. split; [lia|].
  split; [split; [eapply has_except; [exact Z1|exact H1|rewrite L8; lia|rewrite L8; lia]|rewrite L8; lia]|].
  split; [split; [exact H5|lens; lia]|]. fold c.
  split; [eapply bvalue_frame; [|exact V2]; intros q cs Hq Ql Qh; eapply has_except; [exact X6| |lia|lia]; eapply has_except; [exact X5| |lia|lia]; eapply has_except; [exact X3|exact Hq|lia|lia]|].
  split; [eapply battrs_frame; [| |exact V3]; intros q cs Hq Ql Qh; (eapply has_except; [exact X6| |lia|lia]); (eapply has_except; [exact X5|exact Hq|lia|lia])|].
  eapply bkids_frame; [|apply Forall_forall; intros k _ y e1 Hy He Hk|exact V4].
  - eapply except_moves; [exact X6|lia|lia].
  - eapply bnode_frame; [|exact Hk]. eapply except_moves; [exact X6|lia|lia].
Qed.

End BIN.
