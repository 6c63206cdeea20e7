(** Printing documents as XML. *)
From Verif Require Import Base BaseFacts ListFacts Types NumSpec CalSpec Scan Dates DatesProofs ScalarSpec ChunkProofs ScalarProofs RingProofs ShownProofs RoundtripProofs SteadyProofs
  Sort SortProofs Symtab SymtabSpec SymtabProofs Xb XbSpec XbFacts XbSymProofs XbWrite DocSpec ReadSpec WriteProofs FillProofs InitProofs OpenProofs ReadProofs AppendSpec AppendProofs
  XmlOut XmlSpec XmlFacts XmlLayout.

(** ** Values in chunks *)

(** All of [v] comes through the buffer [buf]. *)
Definition printed (get : Z -> list Z -> outcome chunk) (v buf : list Z) (steps : nat) : Prop :=
  exists c, get 0 buf = Ok c /\
  match v with
  | [] => ck_ret c = 0
  | _ => ck_ret c <> 0 /\ exists r, print_chunks get steps (ck_offset c) (ck_dst c) = rret r /\ v = cstr (ck_dst c) ++ r
  end.
Lemma printed_all get v buf steps : printed get v buf steps -> forall n, (steps < n)%nat -> (forall n' o d r, print_chunks get steps o d = rret r -> (steps <= n')%nat -> print_chunks get n' o d = rret r) ->
  print_chunks get n 0 buf = rret v.
Proof.
  intros (c & E & H) n Hn Mono. destruct n as [|n]; [lia|]. cbn [print_chunks]. rewrite E. change (Some (Ok c)) with (rret c). rb. destruct v as [|x v].
  - rewrite H. reflexivity.
  - destruct H as (N & r & Er & Ev). destruct (Z.eqb_spec (ck_ret c) 0); [contradiction|]. rewrite (Mono n _ _ _ Er) by lia. rb. rewrite Ev. reflexivity.
Qed.
Lemma print_mono get steps : forall n' o d r, print_chunks get steps o d = rret r -> (steps <= n')%nat -> print_chunks get n' o d = rret r.
Proof.
  induction steps as [|k IH]; intros n' o d r H Hn; [discriminate H|]. destruct n' as [|n']; [lia|]. cbn [print_chunks] in *. destruct (get o d) as [c| |]; [|exact H|exact H].
  change (Some (Ok c)) with (rret c) in *. rewrite rbind_ret in *. destruct (ck_ret c =? 0); [exact H|].
  destruct (print_chunks get k (ck_offset c) (ck_dst c)) as [[r0| |]|] eqn:E; try discriminate H. rewrite (IH n' _ _ r0 E) by lia. exact H.
Qed.
Lemma printed_more get v buf k steps : printed get v buf k -> (k <= steps)%nat -> printed get v buf steps.
Proof. intros (c & E & H) Hk. exists c. split; [exact E|]. destruct v as [|x v]; [exact H|]. destruct H as (N & r & Er & Ev). split; [exact N|]. exists r. split; [eapply print_mono; eassumption|exact Ev]. Qed.
Lemma printed_text get v buf k steps : printed get v buf k -> (k < steps)%nat -> print_chunks get steps 0 buf = rret v.
Proof. intros H Hk. eapply printed_all; [exact H|exact Hk|intros; eapply print_mono; eassumption]. Qed.
Lemma print_ext get get' steps : (forall o d, get o d = get' o d) -> forall o d, print_chunks get steps o d = print_chunks get' steps o d.
Proof.
  intros H. induction steps as [|k IH]; intros o d; [reflexivity|]. cbn [print_chunks]. rewrite H. destruct (get' o d) as [c| |]; [|reflexivity|reflexivity]. change (Some (Ok c)) with (rret c). rb. destruct (ck_ret c =? 0); [reflexivity|]. rewrite IH. reflexivity.
Qed.
Lemma printed_ext get get' v buf steps : (forall o d, get o d = get' o d) -> printed get' v buf steps -> printed get v buf steps.
Proof. intros H (c & E & P). exists c. rewrite H. split; [exact E|]. destruct v as [|x v]; [exact P|]. destruct P as (N & r & Er & Ev). split; [exact N|]. exists r. rewrite (print_ext get get' _ H). auto. Qed.

Lemma text_printed s steps : cstring s -> forall offset dst, 256 < zlen dst -> 0 <= offset <= zlen s -> (Z.to_nat (zlen s - offset) < steps)%nat ->
  print_chunks (text_chunk s) steps offset dst = rret (zskip offset s).
Proof.
  intros Hs. induction steps as [|k IH]; intros offset dst Hd Ho Hk; [lia|]. cbn [print_chunks]. destruct (text_chunk_spec s offset dst Hs Hd ltac:(lia)) as (c & -> & Hl & Hr & Hof & Ht).
  change (Some (Ok c)) with (rret c). rb. destruct (Z.eqb_spec (ck_ret c) 0) as [E|E]; [rewrite zskip_all by lia; reflexivity|]. destruct (Ht ltac:(lia)) as (_ & Ht'). rewrite Ht', Hof.
  rewrite IH by lia. rb. replace (offset + ck_ret c) with (ck_ret c + offset) by lia. rewrite <- zskip_zskip by lia. rewrite ztake_zskip. reflexivity.
Qed.
Lemma string_printed s buf : cstring s -> 256 < zlen buf -> printed (text_chunk s) s buf (S (List.length s)).
Proof.
  intros Hs Hb. destruct (text_chunk_spec s 0 buf Hs Hb ltac:(lia)) as (c & E & Hl & Hr & Hof & Ht). exists c. split; [exact E|]. pose proof (zlen_nonneg s). destruct s as [|x s].
  - rewrite Hr. change (zlen []) with 0. lia.
  - rewrite zlen_cons in *. pose proof (zlen_nonneg s). split; [lia|]. exists (zskip (ck_offset c) (x :: s)). destruct (Ht ltac:(lia)) as (_ & Ht'). split.
    + apply text_printed; try assumption; rewrite ?zlen_cons; try lia. unfold zlen in *. cbn [List.length]. lia.
    + rewrite Ht', Hof. change (zskip 0 (x :: s)) with (x :: s). rewrite Z.add_0_l. symmetry. apply ztake_zskip.
Qed.

Definition small_types : list Z := [XBT_INT32; XBT_INT32_DECI; XBT_INT32_CENTI; XBT_INT32_MILI; XBT_INT32_MICRO; XBT_INT32_NANO; XBT_UNIX_TIME; XBT_UNIX_DATE; XBT_SHA1].
Lemma whole_facts d off t c : whole d off t = Ok c -> ck_ret c = zlen t /\ ck_offset c = off /\ cstr (ck_dst c) = cstr t /\ zlen d <= zlen (ck_dst c).
Proof.
  intros H. split; [|split; [|split]]; [inversion H; reflexivity|inversion H; reflexivity|eapply whole_cstr, H|]. unfold whole in H. inversion H. cbn [ck_dst]. rewrite bput_0, zlen_app, zlen_skip by apply zlen_nonneg. pose proof (zlen_nonneg (t ++ [0])). lia.
Qed.
Lemma chunk_stops fl ty data off dst : In ty small_types -> 256 < zlen dst -> 0 < off -> (ty = XBT_SHA1 -> off = 20) -> exists c, XBT_ToStringChunk fl ty data off dst = Ok c /\ ck_ret c = 0.
Proof.
  intros Hin Hd Ho Hs. unfold XBT_ToStringChunk. rewrite guard by assumption. cbv zeta. assert (H0 : (0 <? off) = true) by lia. rewrite H0.
  unfold small_types in Hin. cbn [In] in Hin. destruct Hin as [<-|[<-|[<-|[<-|[<-|[<-|[<-|[<-|[<-|[]]]]]]]]]]; try (eexists; split; reflexivity). rewrite (Hs eq_refl). eexists. split; reflexivity.
Qed.
Lemma cstr_nil t : cstr t <> [] -> zlen t <> 0.
Proof. intros H E. destruct t as [|c t]; [apply H; reflexivity|]. rewrite zlen_cons in E. pose proof (zlen_nonneg t). lia. Qed.
Lemma chunk_prints fl ty data d1 c1 dst : In ty small_types -> history_free ty data -> 256 < zlen d1 -> 256 < zlen dst -> XBT_ToStringChunk fl ty data 0 d1 = Ok c1 -> cstr (ck_dst c1) <> [] ->
  printed (XBT_ToStringChunk fl ty data) (cstr (ck_dst c1)) dst 1.
Proof.
  intros Hin (_ & _ & Hdate & _) H1 H2 E1 Ne.
  assert (Big : zlen (opened dst) = zlen dst) by (apply opened_len, H2).
  assert (W : forall d d' off t, whole d off t = Ok c1 -> zlen d' = zlen dst -> 0 < off -> ty <> XBT_SHA1 -> XBT_ToStringChunk fl ty data 0 dst = whole d' off t -> printed (XBT_ToStringChunk fl ty data) (cstr (ck_dst c1)) dst 1).
  { intros d d' off t Ew Hd Ho Hns E2. destruct (whole_facts _ _ _ _ Ew) as (_ & _ & A & _). rewrite A in *. destruct (whole d' off t) as [c2| |] eqn:Ew2; try discriminate Ew2. destruct (whole_facts _ _ _ _ Ew2) as (B1 & B2 & B3 & B4).
    exists c2. split; [exact E2|]. pose proof (cstr_nil _ Ne) as Hz. destruct (cstr t) as [|x v] eqn:Et; [contradiction|]. split; [lia|]. exists []. rewrite app_nil_r, B3. split; [|reflexivity].
    cbn [print_chunks]. destruct (chunk_stops fl ty data (ck_offset c2) (ck_dst c2) Hin ltac:(lia) ltac:(lia) ltac:(intros; contradiction)) as (c3 & -> & E3). change (Some (Ok c3)) with (rret c3). rb. rewrite E3. reflexivity. }
  assert (Hfx : forall k, In (ty, k) fixed_types -> ty <> XBT_SHA1 -> printed (XBT_ToStringChunk fl ty data) (cstr (ck_dst c1)) dst 1).
  { intros k Hk Hns. rewrite (chunk_fixed fl ty k) in E1 by assumption. cbv zeta in E1. destruct (s32 (unle (ztake 4 data)) =? INT_MIN) eqn:Ev; [discriminate E1|].
    apply (W _ _ _ _ E1 Big ltac:(lia) Hns). rewrite (chunk_fixed fl ty k) by assumption. cbv zeta. rewrite Ev. reflexivity. }
  unfold small_types in Hin. cbn [In] in Hin. destruct Hin as [E|[E|[E|[E|[E|[E|[E|[E|[E|[]]]]]]]]]]; subst ty.
  - rewrite chunk_int32 in E1 by assumption. apply (W _ _ _ _ E1 Big ltac:(lia) ltac:(discriminate)). apply chunk_int32, H2.
  - apply (Hfx 1); [cbn; tauto|discriminate].
  - apply (Hfx 2); [cbn; tauto|discriminate].
  - apply (Hfx 3); [cbn; tauto|discriminate].
  - apply (Hfx 6); [cbn; tauto|discriminate].
  - apply (Hfx 9); [cbn; tauto|discriminate].
  - rewrite chunk_unix_time in E1 by assumption. cbv zeta in E1.
    assert (Z0 : zlen (zrepeat 0 (zlen dst - 1) ++ [0]) = zlen dst) by (rewrite zlen_app, zlen_repeat by lia; change (zlen [0]) with 1; lia).
    apply (W _ _ _ _ E1 Z0 ltac:(lia) ltac:(discriminate)). rewrite chunk_unix_time by assumption. reflexivity.
  - rewrite chunk_unix_date in E1 by assumption. destruct (Hdate eq_refl) as (d & V & N & Hl). pose proof (s32_range (unle (ztake 4 data))) as R.
    destruct (UnixDate2Str (s32 (unle (ztake 4 data)))) as [t| |] eqn:E; [| |discriminate E1].
    + apply (W _ _ _ _ E1 Big ltac:(lia) ltac:(discriminate)). rewrite chunk_unix_date, E by assumption. reflexivity.
    + exfalso. assert (Hm : INT_MIN + 10957 <= s32 (unle (ztake 4 data))).
      { unfold UnixDate2Str in E. destruct (int32b (s32 (unle (ztake 4 data)) - 10957)) eqn:E2; cbn [negb] in E; [|discriminate E]. unfold int32b in E2. unfold INT_MIN. lia. }
      rewrite (UnixDate2Str_ok _ d R Hm V N), Hl in E. discriminate E.
  - rewrite chunk_sha1 in E1 by assumption. inversion E1 as [Ec]. clear E1. cbn [ck_dst]. rewrite cstr_bput0. assert (Ne' : cstr (Hex2Str (ztake (20 - 0) (zskip 0 data))) <> []) by (rewrite <- Ec in Ne; cbn [ck_dst] in Ne; rewrite cstr_bput0 in Ne; exact Ne).
    eexists. split; [apply chunk_sha1, H2|]. cbn [ck_ret ck_offset ck_dst]. destruct (cstr (Hex2Str (ztake (20 - 0) (zskip 0 data)))) as [|x v] eqn:Et; [contradiction|]. split; [lia|]. exists []. rewrite app_nil_r, cstr_bput0, Et. split; [|reflexivity].
    cbn [print_chunks]. match goal with |- context [XBT_ToStringChunk fl XBT_SHA1 data 20 ?b] => assert (Lb : 256 < zlen b) end.
    { rewrite bput_0, zlen_app, zlen_skip by apply zlen_nonneg. pose proof (zlen_nonneg (Hex2Str (ztake (20 - 0) (zskip 0 data)) ++ [0])). lia. }
    destruct (chunk_stops fl XBT_SHA1 data 20 _ ltac:(cbn; tauto) Lb ltac:(lia) ltac:(reflexivity)) as (c3 & -> & E3). change (Some (Ok c3)) with (rret c3). rb. rewrite E3. reflexivity.
Qed.

(** A steady text other than a GUID, from where the converter stored it. *)
Lemma exact_nonempty t : exact_text t -> XBT_Detect t <> XBT_INT64 -> XBT_Detect t <> XBT_UINT64 -> t <> [].
Proof.
  intros S N1 N2 ->. destruct (exact_form (mkfloats (fun _ => 0) (fun _ => [])) [] 0 0 S ltac:(lia)) as (bs & _ & F & _). destruct (form_ok [] _ bs [] F N1 N2) as (_ & _ & _ & N). apply N. reflexivity.
Qed.

Lemma small_chunk fl ty data out s st' t : In ty small_types -> XBT_ToString fl ty data out ring0 = Ok (s, st') -> shown_text s st' = Some t ->
  exists d1 c1, 256 < zlen d1 /\ XBT_ToStringChunk fl ty data 0 d1 = Ok c1 /\ cstr (ck_dst c1) = t.
Proof.
  intros Hin E T. unfold XBT_ToString in E. cbv zeta in E. pose proof (ring_buf ring0 (rg_idx ring0) ring0_ok (proj2 (proj2 ring0_ok))) as B.
  assert (Hty : (ty =? XBT_NULL) = false /\ (ty =? XBT_STRING) = false /\ (ty =? XBT_GUID) = false /\ isin ty ring_types = true).
  { unfold small_types in Hin. cbn [In] in Hin. destruct Hin as [<-|[<-|[<-|[<-|[<-|[<-|[<-|[<-|[<-|[]]]]]]]]]]; repeat split; reflexivity. }
  destruct Hty as (T1 & T2 & T3 & T4). rewrite T1, T2, T3 in E. unfold ring_types in T4. rewrite T4 in E. set (d1 := nth (Z.to_nat (rg_idx ring0)) (rg_bufs ring0) []) in *.
  destruct (XBT_ToStringChunk fl ty data 0 d1) as [c1| |] eqn:E1; try discriminate E. cbn [obind] in E. exists d1, c1. split; [lia|]. split; [exact E1|].
  pose proof ring0_ok as (RL & _ & RI). inversion E as [[Es Est]]. subst s. rewrite <- Est in T. unfold shown_text in T. cbn [rg_bufs] in T. rewrite set_nth_same in T by (cbn in *; lia). inversion T. reflexivity.
Qed.
Lemma string_chunk_prints fl s rest buf : cstring s -> 256 < zlen buf -> printed (XBT_ToStringChunk fl XBT_STRING (s ++ 0 :: rest)) s buf (S (List.length s)).
Proof.
  intros Hs Hb. destruct (string_printed s buf Hs Hb) as (c & Ec & P).
  assert (Ex : forall o d, 256 < zlen d -> XBT_ToStringChunk fl XBT_STRING (s ++ 0 :: rest) o d = text_chunk s o d) by (intros o d Hd; rewrite chunk_string, cstr_app by assumption; reflexivity).
  exists c. rewrite Ex by assumption. split; [exact Ec|]. destruct s as [|x t]; [exact P|]. destruct P as (P1 & r & P2 & P3). split; [exact P1|]. exists r. split; [|exact P3].
  assert (Lc : 256 < zlen (ck_dst c) /\ 0 <= ck_offset c).
  { destruct (text_chunk_spec (x :: t) 0 buf Hs Hb ltac:(lia)) as (c' & E' & Hl & Hr & Ho & _). rewrite Ec in E'. inversion E'; subst c'. pose proof (zlen_nonneg (x :: t)). lia. }
  revert P2. generalize (ck_offset c) (ck_dst c) r Lc. generalize (Datatypes.S (List.length (x :: t))). clear - Ex Hs. intros n. induction n as [|n IH]; intros o d r (Ld & Lo) P2; [discriminate P2|]. cbn [print_chunks] in *. rewrite Ex by assumption.
  destruct (text_chunk_spec (x :: t) o d Hs Ld Lo) as (c' & E' & Hl & Hr & Ho & _). rewrite E' in *. change (Some (Ok c')) with (rret c') in *. rewrite rbind_ret in *. destruct (ck_ret c' =? 0); [exact P2|].
  destruct (print_chunks (text_chunk (x :: t)) n (ck_offset c') (ck_dst c')) as [[r0| |]|] eqn:Er; try discriminate P2. rewrite (IH _ _ r0) by (try lia; exact Er). exact P2.
Qed.
Lemma stored_prints fl t wp limit : exact_text t -> XBT_Detect t <> XBT_INT64 -> XBT_Detect t <> XBT_UINT64 -> XBT_Detect t <> XBT_GUID -> 0 <= wp ->
  exists bs, stores fl t (XBT_Detect t) wp limit bs /\ XBT_Detect t <> XBT_UNIX_TIME64_MSEC /\
  forall rest buf, 256 < zlen buf -> readable (XBT_Detect t) (bs ++ rest) = true /\ printed (XBT_ToStringChunk fl (XBT_Detect t) (bs ++ rest)) t buf (S (List.length t)).
Proof.
  intros H N1 N2 N3 Hw. pose proof (exact_nonempty t H N1 N2) as Ne. destruct (exact_form fl t wp limit H Hw) as (bs & S & F & B). exists bs. split; [exact S|].
  split; [apply (form_ok t _ bs [] F N1 N2)|]. intros rest buf Hb. destruct (form_ok t _ bs rest F N1 N2) as (Hf & Rd & _). split; [exact Rd|].
  destruct (exact_keeps fl t H wp limit rest [] Hw) as (bs' & S' & s0 & st0 & E0 & T0). rewrite (stores_one _ _ _ _ _ _ _ S' S) in *. clear bs' S'.
  assert (Small : In (XBT_Detect t) small_types -> printed (XBT_ToStringChunk fl (XBT_Detect t) (bs ++ rest)) t buf (Datatypes.S (List.length t))).
  { intros Hin. destruct (small_chunk _ _ _ _ _ _ _ Hin E0 T0) as (d1 & c1 & D1 & E1 & C1). apply (printed_more _ _ _ 1); [|lia]. rewrite <- C1 at 2. eapply chunk_prints; try eassumption. rewrite C1. exact Ne. }
  destruct F as [[F _]|[(F & _)|[[F _]|[[F _]|[[F _]|(F & Eb & Hs)]]]]].
  - apply Small. unfold small_types. cbn [In] in F |- *. tauto.
  - apply Small. rewrite F. cbn. tauto.
  - cbn [In] in F. destruct F as [F|[F|[]]]; congruence.
  - contradiction.
  - apply Small. rewrite F. cbn. tauto.
  - rewrite F, Eb, <- app_assoc. apply string_chunk_prints; assumption.
Qed.

(** ** Elements *)
Fixpoint need (t : node) : nat :=
  let '(Node _ v a k) := t in
  (3 + List.length (text_in v) + List.length (flat_map snd a) + List.length k + fold_right Nat.max 0 (map need k))%nat.

Section PRINT.
Context (fl : floats) (cr : creator) (m : list Z) (R : reader) (root : node) (buf : list Z).
Context (Hb : bytes m) (Hm : zlen m <= INT_MAX) (Hbuf : 256 < zlen buf).
Context (M : made root cr).
Context (T1 : table_names m (rd_tags R) (names (cr_tags cr))) (T2 : table_names m (rd_params R) (names (cr_params cr))).

Lemma image_prints v p limit st0 : steady_text v -> XBT_Detect v <> XBT_GUID -> 0 <= p -> XBT_FromString fl v (XBT_Detect v) p limit = Ok st0 ->
  has m (st_pos st0) (st_bytes st0) -> printed (image_ToStringChunk fl m (XBT_Detect v) p) v buf (S (List.length v)).
Proof.
  intros (H1 & H2 & H3) H4 Hp E H. destruct (stored_prints fl v p limit H1 H2 H3 H4 Hp) as (bs & (sv & E' & Eb & P1 & P2 & P3) & N & S).
  rewrite E in E'. inversion E'; subst sv. clear E'. rewrite Eb in H.
  assert (P : align_to (XBT_Align (XBT_Detect v)) p = st_pos st0) by (rewrite P3; destruct (Z.eqb_spec (XBT_Detect v) XBT_UNIX_TIME64_MSEC); [contradiction|reflexivity]).
  destruct (has_skip _ _ _ H) as (rest & Er). destruct (S rest buf Hbuf) as (Rd & Pr). eapply printed_ext; [|exact Pr].
  intros o d. unfold image_ToStringChunk. cbv zeta. rewrite P, Er, Rd. pose proof (has_range _ _ _ H) as Hr. pose proof (zlen_nonneg bs).
  destruct (Z.leb_spec 0 (st_pos st0)); [|lia]. destruct (Z.leb_spec (st_pos st0) (zlen m)); [|lia]. reflexivity.
Qed.
Lemma string_prints s p : cstring s -> has m p (s ++ [0]) -> printed (image_ToStringChunk fl m XBT_STRING p) s buf (S (List.length s)).
Proof.
  intros Hs H. destruct (has_skip _ _ _ H) as (rest & Er). rewrite <- app_assoc in Er. cbn [app] in Er. eapply printed_ext; [|apply (string_chunk_prints fl s rest buf Hs Hbuf)].
  intros o d. unfold image_ToStringChunk. change (align_to (XBT_Align XBT_STRING) p) with p. cbv zeta. rewrite Er. pose proof (has_range _ _ _ H) as Hr. pose proof (zlen_nonneg (s ++ [0])).
  destruct (Z.leb_spec 0 p); [|lia]. destruct (Z.leb_spec p (zlen m)); [|lia]. cbn [andb].
  replace (readable XBT_STRING (s ++ 0 :: rest)) with true; [reflexivity|]. symmetry. change (zlen (cstr (s ++ 0 :: rest)) <? zlen (s ++ 0 :: rest) = true). rewrite cstr_app by exact Hs. rewrite zlen_app, zlen_cons. pose proof (zlen_nonneg rest). lia.
Qed.
Lemma null_prints p : 0 <= p <= zlen m -> printed (image_ToStringChunk fl m XBT_NULL p) [] buf 1.
Proof.
  intros Hp. unfold printed, image_ToStringChunk. change (align_to (XBT_Align XBT_NULL) p) with p. cbv zeta. destruct (Z.leb_spec 0 p); [|lia]. destruct (Z.leb_spec p (zlen m)); [|lia]. cbn [andb]. change (readable XBT_NULL (zskip p m)) with true. cbv iota.
  unfold XBT_ToStringChunk. rewrite guard by assumption. eexists. split; reflexivity.
Qed.

Lemma value_prints x p v limit e : value_pos m x = Ok p -> 0 <= p -> value_at fl m p v limit e ->
  (forall t, v = Some t -> (t = [] \/ steady_text t) /\ XBT_Detect t <> XBT_GUID) ->
  printed (getStringChunk fl m (Some x)) (text_in v) buf (S (List.length (text_in v))).
Proof.
  intros Hp Hp0 V Hs.
  assert (Hnull : forall e, inside m p e p [XBT_NULL] -> printed (getStringChunk fl m (Some x)) [] buf 1).
  { clear V e. intros e (A & B & C). pose proof (has_range _ _ _ A) as Hr. change (zlen [XBT_NULL]) with 1 in Hr. eapply printed_ext; [|apply (null_prints (p + 1)); lia]. intros o d. unfold getStringChunk, value_type. rewrite Hp. cbn [obind].
    rewrite (has_u8 _ _ XBT_NULL ltac:(unfold XBT_NULL; lia) A). reflexivity. }
  destruct V as (V0 & V). destruct v as [t|].
  - destruct V as (A & sv & B & C & D). destruct (Hs t eq_refl) as ([->|S] & G); [exact (Hnull _ A)|].
    pose proof (detect_type t) as Dt. destruct A as (A & _ & _). destruct C as (C & _). eapply printed_ext; [|apply (image_prints t (p + 1) limit sv S G ltac:(lia) B C)].
    intros o d. unfold getStringChunk, value_type. rewrite Hp. cbn [obind]. rewrite (has_u8 _ _ (XBT_Detect t) ltac:(lia) A). cbn [obind].
    assert (S8 : s8 (XBT_Detect t) = XBT_Detect t) by (unfold s8; lia). rewrite S8. reflexivity.
  - destruct V as (A & _). exact (Hnull _ A).
Qed.

Lemma attr_prints x q a limit wp e : 0 <= x -> x <= wp -> x <= q -> attr_at fl cr m x q a limit wp e -> In (fst a) (names (cr_params cr)) -> cstring (snd a) ->
  steady_attr root a ->
  exists id, pd_name m q = Ok id /\ getSymbol m (rd_params R) id = Ok (fst a) /\ printed (param_getStringChunk fl m (Some q) (Some x)) (snd a) buf (S (List.length (snd a))).
Proof.
  intros Hx Hwx Hq (A0 & id & A1 & (A2 & _) & A3) Hin Hcs (Ht & Hs). destruct M as (M1 & M2 & M3 & M4 & M5 & M6 & M7).
  destruct (find_symbol m (rd_params R) _ _ id M2 T2 (or_introl Hin) A1) as (I1 & I2). assert (Hid : zlen (cr_params cr) <= 32768) by apply M2.
  exists id. assert (Hn : pd_name m q = Ok id) by (apply has_s16; [lia|exact A2]). split; [exact Hn|]. split; [exact I2|].
  assert (Hx' : x <= zlen m /\ q + 2 <= zlen m) by (assert (Hr := has_range _ _ _ A2); rewrite le_zlen in Hr; lia).
  unfold INT_MAX in Hm.
  destruct A3 as [(B1 & (B2 & _) & (B3 & _) & B4)|(B1 & ty & (ty0 & C1 & C2) & B)].
  - rewrite B1. eapply printed_ext; [|apply (null_prints (x + 0)); lia]. intros o d. unfold param_getStringChunk, pd_type, pd_data. rewrite (has_u8 _ _ XBT_NULL ltac:(unfold XBT_NULL; lia) B2). cbn [obind]. change (XBT_IS_4 XBT_NULL) with false. cbv iota.
    rewrite (has_s32 _ _ 0 ltac:(unfold int32, INT_MIN, INT_MAX; lia) B3). reflexivity.
  - assert (Ety : ty = XBT_Detect2 (snd a) (column_type (values_of (fst a) (flat_map attrs_of (elements root))))).
    { rewrite C2. f_equal. assert (Z0 : 0 <= id < zlen (cr_params cr) /\ name_at (cr_params cr) id = Ok (fst a)).
      { unfold find_ in A1. destruct (find_ok (fst a) (cr_params cr) (proj1 M2) Ht) as (i & Fi & [[Hi Hni]|[_ Hni]]); [|contradiction]. rewrite Fi in A1. inversion A1; subst i. auto. }
      destruct Z0 as (Z0 & Z1). assert (Es : s16 id = id) by (unfold s16; lia). rewrite Es in C1. destruct (Z.leb_spec 0 id); [|lia]. unfold type_at in C1. unfold name_at in Z1. destruct (id <? 0); [discriminate|].
      destruct (nth_error (cr_params cr) (Z.to_nat id)) as [[n t]|] eqn:En; [|discriminate]. inversion C1; inversion Z1; subst. apply nth_error_In in En. apply (M7 _ _ En). }
    destruct B as [(B2 & (B3 & _) & _ & sv & B4 & (B5 & _))|(B2 & (B3 & _) & (B4 & _) & (B5 & _) & _)].
    + destruct Hs as [Hs|[Hs|(S1 & S2 & S3)]]; [contradiction|rewrite <- Ety in Hs; contradiction|]. rewrite <- Ety in S1, S3. rewrite S1 in B2, B3, B4, S3. pose proof (detect_type (snd a)) as Dt.
      assert (K : XBT_IS_4 (XBT_Detect (snd a)) = true /\ XBT_Detect (snd a) <> XBT_GUID).
      { destruct S2 as (Se & Sn & Sm). destruct (exact_form fl (snd a) (q + 4) limit Se ltac:(lia)) as (bs & _ & F & _).
        destruct F as [[F _]|[(F & _)|[[F _]|[[F _]|[[F _]|(F & _)]]]]].
        - cbn [In] in F. repeat (destruct F as [<-|F]; [split; [reflexivity|discriminate]|]). contradiction.
        - contradiction.
        - cbn [In] in F. destruct F as [F|[F|[]]]; congruence.
        - rewrite F in B2. discriminate B2.
        - rewrite F in B2. discriminate B2.
        - rewrite F in B2. discriminate B2. }
      destruct K as (K1 & K2). eapply printed_ext; [|apply (image_prints (snd a) (q + 4) limit sv S2 K2 ltac:(lia) B4 B5)].
      intros o d. unfold param_getStringChunk, pd_type. rewrite (has_u8 _ _ (XBT_Detect (snd a)) ltac:(lia) B3). cbn [obind]. rewrite K1. reflexivity.
    + eapply printed_ext; [|apply (string_prints (snd a) wp Hcs B5)]. intros o d. unfold param_getStringChunk, pd_type, pd_data. rewrite (has_u8 _ _ XBT_STRING ltac:(unfold XBT_STRING; lia) B3). cbn [obind]. change (XBT_IS_4 XBT_STRING) with false. cbv iota.
      pose proof (has_range _ _ _ B5) as Hr. pose proof (zlen_nonneg (snd a ++ [0])).
      assert (Hi : int32 (wp - x)) by (unfold int32, INT_MIN, INT_MAX; lia).
      rewrite (has_s32 _ _ (wp - x) Hi B4). cbn [obind]. replace (x + (wp - x)) with wp by lia. reflexivity.
Qed.

Lemma attrs_print x limit l steps : forall i wp e, 0 <= x -> x <= wp -> 0 <= i -> it_paramcount m x = Ok (i + zlen l) -> attrs_at fl cr m x (x + 12 + 8 * i) l limit wp e ->
  (forall a, In a l -> In (fst a) (names (cr_params cr)) /\ cstring (snd a) /\ steady_attr root a) -> (List.length (flat_map snd l) + 1 < steps)%nat ->
  write_params (List.length l) steps fl m R x i buf = rret (attr_text l).
Proof.
  induction l as [|a l IH]; intros i wp e Hx Hw Hi Hpc A Hl Hs; [reflexivity|].
  cbn [attrs_at] in A. destruct A as (e1 & A1 & A2). destruct (Hl a (or_introl eq_refl)) as (L1 & L2 & L3).
  destruct (attr_prints x (x + 12 + 8 * i) a limit wp e1 Hx Hw ltac:(lia) A1 L1 L2 L3) as (id & E1 & E2 & E3).
  rewrite zlen_cons in Hpc. pose proof (zlen_nonneg l). assert (We : wp <= e1) by apply A1. cbn [flat_map] in Hs. rewrite app_length in Hs.
  assert (F : write_params (List.length l) steps fl m R x (i + 1) buf = rret (attr_text l)).
  { apply (IH (i + 1) e1 e Hx ltac:(lia) ltac:(lia)); [rewrite Hpc; f_equal; lia|replace (x + 12 + 8 * (i + 1)) with (x + 12 + 8 * i + 8) by lia; exact A2|intros b Hb'; apply Hl; right; exact Hb'|lia]. }
  cbn [List.length write_params]. unfold getParamByIndex at 1. destruct (Z.ltb_spec i 0); [lia|]. rewrite Hpc. cbn [obind]. destruct (Z.leb_spec (i + (1 + zlen l)) i); [lia|].
  change (Some (Ok (Some (x + 12 + 8 * i)))) with (rret (Some (x + 12 + 8 * i))). rb. rewrite E1. cbn [obind]. rewrite E2. change (Some (Ok (fst a))) with (rret (fst a)). rb.
  rewrite (printed_text _ _ _ _ steps E3) by lia. rb. rewrite F. rb. destruct a as [n v]. cbn [attr_text flat_map fst snd]. rewrite <- !app_assoc. reflexivity.
Qed.

(** An element whose children are the elements at [ys]. *)
Lemma element_writes x n v a kids ys cc fuel steps deep limit id e1 e2 : find_ n (cr_tags cr) = Ok id -> In n (names (cr_tags cr)) -> 0 <= x -> zlen a <= 32767 -> 0 <= cc <= INT_MAX ->
  has m x (le 2 id ++ le 2 (zlen a) ++ le 4 cc) -> value_at fl m (x + 12 + 8 * zlen a + 4 * cc) v limit e1 -> attrs_at fl cr m x (x + 12) a limit e1 e2 ->
  (0 < cc <-> kids <> []) ->
  (forall t, v = Some t -> (t = [] \/ steady_text t) /\ XBT_Detect t <> XBT_GUID) ->
  (forall b, In b a -> In (fst b) (names (cr_params cr)) /\ cstring (snd b) /\ steady_attr root b) ->
  (List.length (flat_map snd a) + 1 < steps)%nat -> (List.length (text_in v) + 1 < steps)%nat ->
  (kids <> [] -> all_children steps m x 0 = rret ys) -> Forall2 (fun y t => write fuel steps fl m R y (deep + 1) buf = rret (layout (deep + 1) t)) ys kids ->
  write (S fuel) steps fl m R x deep buf = rret (layout deep (Node n v a kids)).
Proof.
  intros N1 M6 N3 N4 N5 N6 N8 N9 Hcc Hv Ha Hs1 Hs2 Hall Hk.
  pose proof M as (M1 & M2 & M3 & M4 & M5 & _).
  destruct (find_symbol m (rd_tags R) _ _ id M1 T1 (or_introl M6) N1) as (I1 & I2). assert (Hid : zlen (cr_tags cr) <= 32768) by apply M1.
  apply head_split in N6. destruct N6 as (H1 & H2 & H3). unfold INT_MAX in *. pose proof (zlen_nonneg a).
  pose proof (attrs_mono _ _ _ _ _ _ _ _ _ N9) as Ma. assert (Mv : x + 12 + 8 * zlen a + 4 * cc < e1) by apply N8.
  assert (E1 : it_name m x = Ok id) by (apply has_s16; [lia|exact H1]).
  assert (E2 : it_paramcount m x = Ok (zlen a)) by (apply has_s16; [lia|exact H2]).
  assert (E3 : it_childcount m x = Ok cc) by (apply has_s32; [unfold int32, INT_MIN, INT_MAX; lia|exact H3]).
  cbn [write]. rewrite E1. cbn [obind]. rewrite I2. change (Some (Ok n)) with (rret n). rb. rewrite E2. change (Some (Ok (zlen a))) with (rret (zlen a)). rb.
  rewrite E3. change (Some (Ok cc)) with (rret cc). rb.
  assert (La : Z.to_nat (zlen a) = List.length a) by (unfold zlen; lia). rewrite La.
  assert (Ap : write_params (List.length a) steps fl m R x 0 buf = rret (attr_text a)).
  { apply (attrs_print x limit a steps 0 e1 e2 N3); [lia|lia|rewrite E2; f_equal; lia|replace (x + 12 + 8 * 0) with (x + 12) by lia; exact N9|exact Ha|exact Hs1]. }
  rewrite Ap. rb.
  assert (Pv : printed (getStringChunk fl m (Some x)) (text_in v) buf (S (List.length (text_in v)))).
  { eapply value_prints; [unfold value_pos; rewrite E2, E3; reflexivity|lia|exact N8|exact Hv]. }
  unfold layout. destruct kids as [|u kids].
  - destruct (Z.ltb_spec 0 cc) as [Hc|Hc]; [exfalso; apply Hcc in Hc; contradiction|]. cbn [bare]. destruct Pv as (c & Ec & Pv). rewrite Ec. change (Some (Ok c)) with (rret c). rb. destruct (text_in v) as [|z w].
    + rewrite Pv. change (0 =? 0) with true. cbv iota. rewrite <- !app_assoc. reflexivity.
    + destruct Pv as (P1 & r & P2 & P3). destruct (Z.eqb_spec (ck_ret c) 0); [contradiction|]. rewrite (print_mono _ _ steps _ _ _ P2) by lia. rb. rewrite P3. rewrite <- !app_assoc. reflexivity.
  - destruct (Z.ltb_spec 0 cc) as [Hc|Hc]; [|exfalso; assert (X : 0 < cc) by (apply Hcc; discriminate); lia]. specialize (Hall ltac:(discriminate)).
    match goal with |- rbind (?g steps 0) _ = _ => set (go := g) end.
    assert (K : forall n i ys ks, all_children n m x i = rret ys -> Forall2 (fun y t => write fuel steps fl m R y (deep + 1) buf = rret (layout (deep + 1) t)) ys ks -> go n i = rret (flat_map (layout (deep + 1)) ks)).
    { clear - fuel. induction n as [|n IH]; intros i ys ks Ha Hf; [discriminate Ha|]. change (go (S n) i) with (rbind (Some (getNextChild m (Some x) i)) (fun '(c, i) =>
              match c with
              | None => rret []
              | Some y => rbind (write fuel steps fl m R y (deep + 1) buf) (fun s => rbind (go n i) (fun r => rret (s ++ r)))
              end)).
      cbn [all_children] in Ha. destruct (getNextChild m (Some x) i) as [[c j]| |]; try discriminate Ha. change (Some (Ok (c, j))) with (rret (c, j)) in *. rewrite rbind_ret in *. destruct c as [y|].
      - destruct (all_children n m x j) as [[l| |]|] eqn:El; try discriminate Ha. change (Some (Ok l)) with (rret l) in *. rewrite rbind_ret in Ha. inversion Ha; subst ys. inversion Hf as [|? t ? ks' F1 F2]; subst. rewrite F1. rb. rewrite (IH j l ks' El F2). rb. reflexivity.
      - inversion Ha; subst ys. inversion Hf; subst. reflexivity. }
    rewrite (K _ _ _ _ Hall Hk). rb. rewrite (printed_text _ _ _ _ steps Pv) by lia. rb. cbn [bare]. unfold rret. do 2 f_equal. rewrite <- !app_assoc.
    replace (flat_map (layout (deep + 1)) (u :: kids)) with (flat_map (fun u => tabs (deep + 1) ++ bare (deep + 1) u ++ [10]) (u :: kids)) by reflexivity. reflexivity.
Qed.

(** The children of an element, in the order of the source. *)
Lemma dag_children x pc kids : 0 <= x <= zlen m -> 0 <= pc -> it_paramcount m x = Ok pc -> it_childcount m x = Ok (zlen kids) -> 
  (forall t, In t kids -> name_of t <> lit "et-tecera") ->
  links_at (fun z k => dag_at fl cr m z k) m x (x + 12 + 8 * pc) kids ->
  exists zs, Forall2 (fun z k => dag_at fl cr m z k) zs kids /\ forall n, (List.length kids < n)%nat -> all_children n m x 0 = rret zs.
Proof.
  intros Hx Hpc E2 E3 Hnm L. pose proof M as (M1 & _).
  assert (K : forall l i c, i + zlen l = zlen kids -> 0 <= i -> c = x + 12 + 8 * pc + 4 * i -> incl l kids -> links_at (fun z t => dag_at fl cr m z t) m x c l ->
     exists zs, Forall2 (fun z k => dag_at fl cr m z k) zs l /\ forall n, (List.length l < n)%nat -> all_children n m x i = rret zs).
  { clear L. induction l as [|t l IH]; intros i c Hi Hi0 -> Hincl L.
    - exists []. split; [constructor|]. intros n Hn. destruct n as [|n]; [lia|]. cbn [all_children]. unfold getNextChild. rewrite E3. cbn [obind]. change (zlen (@nil node)) with 0 in Hi. destruct (Z.leb_spec (zlen kids) i); [|lia]. reflexivity.
    - cbn [links_at] in L. destruct L as ((z & K3 & K2 & K1) & K4). rewrite zlen_cons in Hi. pose proof (zlen_nonneg l). destruct (IH (i + 1) (x + 12 + 8 * pc + 4 * i + 4) ltac:(lia) ltac:(lia) ltac:(lia)) as (zs & F & A); [intros u Hu; apply Hincl; right; exact Hu|exact K4|].
      exists (z :: zs). split; [constructor; assumption|]. intros n Hn. destruct n as [|n]; [lia|]. cbn [List.length] in Hn. cbn [all_children]. unfold getNextChild. rewrite E3. cbn [obind]. destruct (Z.leb_spec (zlen kids) i); [lia|]. destruct (Z.leb_spec 0 i); [|lia].
      unfold children_pos. rewrite E2. cbn [obind]. assert (Hi32 : int32 (z - x)) by (unfold int32, INT_MIN, INT_MAX in *; lia). rewrite (has_s32 _ _ _ Hi32 K3). cbn [obind]. replace (x + (z - x)) with z by lia.
      pose proof (Hnm t (Hincl t (or_introl eq_refl))) as Hne. destruct t as [tn tv ta tk]. cbn [dag_at name_of] in *. destruct K1 as (limit & id & e1 & e2 & F1 & _ & _ & _ & F2 & _). apply head_split in F2. destruct F2 as (F2 & _).
      destruct (find_not_end _ _ _ M1 Hne F1) as (_ & G2 & G3). unfold it_name at 1. rewrite (has_s16 _ _ id ltac:(unfold s16 in G2; lia) F2). cbn [obind]. destruct (Z.eqb_spec id XTNR_ET_TECERA); [contradiction|]. cbn [negb].
      change (Some (Ok (Some z, i + 1))) with (rret (Some z, i + 1)). rb. cbv beta iota. rewrite (A n) by lia. rb. reflexivity. }
  apply (K kids 0 (x + 12 + 8 * pc)); try lia; [apply incl_refl|exact L].
Qed.

Definition prints_well (t : node) : Prop := forall u, In u (elements t) -> element_fits u /\ steady_value u /\ (forall a, In a (attrs_of u) -> steady_attr root a) /\
    In (name_of u) (names (cr_tags cr)) /\ (forall n v, In (n, v) (attrs_of u) -> In n (names (cr_params cr))) /\ printable u.

Lemma dag_writes t : prints_well t -> forall x fuel steps deep, dag_at fl cr m x t -> (height t <= fuel)%nat -> (need t <= steps)%nat -> write fuel steps fl m R x deep buf = rret (layout deep t).
Proof.
  induction t as [n v a k IH] using node_ind'. intros Sub x fuel steps deep N Hh Hn.
  destruct fuel as [|fuel]; [cbn [height] in Hh; lia|].
  cbn [dag_at] in N. destruct N as (limit & id & e1 & e2 & N1 & N3 & N4 & N5 & N6 & N8 & N9 & N10). assert (Hxr : x <= zlen m) by (apply has_range in N6; rewrite !zlen_app, !le_zlen in N6; lia).
  destruct (Sub (Node n v a k) (or_introl eq_refl)) as ((F1 & F2 & F3 & _ & _) & S1 & S3 & M6 & M7 & (_ & _ & _ & _ & Pv)).
  unfold steady_value in S1. cbn [name_of value_of attrs_of kids_of] in F1, F2, F3, S1, S3, M6, M7, Pv. cbn [need] in Hn. cbn [height] in Hh.
  pose proof (zlen_nonneg a). pose proof (zlen_nonneg k). pose proof N6 as N6'. apply head_split in N6'. destruct N6' as (H1 & H2 & H3).
  assert (E2 : it_paramcount m x = Ok (zlen a)) by (apply has_s16; [lia|exact H2]).
  assert (E3 : it_childcount m x = Ok (zlen k)) by (apply has_s32; [unfold int32, INT_MIN, INT_MAX in *; lia|exact H3]).
  destruct (dag_children x (zlen a) k ltac:(lia) ltac:(lia) E2 E3) as (zs & Z1 & Z2); [|exact N10|].
  { intros t Ht. apply (Sub t). right. apply in_flat_map. exists t. split; [exact Ht|]. destruct t; left; reflexivity. }
  apply (element_writes x n v a k zs (zlen k) fuel steps deep limit id e1 e2); try assumption; try lia.
  - destruct k as [|u k]; [change (zlen (@nil node)) with 0; split; [lia|contradiction]|]. rewrite zlen_cons in *. pose proof (zlen_nonneg k). split; [discriminate|lia].
  - intros t ->. split; [apply S1; reflexivity|apply (Pv t eq_refl)].
  - intros [bn bv] Hin. split; [apply (M7 bn bv Hin)|]. split; [apply (F3 bn bv Hin)|apply S3, Hin].
  - intros _. apply Z2. lia.
  - assert (Hk : Forall (fun t => (height t <= fuel)%nat /\ (need t <= steps)%nat /\ prints_well t) k).
    { apply Forall_forall. intros t Ht. split; [|split].
      - assert (Hmax : (height t <= fold_right Nat.max 0 (map height k))%nat) by (clear - Ht; induction k as [|y k IHk]; [destruct Ht|]; cbn [map fold_right]; destruct Ht as [->|Ht]; [lia|specialize (IHk Ht); lia]). lia.
      - assert (Hmax : (need t <= fold_right Nat.max 0 (map need k))%nat) by (clear - Ht; induction k as [|y k IHk]; [destruct Ht|]; cbn [map fold_right]; destruct Ht as [->|Ht]; [lia|specialize (IHk Ht); lia]). lia.
      - intros u Hu. apply Sub. eapply elements_kids; eassumption. }
    clear - IH Z1 Hk. induction Z1 as [|z t zs k Hz Hzs IHz]; [constructor|]. inversion IH; subst. inversion Hk as [|? ? (K1 & K2 & K3) K4]; subst. constructor; [auto|]. apply IHz; assumption.
Qed.
End PRINT.

(** ** The document *)
Lemma prints_back fl m filename modified root img k buf fuel steps : bytes m -> zlen m <= INT_MAX -> cstring filename ->
  document_fits root -> steady_document root -> (forall u, In u (elements root) -> printable u) -> Make_xb fl m filename modified root = rret img ->
  256 < zlen buf -> (height root <= fuel)%nat -> (need root <= steps)%nat ->
  exists R, Initialize (S k) img = rret R /\ print_document fuel steps fl img R buf = rret (layout 0 root).
Proof.
  intros Hb Hm Hf F S P H Hbuf Hh Hn. destruct (Make_xb_doc _ _ _ _ _ _ F Hf H) as (cr & size & y1 & e1 & y2 & e2 & y3 & x & M & D & L & _ & Bi).
  specialize (Bi Hb). pose proof M as (A1 & A2 & A3 & A4 & A5 & A6 & _). assert (Hi : int32 (zlen img)) by (pose proof (zlen_nonneg img); unfold int32, INT_MIN, INT_MAX in *; lia).
  destruct (Initialize_doc fl cr img (zlen m) size filename root y1 e1 y2 e2 y3 x D Hf ltac:(lia) Hi A1 A2 k) as (R & E & Ex & T1 & T2).
  assert (Pl : payload_at fl cr img (zlen m) y3 x size root) by apply D. destruct Pl as (_ & _ & _ & _ & _ & _ & _ & _ & _ & N).
  assert (Hg : good_source cr root) by (split; [apply A6; intros u Hu; apply (S u Hu)|intros u Hu; apply (S u Hu)]).
  exists R. split; [exact E|]. unfold print_document. rewrite Ex.
  apply (dag_writes fl cr img R root buf); try assumption; [unfold INT_MAX in *; lia| |eapply node_dag; [exact (N Hg)|lia]].
  intros u Hu. destruct (S _ Hu) as (S1 & _ & S3). destruct (A5 _ Hu) as (M6 & M7). split; [apply (proj1 F _ Hu)|]. auto 6.
Qed.
