(** A document made of a JSON text, read. *)
From Verif Require Import Base BaseFacts ListFacts Types Sort SortProofs Symtab SymtabSpec SymtabProofs Xb XbSpec XbFacts XbWrite DocSpec ReadSpec WriteProofs FillProofs InitProofs OpenProofs RingProofs RoundtripProofs ReadProofs
  Jsmn JsonSpec JsonProofs JsonTotal JsonSource JsonNames JsonTree JsonMake JsonMakeSpec JsonMakeProofs.

Lemma fresh (L : list (list Z)) : exists z, cstring z /\ ~ In z L.
Proof.
  assert (B : exists n, forall x, In x L -> (List.length x < n)%nat).
  { induction L as [|a L (n & H)]; [exists O; contradiction|]. exists (S (Nat.max n (List.length a))). intros x [<-|I]; [lia|]. apply H in I. lia. }
  destruct B as (n & H). exists (repeat 65 n). split; [apply Forall_forall; intros c I; apply repeat_spec in I; subst; unfold is_cchar; lia|]. intros I. apply H in I. rewrite repeat_length in I. lia.
Qed.
Lemma different_incl l l' : incl l l' -> different l <= different l'.
Proof.
  intros I. unfold different, zlen. apply inj_le. apply NoDup_incl_length; [apply NoDup_nodup|]. intros x X. apply nodup_In in X. apply nodup_In. auto.
Qed.
Lemma obind_mono {A B} (o : outcome A) (f g : A -> outcome B) r : (forall x, f x = Ok r -> g x = Ok r) -> obind o f = Ok r -> obind o g = Ok r.
Proof. destruct o; cbn [obind]; auto; discriminate. Qed.
Lemma payload_mono (W W' : list Z -> Z -> outcome (list Z * Z * Z)) m wp t r : (forall m wp r, W m wp = Ok r -> W' m wp = Ok r) -> WritePayloadOf W m wp t = Ok r -> WritePayloadOf W' m wp t = Ok r.
Proof.
  intros H. unfold WritePayloadOf. cbv zeta. do 2 (apply obind_mono; intros ?). intros E. destruct (W _ _) as [p| |] eqn:EW; [|discriminate E..]. rewrite (H _ _ _ EW). exact E.
Qed.
Lemma fill_mono (W W' : list Z -> Z -> outcome (list Z * Z * Z)) cr m filename modified r : (forall m wp r, W m wp = Ok r -> W' m wp = Ok r) ->
  FillDataOf W cr m filename modified = Ok r -> FillDataOf W' cr m filename modified = Ok r.
Proof.
  intros H. unfold FillDataOf. cbv zeta. do 12 (apply obind_mono; intros ?). apply obind_mono. intros [[? ?] ?]. apply obind_mono. intros ?. apply obind_mono. intros [[? ?] ?]. apply obind_mono. intros ?.
  intros E. destruct (WritePayloadOf W _ _ _) as [p| |] eqn:EW; [|discriminate E..]. rewrite (payload_mono _ _ _ _ _ _ H EW). exact E.
Qed.

Section DOC.
Context (tags : table) (z : list Z) (Hz : ~ In z (names tags)) (He : z <> lit "et-tecera").
(** The name the reader shows for a name the writer looks up. *)
Definition known (n : list Z) : bool := existsb (fun k => if list_eq_dec Z.eq_dec n k then true else false) (lit "et-tecera" :: names tags).
Definition shown_as (n : list Z) : list Z := if known n then n else lit "NULL".
Lemma known_In n : known n = true <-> n = lit "et-tecera" \/ In n (names tags).
Proof.
  unfold known. rewrite existsb_exists. split.
  - intros (k & I & E). destruct (list_eq_dec Z.eq_dec n k) as [->|]; [|discriminate]. destruct I as [<-|I]; auto.
  - intros [->|I]; [exists (lit "et-tecera"); split; [left; reflexivity|]|exists n; split; [right; exact I|]]; [reflexivity|]. destruct (list_eq_dec Z.eq_dec n n); [reflexivity|contradiction].
Qed.
Lemma shown_symbol m sy id n : name_limits tags -> table_names m sy (names tags) -> find_ n tags = Ok id -> -9 <= id < 32768 /\ getSymbol m sy id = Ok (shown_as n).
Proof using.
  intros NL T F. pose proof NL as (G & L & _). unfold shown_as. destruct (known n) eqn:K.
  - apply known_In in K. destruct (find_symbol m sy tags n id NL T) as [A B]; [tauto|exact F|]. split; [lia|exact B].
  - assert (N : ~ (n = lit "et-tecera" \/ In n (names tags))) by (rewrite <- known_In; congruence). destruct (find_ok n tags G) as (i & Fi & [[Hi Hn]|[-> _]]); [tauto| |].
    + exfalso. apply N. right. unfold name_at in Hn. destruct (i <? 0); [discriminate|]. destruct (nth_error tags (Z.to_nat i)) as [[n' ty]|] eqn:E; [|discriminate]. injection Hn as ->. apply nth_error_In in E. apply (in_map fst) in E. exact E.
    + unfold find_ in F. rewrite Fi in F. injection F as <-. split; [lia|reflexivity].
Qed.
Lemma called_resembles (keep : option (list Z) -> Prop) e : (forall u n, In u (all e) -> ename u = Some n -> keep (evalue u) -> In n (names tags)) -> resembles keep e (rename shown_as (called z e)).
Proof using Hz He.
  assert (Z0 : shown_as z = lit "NULL"). { unfold shown_as. destruct (known z) eqn:K; [apply known_In in K; tauto|reflexivity]. }
  induction e as [n v es IH] using elem_ind'. intros H. cbn [called rename]. constructor.
  - destruct n as [k|]; [|right; split; [exact Z0|auto]]. unfold shown_as. destruct (known k) eqn:K; [left; reflexivity|]. right. split; [reflexivity|]. right. intros KV.
    assert (X : known k = true) by (apply known_In; right; apply (H (El (Some k) v es) k); [left; reflexivity|reflexivity|exact KV]). congruence.
  - rewrite map_map. assert (Q : forall u n, In u (flat_map all es) -> ename u = Some n -> keep (evalue u) -> In n (names tags)) by (intros u n' I; apply H; cbn [all]; right; exact I). clear H.
    induction IH as [|e es P _ IHl]; [constructor|]. cbn [flat_map] in Q. constructor; [apply P; intros u n' I; apply Q; apply in_or_app; auto|]. apply IHl. intros u n' I. apply Q. apply in_or_app. auto.
Qed.
Lemma called_doc e : (forall n, In n (enames e) -> In n (names tags)) -> rename shown_as (called z e) = doc e.
Proof using Hz He.
  assert (Z0 : shown_as z = lit "NULL"). { unfold shown_as. destruct (known z) eqn:K; [apply known_In in K; tauto|reflexivity]. }
  induction e as [n v es IH] using elem_ind'. intros H. cbn [called rename doc]. f_equal.
  - destruct n as [k|]; [|exact Z0]. unfold shown_as. replace (known k) with true; [reflexivity|]. symmetry. apply known_In. right. apply H. left. reflexivity.
  - rewrite map_map. apply map_ext_in. intros e I. rewrite Forall_forall in IH. apply IH; [exact I|]. intros k K. apply H. unfold enames in *. cbn [all flat_map]. apply in_or_app. right.
    apply in_flat_map in K as (u & U & K). apply in_flat_map. exists u. split; [|exact K]. apply in_flat_map. exists e. auto.
Qed.
Lemma called_elements e : elements (called z e) = map (called z) (all e).
Proof using.
  induction e as [n v es IH] using elem_ind'. cbn [called elements all map]. f_equal. induction IH as [|e es P _ IHl]; [reflexivity|]. cbn [map flat_map]. rewrite map_app, P, IHl. reflexivity.
Qed.
Lemma called_height e : ReadSpec.height (called z e) = JsonSpec.height e.
Proof using.
  induction e as [n v es IH] using elem_ind'. cbn [called ReadSpec.height JsonSpec.height]. do 2 f_equal. rewrite map_map. apply map_ext_in. intros e I. rewrite Forall_forall in IH. auto.
Qed.
End DOC.

Theorem json_document o v a b n fl fill m filename modified img k out st fuel : floats_ok fl -> bytes m -> zlen m <= INT_MAX -> cstring filename ->
  json v -> keyed v -> white a -> white b -> zlen (a ++ vtext v ++ b) <= INT_MAX -> 3 * zlen (a ++ vtext v ++ b) < Z.of_nat n -> zlen (a ++ vtext v ++ b) + 5 <= zlen fill -> (JsonSpec.height (tree v) <= n)%nat ->
  steady (tree v) -> JsonMake_xb o n fl (a ++ vtext v ++ b) fill m filename modified = rret img -> ring_ok st -> (JsonSpec.height (tree v) <= fuel)%nat ->
  exists R x t st', Xb.Initialize (S k) img = rret R /\ rd_root R = Some x /\ read_node fuel fl img R x out st = rret (normal t, st') /\ resembles (fun _ => False) (tree v) t /\
    (o = ValueFirst -> different (enames (tree v)) <= 32768 -> t = doc (tree v)) /\
    (o = NameFirst -> different (texts (tree v)) <= 32768 -> resembles (fun v => v = None) (tree v) t).
Proof.
  intros Hfl Hb Hm Hf J K WA WB SH FU FL HT ST E Ho Hh. set (e := tree v) in *.
  destruct (source_shows v a b n fill J K WA WB SH FU FL) as (s & EI & S). fold e in S. unfold JsonMake_xb in E. rewrite EI in E. rewrite rbind_ret in E.
  destruct (walk s n 0 e 0 S HT) as (l & EW & WL). rewrite EW, rbind_ret in E. apply rbind_inv in E as ([s1 tags] & EP & E). cbv zeta in E. apply rbind_inv in E as ([m' size] & EF & E). apply rsome in EF.
  assert (FL2 : Forall2 (shows s) (map fst l) (all e)).
  { rewrite <- (preorder_all e 0). clear - WL. induction WL as [|[i d] [u d'] l r (_ & H) _ IH]; [constructor|]. constructor; [exact H|exact IH]. }
  destruct (pass_uses o s _ _ _ _ _ _ FL2 (same_refl s) EP) as (SM & us & HU & RG).
  pose proof (tree_sound v J) as SO. fold e in SO. rewrite Forall_forall in SO.
  assert (USE : forall x, In x (map fst (List.concat us)) -> exists u, In u (all e) /\ (ename u = Some x \/ o = NameFirst /\ evalue u = Some x)).
  { clear - HU. induction HU as [|u w es us H _ IH]; [contradiction|]. intros x I. cbn [List.concat] in I. rewrite map_app in I. apply in_app_or in I as [I|I]; [|destruct (IH x I) as (u' & I' & Q); exists u'; split; [right; exact I'|exact Q]].
    exists u. split; [left; reflexivity|]. destruct w as [|[c d] [|? ?]]; cbn in I; [contradiction| |contradiction]. destruct I as [<-|[]]. exact H. }
  assert (KEEP : forall u x, In u (all e) -> ename u = Some x -> o = ValueFirst \/ evalue u = None -> In x (map fst (List.concat us))).
  { clear - HU. induction HU as [|u w es us H _ IH]; [contradiction|]. intros u' x [<-|I] N C; cbn [List.concat]; rewrite map_app; apply in_or_app; [|right; eauto].
    left. destruct w as [|[c d] [|? ?]]; cbn in H; [congruence| |contradiction]. left. cbn. destruct H as [H|[H1 H2]]; [congruence|]. destruct C as [C|C]; congruence. }
  pose proof (register_byte _ _ _ RG ltac:(intros ? ? [])) as BT. apply register_holds in RG. destruct RG as (G & L & SB & CP). unfold MAX_SYMBOL_COUNT in L, CP.
  assert (CT : forall x ty, In (x, ty) tags -> cstring x).
  { intros x ty I. apply SB in I. destruct (USE x I) as (u & U & Q). destruct (SO u U) as (Q1 & Q2 & _). destruct Q as [Q|[_ Q]]; auto. }
  assert (NL : name_limits tags) by (split; [exact G|]; split; [exact L|exact CT]).
  destruct (fresh (lit "et-tecera" :: names tags)) as (z & CZ & NZ). assert (He : z <> lit "et-tecera") by (intros ->; apply NZ; left; reflexivity). assert (Hz : ~ In z (names tags)) by (intros I; apply NZ; right; exact I).
  set (cr := mkcreator tags []) in *. set (root := called z e).
  assert (FZ : Find (Some z) (cr_tags cr) = rret (-1)). { destruct (find_ok z tags G He) as (i & Fi & [[Hi Hn]|[-> _]]); [|exact Fi]. exfalso. apply Hz. unfold name_at in Hn. destruct (i <? 0); [discriminate|]. destruct (nth_error tags (Z.to_nat i)) as [[n' ty]|] eqn:EN; [|discriminate]. injection Hn as ->. apply nth_error_In in EN. apply (in_map fst) in EN. exact EN. }
  assert (FD : FillData fl cr m filename modified root = Ok (m', size)).
  { unfold FillData. eapply fill_mono; [|exact EF]. intros m1 wp r W. cbv beta in W. destruct (JsonWriteNode n fl cr s1 m1 wp 0) as [[[[[m2 wp2] x2] s2]| |]|] eqn:EJ; try discriminate. injection W as <-. eapply (write_same fl cr z s FZ); eassumption. }
  pose proof (proj1 count_text v J) as CN. assert (VC : vcount v <= INT_MAX). { rewrite !zlen_app in SH. pose proof (zlen_nonneg a). pose proof (zlen_nonneg b). lia. }
  assert (FT : forall u, In u (elements root) -> element_fits u).
  { intros u U. unfold root in U. rewrite called_elements in U. apply in_map_iff in U as ([en ev ek] & <- & U). destruct (SO _ U) as (Q1 & Q2 & Q3). cbn [ename evalue ekids] in Q1, Q2, Q3. cbn [called]. unfold element_fits. cbn [name_of value_of attrs_of kids_of].
    split; [destruct en; auto|]. split; [exact Q2|]. split; [intros ? ? []|]. rewrite zlen_map. change (zlen (@nil (list Z * list Z))) with 0. lia. }
  destruct (FillData_ok fl cr m filename modified root m' size) as (Lm & Bm & y1 & e1 & y2 & e2 & y3 & x & D); [intros ? ? I; split; [eapply CT, I|eapply BT, I]|intros ? ? []|exact Hf|exact FT|exact FD|].
  destruct (Z.ltb_spec (zlen m') (align_up 4 size)) as [|SZ]; [discriminate E|]. injection E as <-.
  assert (P0 : 0 <= size) by (assert (Q : size <= zlen m /\ 57 + zlen filename + 1 <= y1 /\ y1 + 36 <= e1 /\ e1 <= y2 /\ y2 + 36 <= e2 /\ e2 <= y3 /\ y3 + 17 <= x /\ x + 12 < size) by (repeat split; apply D); pose proof (zlen_nonneg filename); lia).
  pose proof (align_up_ge 4 size ltac:(lia)) as Sg. set (img := ztake (align_up 4 size) m').
  assert (DI : doc_at fl cr img (zlen m) size filename root y1 e1 y2 e2 y3 x) by (eapply doc_frame; [|exact D]; eapply moves_in; [apply (take_moves m' (align_up 4 size))|lia|lia]).
  assert (LI : zlen img = align_up 4 size) by (unfold img; rewrite zlen_take by lia; lia). assert (Hi : int32 (zlen img)) by (unfold int32, INT_MIN, INT_MAX in *; lia).
  assert (NL0 : name_limits []) by (split; [constructor|]; split; [vm_compute; discriminate|intros ? ? []]).
  destruct (Initialize_doc fl cr img (zlen m) size filename root y1 e1 y2 e2 y3 x DI Hf ltac:(lia) Hi NL NL0 k) as (R & EO & Ex & T1 & T2).
  assert (P : payload_at fl cr img (zlen m) y3 x size root) by apply DI. destruct P as (_ & _ & _ & _ & _ & _ & _ & _ & _ & N).
  assert (NA : forall u, In u (elements root) -> attrs_of u = []). { intros u U. unfold root in U. rewrite called_elements in U. apply in_map_iff in U as ([en ev ek] & <- & U). reflexivity. }
  assert (Hg : good_source cr root) by (split; [intros ? ? []|intros u U c d I; rewrite (NA u U) in I; destruct I]).
  destruct (dag_reads_as fl cr img R (Node [] None [] []) out Hfl) with (f := shown_as tags) (t := root) (x := x) (fuel := fuel) (st := st) as (st' & ER & _).
  - apply bytes_take, Bm, Hb.
  - unfold INT_MAX in *. lia.
  - split; [exact NL|]. split; [exact NL0|intros ? ? []].
  - exact T2.
  - intros u U. split; [exact (FT u U)|]. split; [|rewrite (NA u U); split; [intros ? []|split; [intros id; apply (shown_symbol tags img (rd_tags R) id _ NL T1)|intros ? ? []]]].
    unfold root in U. rewrite called_elements in U. apply in_map_iff in U as (eu & <- & U). intros w W. apply (ST eu w U). destruct eu. exact W.
  - eapply node_dag; [apply N, Hg|lia].
  - unfold root. rewrite called_height. exact Hh.
  - exact Ho.
  - exists R, x, (rename (shown_as tags) root), st'. split; [exact EO|]. split; [exact Ex|]. split; [exact ER|].
    assert (TN : different (map fst (List.concat us)) <= 32768 -> forall y, In y (map fst (List.concat us)) -> In y (names tags)) by (intros DF y I; apply (in_map fst _ _ (CP DF y I))).
    split; [apply called_resembles; auto; contradiction|]. split.
    + intros -> DF. apply called_doc; auto. intros y I. apply TN.
      * eapply Z.le_trans; [apply different_incl|exact DF]. intros w W. destruct (USE w W) as (u & U & [Q|[Q _]]); [|discriminate]. unfold enames. apply in_flat_map. exists u. split; [exact U|]. rewrite Q. left. reflexivity.
      * unfold enames in I. apply in_flat_map in I as (u & U & Q). destruct (ename u) as [w|] eqn:EU; [|contradiction]. destruct Q as [<-|[]]. eapply KEEP; eauto.
    + intros -> DF. apply called_resembles; auto. intros u y U EU EV. apply TN; [|eapply KEEP; eauto].
      eapply Z.le_trans; [apply different_incl|exact DF]. intros w W. unfold texts. apply in_or_app. destruct (USE w W) as (u' & U' & [Q|[_ Q]]); [left|right].
      * unfold enames. apply in_flat_map. exists u'. split; [exact U'|]. rewrite Q. left. reflexivity.
      * apply in_flat_map. exists u'. split; [exact U'|]. rewrite Q. left. reflexivity.
Qed.
