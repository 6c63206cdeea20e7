(** What converting a JSON text writes. *)
From Verif Require Import Base BaseFacts ListFacts Types Sort SortProofs Symtab SymtabSpec SymtabProofs Xb XbSpec XbFacts XbWrite DocSpec ReadSpec WriteProofs FillProofs InitProofs OpenProofs RingProofs ReadProofs
  Jsmn JsonSpec JsonProofs JsonTotal JsonSource JsonNames JsonTree JsonMake JsonMakeSpec.

Lemma elem_ind' (P : elem -> Prop) : (forall n v es, Forall P es -> P (El n v es)) -> forall e, P e.
Proof. intros H. fix IH 1. intros [n v es]. apply H. induction es as [|e es IHe]; constructor; [apply IH|exact IHe]. Qed.

Lemma rok {A B} (x : A) (f : A -> run B) : rbind (Some (Ok x)) f = f x.
Proof. reflexivity. Qed.

Lemma rsome {A} (o : outcome A) x : Some o = rret x -> o = Ok x.
Proof. unfold rret. congruence. Qed.

(** ** The tree as the writer sees it: [z] stands for no name *)
Fixpoint called (z : list Z) (e : elem) : node := match e with El n v es => Node (match n with Some k => k | None => z end) v [] (map (called z) es) end.

Section WRITE.
Context (fl : floats) (cr : creator) (z : list Z) (s : source).
Context (Hz : Find (Some z) (cr_tags cr) = rret (-1)).

Lemma name_found n id : Find n (cr_tags cr) = rret id -> find_ (match n with Some k => k | None => z end) (cr_tags cr) = Ok id.
Proof using Hz. intros E. unfold find_. destruct n as [k|]; [rewrite E; reflexivity|]. rewrite Hz. injection E as <-. reflexivity. Qed.

Lemma write_same : forall fuel i e s1 m wp m' wp' x s2, shows s i e -> same s s1 -> JsonWriteNode fuel fl cr s1 m wp i = rret (m', wp', x, s2) ->
  WriteNode fl cr m wp (called z e) = Ok (m', wp', x) /\ same s s2.
Proof using Hz.
  induction fuel as [|f IH]; intros i e s1 m wp m' wp' x s2 S SM E; [discriminate|]. destruct S as [i n v is es N V C F]. cbn [JsonWriteNode] in E. cbv zeta in E.
  destruct (N s1 SM) as (s3 & E1 & S3). rewrite E1 in E. rewrite rok in E. apply rbind_inv in E as (id & E2 & E). rewrite (C s3 S3) in E. rewrite rok in E.
  apply rbind_inv in E as (m1 & E3 & E). destruct (V s3 S3) as (s4 & E4 & S4). rewrite E4 in E. rewrite rok in E. apply rbind_inv in E as ([m2 wp2] & E5 & E). apply rbind_inv in E as ([[m3 wp3] s5] & E6 & E).
  apply rbind_inv in E as (m4 & E7 & E). injection E as <- <- <- <-.
  cbn [called WriteNode]. rewrite (name_found _ _ E2). cbn [obind]. cbv zeta. change (s16 (zlen (@nil (list Z * list Z)))) with 0. rewrite zlen_map.
  assert (L : zlen is = zlen es) by (clear - F; induction F; [reflexivity|rewrite !zlen_cons; lia]). rewrite L in *.
  apply rsome in E3. rewrite E3. cbn [obind]. rewrite !Z.mul_0_r, Z.add_0_r. apply rsome in E5. rewrite E5. cbn [obind store_params].
  assert (K : forall is es c m2 wp2 s4 m3 wp3 s5, Forall2 (shows s) is es -> same s s4 -> json_children (JsonWriteNode f fl cr) (align_up 4 wp) s4 m2 wp2 c is = rret (m3, wp3, s5) ->
    store_children (fun m wp t => WriteNode fl cr m wp t) (align_up 4 wp) m2 wp2 c (map (called z) es) = Ok (m3, wp3) /\ same s s5).
  { clear - IH. induction is as [|i is IHi]; intros es c m2 wp2 s4 m3 wp3 s5 F S4 E; inversion F as [|? e ? es' S1 F']; subst; [injection E as <- <- <-; auto|].
    cbn [json_children] in E. apply rbind_inv in E as ([[[m5 wp5] y] s6] & E1 & E). apply rbind_inv in E as (m6 & E2 & E). destruct (IH _ _ _ _ _ _ _ _ _ S1 S4 E1) as [W S6].
    cbn [map store_children]. rewrite W. cbn [obind]. apply rsome in E2. rewrite E2. cbn [obind]. eapply IHi; eassumption. }
  destruct (K _ _ _ _ _ _ _ _ _ F S4 E6) as [W S5]. rewrite W. cbn [obind]. apply rsome in E7. rewrite E7. cbn [obind]. auto.
Qed.
End WRITE.

(** ** The names *)
Lemma arguments_inv o s s1 i n v es a b s2 : shows s i (El n v es) -> same s s1 -> arguments o s1 i = Ok (a, b, s2) -> same s s2 /\
  (a = n \/ o = NameFirst /\ n <> None /\ a = v /\ v <> None) /\ (b = v \/ o = ValueFirst /\ b = n).
Proof.
  intros S SM E. inversion S as [? ? ? is ? N V C F]; subst. destruct o; cbn [arguments] in E.
  - destruct (N s1 SM) as (s3 & E1 & S3). rewrite E1 in E. cbn [obind] in E. destruct (V s3 S3) as (s4 & E2 & S4). rewrite E2 in E. cbn [obind] in E.
    destruct n as [k|], v as [w|]; try (injection E as <- <- <-; auto). destruct (in_last s4 i) as [c| |]; cbn [obind] in E; try discriminate. injection E as <- <- <-. split; [exact S4|]. split; [|auto].
    destruct c; [right; repeat split; discriminate|auto].
  - destruct (V s1 SM) as (s3 & E1 & S3). rewrite E1 in E. cbn [obind] in E. destruct (N s3 S3) as (s4 & E2 & S4). rewrite E2 in E. cbn [obind] in E.
    destruct n as [k|], v as [w|]; try (injection E as <- <- <-; auto). destruct (in_last s4 i) as [c| |]; cbn [obind] in E; try discriminate. injection E as <- <- <-. split; [exact S4|]. split; [auto|]. destruct c; auto.
Qed.
(** What the pass registers: in the order of the elements their names, or, when the name is computed first, perhaps their values. *)
Definition heard (o : order) (e : elem) (u : list (list Z * list Z)) : Prop :=
  match u with
  | [] => ename e = None
  | [(a, _)] => ename e = Some a \/ o = NameFirst /\ evalue e = Some a
  | _ => False
  end.
Lemma pass_uses o s : forall l es s1 t s2 t2, Forall2 (shows s) l es -> same s s1 -> name_pass o s1 t l = rret (s2, t2) ->
  same s s2 /\ exists us, Forall2 (heard o) es us /\ Symtab.register t (List.concat us) = rret t2.
Proof.
  induction l as [|i l IH]; intros es s1 t s2 t2 F SM E; inversion F as [|? e ? es' S F']; subst; [injection E as <- <-; split; [exact SM|]; exists []; split; [constructor|reflexivity]|].
  cbn [name_pass] in E. apply rbind_inv in E as ([[a b] s3] & E1 & E). apply rbind_inv in E as ([id t1] & E2 & E). apply rsome in E1. destruct e as [n v ks]. destruct (arguments_inv _ _ _ _ _ _ _ _ _ _ S SM E1) as (S3 & HA & _).
  destruct (IH _ _ _ _ _ F' S3 E) as (S2 & us & HU & R). split; [exact S2|]. destruct a as [a|].
  - exists ([(a, match b with Some w => w | None => [] end)] :: us). split; [constructor; [|exact HU]|].
    + cbn [heard ename evalue]. destruct HA as [<-|(-> & _ & <- & _)]; auto.
    + cbn [List.concat app Symtab.register]. rewrite E2. exact R.
  - exists ([] :: us). split; [constructor; [|exact HU]|].
    + cbn [heard ename]. destruct HA as [<-|(_ & _ & <- & X)]; [reflexivity|contradiction].
    + cbn [List.concat app]. injection E2 as _ <-. exact R.
Qed.

(** ** The types in a table are bytes, however many names there are *)
Definition byte_types_ (t : table) : Prop := forall n ty, In (n, ty) t -> 0 <= ty < 256.
Lemma take_in {A} (x : A) n l : In x (ztake n l) -> In x l.
Proof. intros I. rewrite <- (ztake_zskip n l). apply in_or_app. auto. Qed.
Lemma skip_in {A} (x : A) n l : In x (zskip n l) -> In x l.
Proof. intros I. rewrite <- (ztake_zskip n l). apply in_or_app. auto. Qed.
Lemma add_byte s t v id t' : FindOrAdd s t v = rret (id, t') -> byte_types_ t -> byte_types_ t'.
Proof.
  unfold FindOrAdd, find_or_add. destruct s as [s|]; [|intros E; injection E as _ <-; auto]. intros E H. apply rbind_inv in E as (r & _ & E). destruct r as [M|P].
  - injection E as _ <-. unfold set_type. destruct (nth_error t (Z.to_nat M)) as [[n ty]|] eqn:N; [|exact H]. intros n' ty' I. apply in_app_or in I as [I|[I|I]]; [apply (H n' ty'), (take_in _ _ _ I)| |apply (H n' ty'), (skip_in _ _ _ I)].
    injection I as <- <-. apply detect2_byte. apply (H n ty). eapply nth_error_In; eassumption.
  - destruct (MAX_SYMBOL_COUNT <=? zlen t); [injection E as _ <-; exact H|]. destruct ((P <? 0) || (zlen t <? P)); [discriminate|]. injection E as _ <-.
    intros n' ty' I. apply in_app_or in I as [I|[I|I]]; [apply (H n' ty'), (take_in _ _ _ I)| |apply (H n' ty'), (skip_in _ _ _ I)]. injection I as <- <-. pose proof (detect_type v). lia.
Qed.
Lemma register_byte : forall l t t', Symtab.register t l = rret t' -> byte_types_ t -> byte_types_ t'.
Proof.
  induction l as [|[n v] l IH]; intros t t' E H; [injection E as <-; exact H|]. cbn [Symtab.register] in E. apply rbind_inv in E as ([id t1] & E1 & E). eapply IH; [exact E|]. eapply add_byte; eassumption.
Qed.

(** ** The texts are C strings and the numbers of children fit *)
Lemma chars_c s : chars s -> cstring s.
Proof.
  assert (X : forall c, is_xdigit c = true -> is_cchar c). { intros c H. unfold is_xdigit, is_digit in H. unfold is_cchar. lia. }
  induction 1 as [|c r H _ _ _ IH|c r H _ IH|a b c d r A B C D _ IH]; [constructor|constructor; [unfold is_cchar; lia|exact IH]| |].
  - constructor; [unfold is_cchar; lia|]. constructor; [|exact IH]. cbn [In] in H. unfold is_cchar. lia.
  - constructor; [unfold is_cchar; lia|]. constructor; [unfold is_cchar; lia|]. repeat (constructor; [apply X; assumption|]). exact IH.
Qed.
Lemma primitive_c s : primitive s -> cstring s.
Proof. intros [_ F]. eapply Forall_impl; [|exact F]. intros c H. unfold is_alnum, is_alpha, is_upper, is_lower, is_digit in H. unfold is_cchar. lia. Qed.
Lemma scalar_c v w : json v -> scalar_text v = Some w -> cstring w.
Proof. destruct v; cbn [json scalar_text]; intros J E; try discriminate; injection E as <-; [apply primitive_c|apply chars_c]; exact J. Qed.
Lemma item_c k : cstring k -> cstring (item_name k).
Proof.
  intros C. assert (W : forall e v, without e k = Some v -> cstring v). { intros e v E. unfold without in E. destruct (_ && _) in E; [|discriminate]. injection E as <-. apply Forall_forall. intros c I. apply take_in in I. eapply Forall_forall in C; eassumption. }
  unfold item_name. destruct (without (lit "s") k) eqn:E; [exact (W _ _ E)|]. assert (Q : cstring (k ++ lit "Item")) by (apply Forall_app; split; [exact C|repeat constructor]).
  destruct (without (lit "List") k) as [[|c v]|] eqn:E2; [exact Q|exact (W _ _ E2)|exact Q].
Qed.
Definition ekids (e : elem) : list elem := match e with El _ _ es => es end.
Definition sound (B : Z) (u : elem) : Prop := (forall n, ename u = Some n -> cstring n) /\ (forall v, evalue u = Some v -> cstring v) /\ zlen (ekids u) <= B.
Definition opt_c (n : option (list Z)) : Prop := forall k, n = Some k -> cstring k.
Lemma kids_sound : (forall v, json v -> forall n B, opt_c n -> vcount v <= B -> Forall (sound B) (flat_map all (vkids n v)) /\ zlen (vkids n v) <= vcount v /\ 1 <= vcount v) /\
  (forall l, jitems l -> forall n B, opt_c n -> icount l <= B -> Forall (sound B) (flat_map all (ikids n l)) /\ zlen (ikids n l) <= icount l /\ 0 <= icount l) /\
  (forall l, jmembers l -> forall B, mcount l <= B -> Forall (sound B) (flat_map all (mkids l)) /\ zlen (mkids l) <= mcount l /\ 0 <= mcount l).
Proof.
  assert (AI : opt_c (Some (lit "__ARRAY_ITEM_NAME__"))) by (intros k E; injection E as <-; repeat constructor; discriminate).
  apply json_ind.
  - intros s _ n B _ _. cbn [vkids flat_map vcount icount mcount ikids mkids]. split; [apply Forall_nil|change (zlen (@nil elem)) with 0; lia].
  - intros s _ n B _ _. cbn [vkids flat_map vcount icount mcount ikids mkids]. split; [apply Forall_nil|change (zlen (@nil elem)) with 0; lia].
  - intros w l IH [_ J] n B N H. cbn [vcount vkids] in *. destruct (IH J n B N) as (A & C & D); [lia|]. split; [exact A|lia].
  - intros w l IH [_ J] n B N H. cbn [vcount vkids] in *. destruct (IH J B) as (A & C & D); [lia|]. split; [exact A|lia].
  - intros _ n B _ _. cbn [vkids flat_map vcount icount mcount ikids mkids]. split; [apply Forall_nil|change (zlen (@nil elem)) with 0; lia].
  - intros a v IHv b l IHl (_ & J & _ & JL) n B N H. cbn [icount ikids flat_map] in *.
    assert (P1 : 1 <= vcount v) by (eapply (IHv J n (vcount v)); [exact N|lia]). assert (P2 : 0 <= icount l) by (eapply (IHl JL n (icount l)); [exact N|lia]).
    destruct (IHv J (Some (lit "__ARRAY_ITEM_NAME__")) B AI) as (A1 & C1 & D1); [lia|]. destruct (IHl JL n B N) as (A2 & C2 & D2); [lia|].
    split; [|rewrite zlen_cons; lia]. apply Forall_app. split; [|exact A2]. cbn [all]. constructor; [|exact A1]. split; [exact N|]. split; [intros w; apply scalar_c; exact J|cbn [ekids]; lia].
  - intros _ B _. cbn [vkids flat_map vcount icount mcount ikids mkids]. split; [apply Forall_nil|change (zlen (@nil elem)) with 0; lia].
  - intros a k b c v IHv d l IHl (_ & JK & _ & _ & J & _ & JL) B H. cbn [mcount mkids flat_map] in *. apply chars_c in JK.
    assert (NK : opt_c (Some (item_name k))) by (intros x E; injection E as <-; apply item_c; exact JK).
    assert (P1 : 1 <= vcount v) by (eapply (IHv J _ (vcount v)); [exact NK|lia]). assert (P2 : 0 <= mcount l) by (eapply (IHl JL (mcount l)); lia).
    destruct (IHv J _ B NK) as (A1 & C1 & D1); [lia|]. destruct (IHl JL B) as (A2 & C2 & D2); [lia|].
    split; [|rewrite zlen_cons; lia]. apply Forall_app. split; [|exact A2]. cbn [all]. constructor; [|exact A1]. split; [intros x E; injection E as <-; exact JK|]. split; [intros w; apply scalar_c; exact J|cbn [ekids]; lia].
Qed.
Lemma tree_sound v : json v -> Forall (sound (vcount v)) (all (tree v)).
Proof.
  intros J. destruct (proj1 kids_sound v J None (vcount v)) as (A & B & C); [discriminate|lia|]. unfold tree. cbn [all]. constructor; [|exact A].
  split; [discriminate|]. split; [intros w; apply scalar_c; exact J|cbn [ekids]; lia].
Qed.
Lemma preorder_all e : forall d, map fst (preorder d e) = all e.
Proof.
  induction e as [n v es IH] using elem_ind'. intros d. cbn [preorder all map fst]. f_equal. generalize (d + 1). induction IH as [|e es H _ IHl]; intros d'; [reflexivity|].
  cbn [flat_map]. rewrite map_app, H, IHl. reflexivity.
Qed.
