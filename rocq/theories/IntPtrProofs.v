(** What is read through the pointers the getters of numbers return, at once and later. *)
From Verif Require Import Base BaseFacts NumSpec Types RoundtripProofs Scan Sort SymtabSpec Xb XbSpec XbWrite DocSpec NavSpec NavProofs BwAlloc IntPtr IntPtrSpec.

(** At once: the number the models of the getters deliver. *)
Lemma param32_now m q x ty st : param_getInt32 m q x ty =
  obind (fetch st (ParamInt32Ptr m q x ty)) (fun '(p, st) => match p with Some p => obind (deref st p) (fun v => Ok (Some v)) | None => Ok None end).
Proof.
  cbn [fetch]. unfold param_getInt32, fetch_param32. destruct q as [q|]; [|reflexivity]. destruct x as [x|]; [|reflexivity].
  destruct (pd_type m q) as [t| |]; cbn [obind]; try reflexivity. destruct (t =? ty).
  - unfold pd_data. destruct (rd_s32 m (q + 4)) as [d| |] eqn:D; cbn [obind deref]; try reflexivity. rewrite D. reflexivity.
  - destruct (t =? XBT_STRING); [|reflexivity]. destruct (pd_data m q) as [d| |]; cbn [obind]; try reflexivity. destruct (rd_str m (x + d)); reflexivity.
Qed.
Lemma param64_now m q x st : param_getInt64 m q x =
  obind (fetch st (ParamInt64Ptr m q x)) (fun '(p, st) => match p with Some p => obind (deref st p) (fun v => Ok (Some v)) | None => Ok None end).
Proof.
  cbn [fetch]. unfold param_getInt64, fetch_param64. destruct q as [q|]; [|reflexivity]. destruct x as [x|]; [|reflexivity].
  destruct (pd_type m q) as [t| |]; cbn [obind]; try reflexivity. destruct (t =? XBT_INT64).
  - destruct (rd m (q + 4) 8) as [d| |] eqn:D; cbn [obind deref]; try reflexivity. rewrite D. reflexivity.
  - destruct (t =? XBT_STRING); [|reflexivity]. destruct (pd_data m q) as [d| |]; cbn [obind]; try reflexivity. destruct (rd_str m (x + d)) as [s| |]; cbn [obind]; try reflexivity.
    destruct (ScanInt64 s) as [[v r]| |]; reflexivity.
Qed.
Lemma item64_now m x st : getInt64 m x =
  obind (fetch st (ItemInt64Ptr m x)) (fun '(p, st) => match p with Some p => obind (deref st p) (fun v => Ok (Some v)) | None => Ok None end).
Proof.
  cbn [fetch]. unfold getInt64, fetch_item64. destruct x as [x|]; [|reflexivity].
  destruct (value_type m x) as [[t p]| |]; cbn [obind]; try reflexivity. destruct (t =? XBT_INT64).
  - destruct (rd m (align_up 8 p) 8) as [d| |] eqn:D; cbn [obind deref]; try reflexivity. rewrite D. reflexivity.
  - destruct (t =? XBT_STRING); [|reflexivity]. destruct (rd_str m p) as [s| |]; cbn [obind]; try reflexivity.
    destruct (ScanInt64 s) as [[v r]| |]; reflexivity.
Qed.
Lemma item32_now m x st : getIntPtr m x (v_item32 st) =
  obind (fetch st (ItemIntPtr m x)) (fun '(p, st) => match p with Some p => obind (deref st p) (fun v => Ok (Some v, v_item32 st)) | None => Ok (None, v_item32 st) end).
Proof.
  cbn [fetch]. unfold getIntPtr, fetch_item32. destruct x as [x|]; [|reflexivity].
  destruct (value_type m x) as [[t p]| |]; cbn [obind]; try reflexivity. destruct (t =? XBT_INT32).
  - destruct (rd_s32 m (align_up 4 p)) as [d| |] eqn:D; cbn [obind deref]; try reflexivity. rewrite D. reflexivity.
  - destruct (t =? XBT_STRING); [|reflexivity]. destruct (v_item32 st) as [v|] eqn:V; cbn [obind deref].
    + rewrite V. reflexivity.
    + destruct (rd_str m p) as [s| |]; reflexivity.
Qed.

(** Which variables a call may write. *)
Definition frame (c : call) (st st' : vars) : Prop :=
  (getter_of c <> Param32 -> v_param32 st' = v_param32 st) /\ (getter_of c <> Param64 -> v_param64 st' = v_param64 st) /\
  (v_item32 st <> None \/ getter_of c <> Item32 -> v_item32 st' = v_item32 st) /\ (getter_of c <> Item64 -> v_item64 st' = v_item64 st).
Lemma frame_same c st : frame c st st.
Proof. repeat split; reflexivity. Qed.
Lemma fetch_frame c st p st' : fetch st c = Ok (p, st') -> frame c st st'.
Proof.
  destruct c as [m q x ty|m q x|m x|m x]; cbn [fetch]; intros E.
  - unfold fetch_param32 in E. destruct q as [q|]; [|injection E as <- <-; apply frame_same]. destruct x as [x|]; [|injection E as <- <-; apply frame_same].
    apply obind_inv in E. destruct E as (t & _ & E). destruct (t =? ty).
    + apply obind_inv in E. destruct E as (d & _ & E). injection E as <- <-. apply frame_same.
    + destruct (t =? XBT_STRING); [|injection E as <- <-; apply frame_same]. apply obind_inv in E. destruct E as (d & _ & E). apply obind_inv in E. destruct E as (s & _ & E).
      injection E as <- <-. repeat split; cbn; intros; try reflexivity. contradiction.
  - unfold fetch_param64 in E. destruct q as [q|]; [|injection E as <- <-; apply frame_same]. destruct x as [x|]; [|injection E as <- <-; apply frame_same].
    apply obind_inv in E. destruct E as (t & _ & E). destruct (t =? XBT_INT64).
    + apply obind_inv in E. destruct E as (d & _ & E). injection E as <- <-. apply frame_same.
    + destruct (t =? XBT_STRING); [|injection E as <- <-; apply frame_same]. apply obind_inv in E. destruct E as (d & _ & E). apply obind_inv in E. destruct E as (s & _ & E).
      destruct (ScanInt64 s) as [[v r]| |]; [|injection E as <- <-; apply frame_same|discriminate E].
      injection E as <- <-. repeat split; cbn; intros; try reflexivity. contradiction.
  - unfold fetch_item32 in E. destruct x as [x|]; [|injection E as <- <-; apply frame_same].
    apply obind_inv in E. destruct E as ((t & a) & _ & E). destruct (t =? XBT_INT32).
    + apply obind_inv in E. destruct E as (d & _ & E). injection E as <- <-. apply frame_same.
    + destruct (t =? XBT_STRING); [|injection E as <- <-; apply frame_same]. destruct (v_item32 st) as [v|] eqn:V; [injection E as <- <-; apply frame_same|].
      apply obind_inv in E. destruct E as (s & _ & E). injection E as <- <-. repeat split; cbn; intros; try reflexivity. destruct H as [H|H]; contradiction.
  - unfold fetch_item64 in E. destruct x as [x|]; [|injection E as <- <-; apply frame_same].
    apply obind_inv in E. destruct E as ((t & a) & _ & E). destruct (t =? XBT_INT64).
    + apply obind_inv in E. destruct E as (d & _ & E). injection E as <- <-. apply frame_same.
    + destruct (t =? XBT_STRING); [|injection E as <- <-; apply frame_same]. apply obind_inv in E. destruct E as (s & _ & E).
      destruct (ScanInt64 s) as [[v r]| |]; [|injection E as <- <-; apply frame_same|discriminate E].
      injection E as <- <-. repeat split; cbn; intros; try reflexivity. contradiction.
Qed.

(** Where the pointer of a call may point to. *)
Definition own (g : getter) (p : ptr) : Prop :=
  match p with InFile32 _ _ | InFile64 _ _ => True | ToParam32 => g = Param32 | ToParam64 => g = Param64 | ToItem32 => g = Item32 | ToItem64 => g = Item64 end.
Lemma fetch_own c st p st' : fetch st c = Ok (Some p, st') -> own (getter_of c) p.
Proof.
  destruct c as [m q x ty|m q x|m x|m x]; cbn [fetch]; intros E.
  - unfold fetch_param32 in E. destruct q as [q|]; [|discriminate E]. destruct x as [x|]; [|discriminate E].
    apply obind_inv in E. destruct E as (t & _ & E). destruct (t =? ty); [apply obind_inv in E; destruct E as (d & _ & E); injection E as <- <-; exact I|].
    destruct (t =? XBT_STRING); [|discriminate E]. apply obind_inv in E. destruct E as (d & _ & E). apply obind_inv in E. destruct E as (s & _ & E). injection E as <- <-. reflexivity.
  - unfold fetch_param64 in E. destruct q as [q|]; [|discriminate E]. destruct x as [x|]; [|discriminate E].
    apply obind_inv in E. destruct E as (t & _ & E). destruct (t =? XBT_INT64); [apply obind_inv in E; destruct E as (d & _ & E); injection E as <- <-; exact I|].
    destruct (t =? XBT_STRING); [|discriminate E]. apply obind_inv in E. destruct E as (d & _ & E). apply obind_inv in E. destruct E as (s & _ & E).
    destruct (ScanInt64 s) as [[v r]| |]; try discriminate E. injection E as <- <-. reflexivity.
  - unfold fetch_item32 in E. destruct x as [x|]; [|discriminate E].
    apply obind_inv in E. destruct E as ((t & a) & _ & E). destruct (t =? XBT_INT32); [apply obind_inv in E; destruct E as (d & _ & E); injection E as <- <-; exact I|].
    destruct (t =? XBT_STRING); [|discriminate E]. destruct (v_item32 st) as [v|]; [injection E as <- <-; reflexivity|].
    apply obind_inv in E. destruct E as (s & _ & E). injection E as <- <-. reflexivity.
  - unfold fetch_item64 in E. destruct x as [x|]; [|discriminate E].
    apply obind_inv in E. destruct E as ((t & a) & _ & E). destruct (t =? XBT_INT64); [apply obind_inv in E; destruct E as (d & _ & E); injection E as <- <-; exact I|].
    destruct (t =? XBT_STRING); [|discriminate E]. apply obind_inv in E. destruct E as (s & _ & E).
    destruct (ScanInt64 s) as [[v r]| |]; try discriminate E. injection E as <- <-. reflexivity.
Qed.

(** Later: until the same getter is called again; the variable of the getter of 32-bit elements never changes. *)
Lemma deref_keeps g p cs : own g p -> (g = Item32 \/ Forall (fun c => getter_of c <> g) cs) -> forall st st' v, deref st p = Ok v -> fetch_all st cs = Ok st' -> deref st' p = Ok v.
Proof.
  intros O. induction cs as [|c cs IH]; intros Hg st st' v D E; cbn [fetch_all] in E; [injection E as <-; exact D|].
  apply obind_inv in E. destruct E as ((p1 & st1) & E1 & E). apply (IH ltac:(destruct Hg as [Hg|Hg]; [left; exact Hg|right; inversion Hg; assumption]) st1 st' v); [|exact E].
  destruct (fetch_frame _ _ _ _ E1) as (F1 & F2 & F3 & F4).
  assert (Hc : g = Item32 \/ getter_of c <> g) by (destruct Hg as [Hg|Hg]; [left; exact Hg|right; inversion Hg; assumption]).
  destruct p; cbn [deref own] in *; try exact D; subst g; (destruct Hc as [Hc|Hc]; [try discriminate Hc|]).
  - rewrite F1; assumption.
  - rewrite F2; assumption.
  - rewrite F3; [exact D|left; intros N; rewrite N in D; discriminate D].
  - rewrite F3; [exact D|left; intros N; rewrite N in D; discriminate D].
  - rewrite F4; assumption.
Qed.
Lemma other_getters st c p st' v cs st2 : fetch st c = Ok (Some p, st') -> deref st' p = Ok v ->
  Forall (fun c2 => getter_of c2 <> getter_of c) cs -> fetch_all st' cs = Ok st2 -> deref st2 p = Ok v.
Proof. intros E D Hc. apply (deref_keeps (getter_of c)); [exact (fetch_own _ _ _ _ E)|right; exact Hc|exact D]. Qed.
Lemma item32_for_good st m x p st' v cs st2 : fetch st (ItemIntPtr m x) = Ok (Some p, st') -> deref st' p = Ok v -> fetch_all st' cs = Ok st2 -> deref st2 p = Ok v.
Proof. intros E D. apply (deref_keeps Item32); [exact (fetch_own _ _ _ _ E)|left; reflexivity|exact D]. Qed.

(** Converted documents. *)
Section DOC.
Context (fl : floats) (m filename : list Z) (modified : Z) (root : node) (img : list Z) (k : nat) (path : list nat) (u : node) (Hm : zlen m <= INT_MAX) (Hf : cstring filename) (F : document_fits root) (S : no_hex root)
  (H : Make_xb fl m filename modified root = rret img) (Hs : sub root path = Some u).

Lemma value_for_good n : int32 n -> value_of u = Some (sdec n) ->
  exists R x y, Initialize (Datatypes.S k) img = rret R /\ rd_root R = Some x /\ walk img x path = Ok (Some y) /\
    forall st, exists p st', fetch st (ItemIntPtr img (Some y)) = Ok (Some p, st') /\ forall cs st2, fetch_all st' cs = Ok st2 -> deref st2 p = Ok n.
Proof using F H Hf Hm Hs S.
  intros Hn Hv. destruct (doc_int _ _ _ _ _ _ k _ _ Hm Hf F S H Hs n Hn Hv) as (R & x & y & E1 & E2 & E3 & _ & E). exists R, x, y. repeat (split; [assumption|]).
  intros st. specialize (E (v_item32 st)). rewrite (item32_now img (Some y) st) in E. apply obind_inv in E. destruct E as ((p & st') & E & D).
  destruct p as [p|]; [|discriminate D]. apply obind_inv in D. destruct D as (v & D & D'). injection D' as -> _. exists p, st'. split; [exact E|]. intros cs st2. exact (item32_for_good _ _ _ _ _ _ cs st2 E D).
Qed.

Lemma attr_for_good i name n : int32 n -> nth_error (attrs_of u) i = Some (name, sdec n) -> name <> lit "et-tecera" ->
  (forall w v, In w (elements root) -> In (name, v) (attrs_of w) -> exists j, int32 j /\ v = sdec j) ->
  exists R x y q, Initialize (Datatypes.S k) img = rret R /\ rd_root R = Some x /\ walk img x path = Ok (Some y) /\ getParamByIndex img (Some y) (Z.of_nat i) = Ok (Some q) /\
    forall st, exists p st', fetch st (ParamInt32Ptr img (Some q) (Some y) XBT_INT32) = Ok (Some p, st') /\ forall cs st2, fetch_all st' cs = Ok st2 -> deref st2 p = Ok n.
Proof using F H Hf Hm Hs S.
  intros Hn Hi Ht Hall. destruct (doc_int_attr_typed _ _ _ _ _ _ k _ _ Hm Hf F S H Hs i name n Hn Hi Ht Hall) as (R & x & y & q & E1 & E2 & E3 & E4 & _ & E & T). exists R, x, y, q. repeat (split; [assumption|]).
  intros st. cbn [fetch]. unfold fetch_param32. unfold param_getInt32 in E. rewrite T in *. cbn [obind] in *. change (XBT_INT32 =? XBT_INT32) with true in *. cbv iota in *.
  apply obind_inv in E. destruct E as (d & D & E). injection E as ->. rewrite D. cbn [obind]. eexists. eexists. split; [reflexivity|]. intros cs st2 _. exact D.
Qed.
End DOC.
