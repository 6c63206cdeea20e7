(** Theorems about pools whose program is killed while it makes an element (C107).

    [fresh_steps] lists the file after each store of new_element, of init and of the value; a program that is killed leaves the file it had
    before the first or after any of them.  The bytes of a number are listed one by one, so the list has every file of the program and
    some more. *)
From Verif Require Import Base Types Sort Xb XbWrite Bw BwSpec BwHist BwSym BwFile BwReg BwFileSpec BwNamesSpec BwLifeSpec BwExamples BwNamesTop BwExamples BwFileExamples BwSetExamples BwCrashExamples BwImportExamples BwRegSteps BwNewSteps BwNewKillTop.

(** The stores are those of making an element: they end in the file it leaves. *)
Theorem C107_stores : forall disk m id ty n fl bs r m', bs <> [] -> (fresh_with disk m id ty n fl bs = Ok (r, m') <-> exists tr, fresh_steps disk m id ty n fl bs = Ok (r, tr) /\ final m tr = m').
Proof. exact made_split. Qed.
Print Assumptions C107_stores.
Theorem C107_stores_bare : forall disk m id ty n fl r m', fresh disk m id ty n fl = Ok (r, m') <-> exists tr, fresh_steps disk m id ty n fl [] = Ok (r, tr) /\ final m tr = m'.
Proof. exact bare_split. Qed.
Print Assumptions C107_stores_bare.
(** So every call that makes an element makes these stores. *)
Theorem C107_calls : forall disk m id x m' ty, getTagType m id = Ok ty ->
  (pool_tag disk m id = Ok (Some x, m') -> exists tr, fresh_steps disk m id ty 0 ELEMENT [] = Ok (Some x, tr) /\ final m tr = m') /\
  (forall v, pool_tagInt32 disk m id v = Ok (Some x, m') -> exists tr, fresh_steps disk m id ty 0 ELEMENT (le 4 v) = Ok (Some x, tr) /\ final m tr = m') /\
  (forall v, pool_tagInt64 disk m id v = Ok (Some x, m') -> exists tr, fresh_steps disk m id ty 8 ELEMENT (le 8 v) = Ok (Some x, tr) /\ final m tr = m') /\
  (forall v, pool_tagString disk m id v = Ok (Some x, m') -> exists tr, fresh_steps disk m id ty (zlen v + 1) ELEMENT (v ++ [0]) = Ok (Some x, tr) /\ final m tr = m') /\
  (forall v, pool_tagTime disk m id v = Ok (Some x, m') -> exists tr, fresh_steps disk m id ty 0 ELEMENT (le 4 v) = Ok (Some x, tr) /\ final m tr = m') /\
  (forall v, v <> [] -> pool_tagSHA1 disk m id v = Ok (Some x, m') -> exists tr, fresh_steps disk m id ty 0 ELEMENT v = Ok (Some x, tr) /\ final m tr = m').
Proof. exact calls_split. Qed.
Print Assumptions C107_calls.
(** ** C107: whenever the program is killed while it makes an element, the next program opens the pool and finds the names, the root and the
    elements as they were.  True of every file that is not longer than before, and of the one at the end; a longer file that is not like that
    is never opened. *)
Theorem C107_partial : forall k s m T P F, life k s m T P F -> forall disk id ty n fl bs r tr, fresh_steps disk m id ty n fl bs = Ok (r, tr) -> forall mi, In mi (m :: tr) ->
  (opens_as mi mi /\ known mi TAGS T /\ known mi PARAMS P /\ p_root mi = p_root m /\ forall e, In e (members F) -> rd mi e (s e) = rd m e (s e)) \/ (never_opens mi /\ zlen m < zlen mi).
Proof. exact made_killed. Qed.
Print Assumptions C107_partial.
Theorem C107_end_partial : forall k s m T P F, life k s m T P F -> forall disk id ty n fl bs r tr, fresh_steps disk m id ty n fl bs = Ok (r, tr) ->
  opens_as (final m tr) (final m tr) /\ known (final m tr) TAGS T /\ known (final m tr) PARAMS P /\ p_root (final m tr) = p_root m /\ forall e, In e (members F) -> rd (final m tr) e (s e) = rd m e (s e).
Proof. exact made_end. Qed.
Print Assumptions C107_end_partial.
(** It is wrong whenever the pool is enlarged: there are two stores after which a kill leaves a file no program opens. *)
Theorem C107_grow_refuted : forall k s m T P F, life k s m T P F -> forall disk id ty n fl bs r tr, fresh_steps disk m id ty n fl bs = Ok (r, tr) -> zlen (final m tr) <> zlen m ->
  exists l c1 c2 u, tr = l ++ c1 :: c2 :: u /\ never_opens c1 /\ never_opens c2.
Proof. exact made_lost. Qed.
Print Assumptions C107_grow_refuted.

(** A string behind a document of six elements: 51 stores, and the file is opened after each of them. *)
Definition shape_of (r : outcome (option Z * list (list Z))) : option (option Z * list Z) := match r with Ok (x, tr) => Some (x, map zlen tr) | _ => None end.
Lemma shape_inv r x l : shape_of r = Some (x, l) -> exists tr, r = Ok (x, tr) /\ map (@zlen Z) tr = l.
Proof. destruct r as [[y tr]| |]; [|discriminate|discriminate]. intro E. injection E as -> <-. exists tr. auto. Qed.
Example C107_example : exists tr, fresh_steps true x6 1 XBT_STRING 6 ELEMENT (lit "hello" ++ [0]) = Ok (Some 320, tr) /\ map (@zlen Z) tr = zrepeat 4096 51 /\
  forall mi, In mi (x6 :: tr) -> opens_as mi mi /\ known mi TAGS tags6 /\ rd mi 216 28 = rd x6 216 28.
Proof.
  assert (S : shape_of (fresh_steps true x6 1 XBT_STRING 6 ELEMENT (lit "hello" ++ [0])) = Some (Some 320, zrepeat 4096 51)) by (vm_compute; reflexivity). apply shape_inv in S as (tr & E & L). exists tr. split; [exact E|]. split; [exact L|]. assert (L6 : zlen x6 = 4096) by (vm_compute; reflexivity).
  intros mi I. destruct (C107_partial kx zx x6 tags6 [] Fx x6_life true 1 XBT_STRING 6 ELEMENT (lit "hello" ++ [0]) (Some 320) tr E mi I) as [(O & K & _ & _ & M)|[_ Z1]].
  - split; [exact O|]. split; [exact K|]. assert (J : In 216 (members Fx)) by (vm_compute; tauto). specialize (M 216 J). change (zx 216) with 28 in M. exact M.
  - exfalso. assert (Z2 : zlen mi = 4096).
    { destruct I as [<-|I]; [exact L6|]. apply (in_map (@zlen Z)) in I. rewrite L in I. exact (repeat_spec _ _ _ I). }
    rewrite L6, Z2 in Z1. discriminate Z1.
Qed.
(** A number behind the last 28 bytes of a pool: the pool is enlarged, and two of the files are never opened. *)
Example C107_grow_example : exists tr l c1 c2 u, fresh_steps true near_end 1 XBT_INT64 8 ELEMENT (le 8 5) = Ok (Some 4072, tr) /\ tr = l ++ c1 :: c2 :: u /\ never_opens c1 /\ never_opens c2 /\ opens_as (final near_end tr) (final near_end tr).
Proof.
  assert (S : shape_of (fresh_steps true near_end 1 XBT_INT64 8 ELEMENT (le 8 5)) = Some (Some 4072, 4096 :: zrepeat 8192 57)) by (vm_compute; reflexivity). apply shape_inv in S as (tr & E & L). assert (LN : zlen near_end = 4096) by (vm_compute; reflexivity).
  assert (LF : zlen (final near_end tr) = 8192).
  { unfold final. revert L. generalize near_end. intros d L. assert (Q : last (map (@zlen Z) tr) (zlen d) = 8192) by (rewrite L; reflexivity). rewrite <- Q. clear. induction tr as [|x [|y r] IH]; [reflexivity|reflexivity|exact IH]. }
  destruct (C107_grow_refuted k0 z0 near_end [] [] [] near_life true 1 XBT_INT64 8 ELEMENT (le 8 5) (Some 4072) tr E) as (l & c1 & c2 & u & Q & N1 & N2); [rewrite LF, LN; discriminate|].
  exists tr, l, c1, c2, u. split; [exact E|]. split; [exact Q|]. split; [exact N1|]. split; [exact N2|]. exact (proj1 (C107_end_partial k0 z0 near_end [] [] [] near_life true 1 XBT_INT64 8 ELEMENT (le 8 5) (Some 4072) tr E)).
Qed.
