(** Theorems about the integrity check (C31, C32). *)
From Verif Require Import Base Types Sort Xb XbWrite CheckSpec CheckProofs DocExamples.
From Coq Require Import Relations.

(** An element with one number, and a child. *)
Definition small_file : list Z :=
  le 2 (-2) ++ le 2 1 ++ le 4 1 ++ le 4 24 ++ (* header *) le 2 (-5) ++ [XBT_INT32; 0] ++ le 4 77 ++ (* attribute *) le 4 24 ++ (* link *)
  le 2 0 ++ le 2 0 ++ le 4 0 ++ le 4 13 ++ [0].

(** C31: if the recursive check accepts, and the reachable elements have no negative counts and only attributes
    stored in their record, then every reachable element lies with its records and links in the file. *)
Theorem C31_inside_partial : forall m R, zlen m <= INT_MAX -> forall x y, reach m x y -> (forall z, reach m x z -> counts_ok m z /\ inline_only m z) ->
  forall k, Check k m R (Some x) true = rret true -> element_inside m y.
Proof. exact accepted_inside. Qed.
Print Assumptions C31_inside_partial.
(** ... and any accepted element lies in the file with its records, as does its first text or wide attribute. *)
Theorem C31_element_partial : forall k m R x recursive, Check (S k) m R (Some x) recursive = rret true -> zlen m <= INT_MAX -> counts_ok m x ->
  element_inside m x /\
  (inline_only m x \/ exists i q ty d l, getParamByIndex m (Some x) i = Ok (Some q) /\ pd_type m q = Ok ty /\ pd_data m q = Ok d /\ it_length m x = Ok l /\ link_inside m x l ty d /\
     forall j p t, 0 <= j < i -> getParamByIndex m (Some x) j = Ok (Some p) -> pd_type m p = Ok t -> In t [XBT_NULL; XBT_INT32; XBT_FLOAT; XBT_UNIX_TIME; XBT_IPv4]).
Proof. exact Check_one. Qed.
Print Assumptions C31_element_partial.
(** The check itself does not read outside the file if no reachable count is negative. *)
Theorem C31_safe_partial : forall m R, zlen m <= INT_MAX -> forall k x, (forall z, reach m x z -> counts_ok m z) -> Check k m R (Some x) true <> Some Ub.
Proof. exact Check_safe. Qed.
Print Assumptions C31_safe_partial.

Lemma small_children x y : child small_file x y -> x = 0 \/ x = 24 -> x = 0 /\ y = 24.
Proof.
  intros (i & H) [->| ->]; unfold getChildByIndex in H.
  - change (it_childcount small_file 0) with (Ok 1) in H. cbn [obind] in H. destruct (Z.ltb_spec i 0); [discriminate H|]. destruct (Z.leb_spec 1 i); [discriminate H|].
    assert (i = 0) as -> by lia. vm_compute in H. injection H as <-. auto.
  - change (it_childcount small_file 24) with (Ok 0) in H. cbn [obind] in H. destruct (Z.ltb_spec i 0); [discriminate H|]. destruct (Z.leb_spec 0 i); [discriminate H|lia].
Qed.
Lemma small_reach y : reach small_file 0 y -> y = 0 \/ y = 24.
Proof.
  assert (G : forall a b, reach small_file a b -> a = 0 \/ a = 24 -> b = 0 \/ b = 24).
  { induction 1 as [a|a b c C H IH]; intros Ha; [exact Ha|]. destruct (small_children a b C Ha) as (-> & ->). apply IH. right. reflexivity. }
  intros H. apply (G 0 y H). left. reflexivity.
Qed.
Example C31_met : Check 3 small_file (mkcounts 1 0) (Some 0) true = rret true /\ reach small_file 0 24 /\
  (forall z, reach small_file 0 z -> counts_ok small_file z /\ inline_only small_file z).
Proof.
  split; [vm_compute; reflexivity|]. split; [eapply Relation_Operators.rt1n_trans; [exists 0; vm_compute; reflexivity|constructor]|].
  intros z Hz. apply small_reach in Hz. destruct Hz as [-> | ->].
  - split; [intros l p c H1 H2 H3; vm_compute in H1, H2, H3; injection H1 as <-; injection H2 as <-; injection H3 as <-; lia|].
    intros i q ty H1 H2. unfold getParamByIndex in H1. destruct (Z.ltb_spec i 0); [discriminate H1|]. change (it_paramcount small_file 0) with (Ok 1) in H1. cbn [obind] in H1. destruct (Z.leb_spec 1 i); [discriminate H1|].
    assert (i = 0) as -> by lia. injection H1 as <-. vm_compute in H2. injection H2 as <-. right. left. reflexivity.
  - split; [intros l p c H1 H2 H3; vm_compute in H1, H2, H3; injection H1 as <-; injection H2 as <-; injection H3 as <-; lia|].
    intros i q ty H1 H2. unfold getParamByIndex in H1. destruct (Z.ltb_spec i 0); [discriminate H1|]. change (it_paramcount small_file 24) with (Ok 0) in H1. cbn [obind] in H1. destruct (Z.leb_spec 0 i); [discriminate H1|lia].
Qed.

(** What is missing: the value of an element is not checked. *)
Definition no_value_file : list Z := le 2 (-2) ++ le 2 0 ++ le 4 0 ++ le 4 12.
Theorem C31_value_refuted : forall fl, Check 2 no_value_file (mkcounts 0 0) (Some 0) true = rret true /\ getString fl no_value_file (Some 0) [] ring0 = Ub /\ getInt no_value_file (Some 0) = Ub.
Proof. intros fl. split; [vm_compute; reflexivity|]. split; vm_compute; reflexivity. Qed.
Print Assumptions C31_value_refuted.
(** After the first text or wide attribute, neither the other attributes nor the children are checked. *)
Definition text_file : list Z :=
  le 2 (-2) ++ le 2 2 ++ le 4 1 ++ le 4 34 ++ le 2 (-2) ++ [XBT_STRING; 0] ++ le 4 32 ++ le 2 (-3) ++ [XBT_STRING; 0] ++ le 4 1000000 ++ le 4 2000000 ++ [0; 0].
Theorem C31_after_text_refuted : forall fl, Check 2 text_file (mkcounts 0 0) (Some 0) true = rret true /\
  param_getString fl text_file (Some 20) (Some 0) [] ring0 = Ub /\ obind (getChildByIndex text_file (Some 0) 0) (fun c => match c with Some y => it_name text_file y | None => Fail end) = Ub.
Proof. intros fl. split; [vm_compute; reflexivity|]. split; vm_compute; reflexivity. Qed.
Print Assumptions C31_after_text_refuted.
(** Opening a converted document with a damaged link succeeds (here the link to the root element), because the
    name in the document header ends the check. *)
Definition damaged fl : outcome (Z * Z * Z) :=
  match Make_xb fl (zrepeat 0 600) (lit "book.xml") 0 book with
  | Some (Ok img) =>
      match getChildByName img (Some 0) XTNR_PAYLOAD with
      | Ok (Some p) =>
          let m := bput img (p + 12) (le 4 1000000) in
          match Initialize 50 m with
          | Some (Ok R) => match rd_root R with Some x => Ok (zlen img, zlen m, x) | None => Fail end
          | _ => Fail
          end
      | _ => Fail
      end
  | _ => Fail
  end.
Theorem C31_damaged_refuted : forall fl, damaged fl = Ok (412, 412, 1000244).
Proof. intros fl. vm_compute. reflexivity. Qed.
Print Assumptions C31_damaged_refuted.
(** A negative length lets the check itself read outside the file. *)
Definition negative_file : list Z := le 2 (-2) ++ le 2 9 ++ le 4 0 ++ le 4 (-1).
Theorem C31_negative_refuted : Check 2 negative_file (mkcounts 0 0) (Some 0) true = Some Ub.
Proof. vm_compute. reflexivity. Qed.
Print Assumptions C31_negative_refuted.

(** C32: the check ends on every file in which no element reachable from the start contains itself... *)
Theorem C32_ends_partial : forall m R x fuel, (forall y, reach m x y -> ~ cyclic m y) -> (enough m <= fuel)%nat -> exists v, Check fuel m R (Some x) true = Some v.
Proof. exact Check_ends. Qed.
Print Assumptions C32_ends_partial.
(** ... in particular if all links point forward, as the converter writes them. *)
Theorem C32_forward_partial : forall m x, (forall y z, reach m x y -> child m y z -> y < z) -> forall y, reach m x y -> ~ cyclic m y.
Proof. exact forward_acyclic. Qed.
Print Assumptions C32_forward_partial.
(** The check of a single element always ends. *)
Theorem C32_single : forall m R x k, exists v, Check (S k) m R x false = Some v.
Proof. exact Check_flat_ends. Qed.
Print Assumptions C32_single.
Example C32_met : (forall y z, reach small_file 0 y -> child small_file y z -> y < z) /\ (enough small_file = 39)%nat.
Proof. split; [|reflexivity]. intros y z Hy C. destruct (small_children y z C (small_reach y Hy)) as (-> & ->). lia. Qed.
(** An element that names itself as its child. *)
Theorem C32_refuted : forall fuel, Check fuel cycle_file (mkcounts 0 0) (Some 0) true = None.
Proof. exact cycle_endless. Qed.
Print Assumptions C32_refuted.
