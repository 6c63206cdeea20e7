(** Pools that are opened again, as examples. *)
From Verif Require Import Base Types Sort Xb XbWrite Bw BwSpec BwHist BwSym BwFile BwReg BwFileSpec BwExamples BwFileExamples BwNamesSpec BwLifeSpec BwSet BwSetExamples BwAttr BwAttrExamples BwOpen BwOpenSpec.

Lemma p6_indices : has_indices p6.
Proof. split; vm_compute; discriminate. Qed.
Lemma p6_typed : typed_names tags1 /\ typed_names params4.
Proof. split; repeat constructor; vm_compute; discriminate. Qed.
(** What the program that made the pool registers, and a program with another type for one attribute *)
Definition same_program := [(TAGS, 0, lit "root", XBT_NULL); (PARAMS, 0, lit "id", XBT_INT32); (PARAMS, 3, lit "at", XBT_UNIX_TIME)].
Definition other_program := [(TAGS, 0, lit "root", XBT_NULL); (PARAMS, 0, lit "id", XBT_INT64); (PARAMS, 3, lit "at", XBT_UNIX_TIME)].
Lemma same_requests : Forall request same_program.
Proof. repeat constructor; vm_compute; (auto || (split; [discriminate|reflexivity]) || discriminate). Qed.
Lemma other_requests : Forall request other_program.
Proof. repeat constructor; vm_compute; (auto || (split; [discriminate|reflexivity]) || discriminate). Qed.
Lemma same_agrees : Forall (fun '(t, id, name, type) => agrees tags1 params4 t id name type) same_program.
Proof. repeat constructor; vm_compute; (reflexivity || discriminate). Qed.
Lemma other_differs : ~ Forall (fun '(t, id, name, type) => agrees tags1 params4 t id name type) other_program.
Proof. intro A. apply Forall_cons_iff in A as [_ A]. apply Forall_cons_iff in A as [[_ A] _]. vm_compute in A. discriminate. Qed.
(** The pool after Clear *)
Definition cleared := Eval vm_compute in match Clear 20 p6 with Some (Ok (_, m)) => m | _ => [] end.
Lemma cleared_life : life (fun _ => false) (fun _ => 0) cleared tags1 params4 [].
Proof. apply (life_clear _ _ p6 tags1 params4 [] 20 cleared p6_life). vm_compute. reflexivity. Qed.
(** The pool of a program that did not call allRegistered *)
Lemma p4_life : life (fun _ => false) (fun _ => 0) p4 tags1 params4 [].
Proof.
  parammed p3 (lit "at") XBT_UNIX_TIME 3. parammed p2 (lit "raw") XBT_BLOB 2. parammed p1 (lit "name") XBT_STRING 1. parammed a1 (lit "id") XBT_INT32 0.
  apply (life_tag _ _ s0 [] [] [] 20 (lit "root") XBT_NULL 0); [|split; [repeat constructor; vm_compute; split; discriminate|discriminate]|small|right; small|small].
  apply (life_start _ _ s0 92 s0_pool); [vm_compute; reflexivity|]. intros t [-> | ->]; vm_compute; auto.
Qed.
(** A text that is no pool, longer than a header, and one that is shorter *)
Definition long_note := zrepeat 65 100.
Definition short_note := lit "list of things to buy".
