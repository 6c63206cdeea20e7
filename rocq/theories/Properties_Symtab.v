(** C26: the symbol tables a converter builds. *)
From Verif Require Import Base Types Sort Symtab SymtabSpec SymtabProofs.
From Coq Require Import Sorted.

(** Any sequence of registrations gives a strictly ordered table of at most 32768 names, all of them
    registered; as long as there are at most 32768 different names, every registered name is there, with
    the join of the types of its values. *)
Theorem C26_sorted_set : forall l : list (list Z * list Z), exists t, register [] l = rret t /\
  strictly_ordered (map fst t) /\ zlen t <= 32768 /\
  (forall n ty, In (n, ty) t -> In n (map fst l)) /\
  (different (map fst l) <= 32768 -> forall n, In n (map fst l) -> In (n, column_type (values_of n l)) t).
Proof. exact register_ok. Qed.
Print Assumptions C26_sorted_set.
Definition some_names : list (list Z * list Z) :=
  [(lit "item", lit "12"); (lit "a", []); (lit "items", lit "x"); (lit "ite", lit "3"); (lit "item", lit "abc"); (lit "B", lit "1.5")].
Example C26_sorted_set_met : different (map fst some_names) = 5 /\
  register [] some_names = rret [(lit "B", XBT_INT32_DECI); (lit "a", XBT_NULL); (lit "ite", XBT_INT32); (lit "item", XBT_VARIANT); (lit "items", XBT_STRING)].
Proof. split; vm_compute; reflexivity. Qed.

(** A name is found at an index that holds it exactly when it is in the table; the index is at most 32767. *)
Theorem C26_find_partial : forall l t s, register [] l = rret t -> s <> lit "et-tecera" ->
  exists i, Find (Some s) t = rret i /\
   ((In s (map fst t) /\ 0 <= i <= 32767 /\ name_at t i = Ok s) \/ (~ In s (map fst t) /\ i = -1)).
Proof. exact find_registered. Qed.
Print Assumptions C26_find_partial.
Example C26_find_met : exists t, register [] some_names = rret t /\ Find (Some (lit "item")) t = rret 3 /\ Find (Some (lit "it")) t = rret (-1).
Proof. eexists. split; [vm_compute; reflexivity|]. split; vm_compute; reflexivity. Qed.

(** The index given out by a registration holds that name at that moment. *)
Theorem C26_index : forall l t n v, register [] l = rret t -> different (map fst (l ++ [(n, v)])) <= 32768 ->
  exists i t', FindOrAdd (Some n) t v = rret (i, t') /\ 0 <= i <= 32767 /\ name_at t' i = Ok n.
Proof. exact add_index. Qed.
Print Assumptions C26_index.
Example C26_index_met : exists t t', register [] some_names = rret t /\ FindOrAdd (Some (lit "it")) t (lit "7") = rret (2, t') /\ zlen t' = 6.
Proof. eexists. eexists. split; [vm_compute; reflexivity|]. split; vm_compute; reflexivity. Qed.

(** A full table is left alone. *)
Theorem C26_full : forall l t n v, register [] l = rret t -> zlen t = 32768 -> ~ In n (map fst t) -> FindOrAdd (Some n) t v = rret (-1, t).
Proof. exact add_full. Qed.
Print Assumptions C26_full.
Example C26_full_met : exists l t, register [] l = rret t /\ zlen t = 32768.
Proof. exact full_met. Qed.

(** The typed registrations keep the order as well and give out the same indexes. *)
Theorem C26_typed : forall t n ty, strictly_ordered (map fst t) -> zlen t < 32768 ->
  exists i t', FindOrAddTyped (Some n) t ty = rret (i, t') /\ strictly_ordered (map fst t') /\ name_at t' i = Ok n /\ 0 <= i <= 32767 /\
  (forall m, In m (map fst t') <-> m = n \/ In m (map fst t)) /\
  (forall m a, m <> n -> (In (m, a) t <-> In (m, a) t')) /\
  (forall a, In (n, a) t -> In (n, XBT_JoinTypes ty a) t') /\ (~ In n (map fst t) -> In (n, ty) t').
Proof. exact typed_ok. Qed.
Print Assumptions C26_typed.
Example C26_typed_met : exists t t', register [] some_names = rret t /\ zlen t < 32768 /\ FindOrAddTyped (Some (lit "ite")) t XBT_INT64 = rret (2, t') /\ t' <> t.
Proof. eexists. eexists. split; [vm_compute; reflexivity|]. split; [vm_compute; reflexivity|]. split; [vm_compute; reflexivity|]. intros E. vm_compute in E. discriminate. Qed.

(** The name "et-tecera" is registered like any other but looked up as the reserved id -9, also among
    attribute names, where -9 stands for the author of a transaction. *)
Theorem C26_et_tecera_refuted : exists l t, register [] l = rret t /\ In (lit "et-tecera") (map fst t) /\ Find (Some (lit "et-tecera")) t = rret (-9).
Proof. exact et_tecera_reserved. Qed.
Print Assumptions C26_et_tecera_refuted.
