(** Reading a document that grows at its end. *)
From Verif Require Import Base Types RingProofs Sort Xb XbWrite DocSpec ReadSpec.

(** The client's loop [for (int i = 0; (X = getNextChild(R, i)) != nullptr;)] over the element at [x]; the fuel bounds the number of
    rounds. *)
Fixpoint all_children (fuel : nat) m x (i : Z) : run (list Z) :=
  match fuel with
  | O => None
  | S k =>
      rbind (Some (getNextChild m (Some x) i)) (fun '(c, i) =>
      match c with
      | None => rret []
      | Some y => rbind (all_children k m x i) (fun l => rret (y :: l))
      end)
  end.

(** The element at [y] reads as the source element [t]. *)
Definition reads_as fl m R y t : Prop :=
  forall fuel out st, (height t <= fuel)%nat -> ring_ok st -> exists st', read_node fuel fl m R y out st = rret (normal t, st').

(** Less: the element at [y] has the name of [t], as many attributes and as many children. *)
Definition looks_like m R y t : Prop :=
  obind (it_name m y) (fun id => getSymbol m (rd_tags R) id) = Ok (name_of t) /\
  it_paramcount m y = Ok (zlen (attrs_of t)) /\ it_childcount m y = Ok (zlen (kids_of t)).

(** An element with names of the document [root] and any texts in the limits of the format, hexadecimal attributes excepted. *)
Definition named_in (root t : node) : Prop := forall u, In u (elements t) ->
  element_fits u /\ no_hex_attr u /\ In (name_of u) (map name_of (elements root)) /\
  forall a, In a (attrs_of u) -> In (fst a) (map fst (flat_map attrs_of (elements root))).
(** An element that can be added to the document [root]: it uses names of the document, and its texts survive the types the
    document's columns have. *)
Definition belongs (root t : node) : Prop := forall u, In u (elements t) ->
  element_fits u /\ no_hex_attr u /\ In (name_of u) (map name_of (elements root)) /\ steady_value u /\
  forall a, In a (attrs_of u) -> In (fst a) (map fst (flat_map attrs_of (elements root))) /\ steady_attr root a.

(** The children [old] of [root], then a last one with the name et-tecera. *)
Definition open_ended (root : node) (old : list node) : Prop :=
  (forall k, In k old -> name_of k <> lit "et-tecera") /\ exists last, name_of last = lit "et-tecera" /\ kids_of root = old ++ [last].
