(** Documents: source trees, the limits of the format, and what reading a document through the API means. *)
From Verif Require Import Base Types SymtabSpec XbWrite.

(** All elements of a tree. *)
Fixpoint elements (t : node) : list node := t :: match t with Node _ _ _ kids => flat_map elements kids end.
Definition name_of (t : node) : list Z := let '(Node n _ _ _) := t in n.
Definition value_of (t : node) : option (list Z) := let '(Node _ v _ _) := t in v.
Definition attrs_of (t : node) : list (list Z * list Z) := let '(Node _ _ a _) := t in a.
Definition kids_of (t : node) : list node := let '(Node _ _ _ k) := t in k.

(** The texts are C strings, the numbers of attributes and children fit their fields. *)
Definition element_fits (t : node) : Prop :=
  cstring (name_of t) /\ (forall v, value_of t = Some v -> cstring v) /\
  (forall n v, In (n, v) (attrs_of t) -> cstring n /\ cstring v) /\
  zlen (attrs_of t) <= 32767 /\ zlen (kids_of t) <= INT_MAX.
(** No attribute text of hexadecimal digits only (such a text is stored over its neighbours). *)
Definition no_hex_attr (t : node) : Prop := forall n v, In (n, v) (attrs_of t) -> XBT_Detect v <> XBT_HEX.
(** The format numbers at most 32768 different element names and as many attribute names. *)
Definition document_fits (root : node) : Prop :=
  (forall u, In u (elements root) -> element_fits u) /\
  different (map name_of (elements root)) <= 32768 /\ different (map fst (flat_map attrs_of (elements root))) <= 32768.
