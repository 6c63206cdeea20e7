(** What a copied part of a document should be if the pool has other types for the texts. *)
From Verif Require Import Base Types BinSpec BwSym BwNamesSpec BwSourceSpec BwCopySpec XbBin.

(** [a] in the pool stands for [b] of the document: the same value, of the type the pool has registered for the name (or NULL); or the document has a text, and the pool has the value
    this text is of another type that is registered for the name. *)
Definition reads_as fl (L : names) (a b : list Z * Z * list Z) : Prop :=
  let '(n', ty', v') := a in let '(n, ty, v) := b in n' = n /\
  ((ty' = XBT_NULL \/ In (n, ty') L) /\ ty' = ty /\ v' = v \/
   In (n, ty') L /\ ty = XBT_STRING /\ ty' <> XBT_STRING /\ exists text st, cstring text /\ v = text ++ [0] /\ XBT_FromString fl text ty' 0 (zlen v + 64) = Ok st /\ v' = st_bytes st).
(** A tree whose values stand for those of the other, without some of its elements (and all below them). *)
Inductive taken fl (T P : names) : bnode -> bnode -> Prop :=
| taken_node n ty v ty' v' attrs attrs' kids kids' : reads_as fl T (n, ty', v') (n, ty, v) -> Forall2 (reads_as fl P) attrs' attrs -> sub (taken fl T P) kids' kids ->
    taken fl T P (BNode n ty' v' attrs' kids') (BNode n ty v attrs kids).
(** Values a pool can hold; no text is to become a date (of these the getters of documents tell no size). *)
Definition no_date (L : names) n ty : Prop := ty = XBT_STRING -> ~ In (n, XBT_UNIX_DATE) L.
Definition can_hold (T P : names) (u : bnode) : Prop :=
  let '(BNode n ty v attrs _) := u in holdable ty v /\ no_date T n ty /\ forall n ty v, In (n, ty, v) attrs -> holdable ty v /\ no_date P n ty.
