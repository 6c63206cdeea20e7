(** What copying a part of a document into a pool should do. *)
From Verif Require Import Base Types Sort Xb XbWrite XbBin BinSpec Bw BwSpec BwHist BwSym BwNamesSpec BwLifeSpec BwSourceSpec.

(** The dictionaries fit: the names of the document's table have the same ids in the pool. *)
Definition agrees d (S : symbols) (L : names) : Prop :=
  forall i nm, 0 <= i < sy_count S -> getSymbol d S i = Ok nm -> exists ty, ty <> XBT_UNKNOWN /\ nth_error L (Z.to_nat i) = Some (nm, ty).
(** The item [y] and all below it have names from the document's tables, no reserved ones. *)
Inductive named d (R : reader) : Z -> Prop :=
| named_item y : (forall id, it_name d y = Ok id -> 0 <= id < sy_count (rd_tags R)) ->
    (forall i q id, getParamByIndex d (Some y) i = Ok (Some q) -> pd_name d q = Ok id -> 0 <= id < sy_count (rd_params R)) ->
    (forall i c, getChildByIndex d (Some y) i = Ok (Some c) -> named d R c) -> named d R y.
(** Values a pool can hold: not texts with reserve; blobs have their size in front. *)
Definition holdable ty (v : list Z) : Prop := ty <> XBT_BLOB_STRING /\ (ty = XBT_BLOB \/ ty = XBT_HEX -> 4 <= zlen v).
(** Texts are not to be converted: their names are registered for texts. *)
Definition text_name (L : names) n ty : Prop := ty = XBT_STRING -> forall ty', In (n, ty') L -> ty' = XBT_STRING.
Definition copyable (T P : names) (u : bnode) : Prop :=
  let '(BNode n ty v attrs _) := u in holdable ty v /\ text_name T n ty /\ forall n ty v, In (n, ty, v) attrs -> holdable ty v /\ text_name P n ty.

(** A part of a list: some are left out, the others are in the relation [R]. *)
Inductive sub {A B} (R : A -> B -> Prop) : list A -> list B -> Prop :=
| sub_nil : sub R [] []
| sub_keep a b l l' : R a b -> sub R l l' -> sub R (a :: l) (b :: l')
| sub_drop b l l' : sub R l l' -> sub R l (b :: l').
(** A tree without some of its elements (and all below them). *)
Inductive pruned : bnode -> bnode -> Prop :=
| pruned_node n ty v attrs kids kids' : sub pruned kids kids' -> pruned (BNode n ty v attrs kids) (BNode n ty v attrs kids').

(** [p] may have got attributes and children; everything else that was in the pool is the same. *)
Definition grown (k : Z -> bool) (s : Z -> Z) m (F : forest) p (k' : Z -> bool) (s' : Z -> Z) m' (F' : forest) : Prop :=
  (forall e, In e (members F) -> In e (members F') /\ k' e = k e /\ s' e = s e /\ same_data s m m' e) /\
  (forall q b L, In q (members F) -> q <> p -> owned F q b L -> owned F' q b L).
(** The attributes and the children of [p], values without the space behind them. *)
Definition holds (k : Z -> bool) s m T P F p attrs kids : Prop :=
  exists A L attrs' kids', owned F p false A /\ owned F p true L /\ Forall2 (attr_says k s m P) A attrs' /\ Forall2 (tree_at k s m T P F) L kids' /\
  map attr_doc attrs' = attrs /\ map doc_of kids' = kids.

(** When it must succeed: the values are of known types, and of those their names are registered for. *)
Definition known_types : list Z := four_bytes ++ eight_bytes ++ [XBT_GUID; XBT_IPv6; XBT_SHA1; XBT_NULL; XBT_STRING; XBT_BLOB; XBT_HEX].
Definition typed (L : names) n ty : Prop := forall ty', In (n, ty') L -> ty' = ty.
Definition fitting (T P : names) (u : bnode) : Prop :=
  let '(BNode n ty v attrs _) := u in holdable ty v /\ In ty known_types /\ (ty = XBT_NULL \/ typed T n ty) /\ forall n ty v, In (n, ty, v) attrs -> holdable ty v /\ In ty known_types /\ typed P n ty.
(** Bytes that are enough for values with the heads of their elements *)
Fixpoint attr_cost (attrs : list (list Z * Z * list Z)) : Z := match attrs with [] => 0 | (_, _, v) :: rest => zlen v + 40 + attr_cost rest end.
Fixpoint cost (u : bnode) : Z := let '(BNode _ _ v attrs kids) := u in zlen v + 40 + attr_cost attrs + fold_right Z.add 0 (map cost kids).
Definition costs kids := fold_right Z.add 0 (map cost kids).
(** The attributes of one element fit in what is kept free for them. *)
Definition short (u : bnode) : Prop := let '(BNode _ _ _ attrs _) := u in attr_cost attrs <= 16000.
