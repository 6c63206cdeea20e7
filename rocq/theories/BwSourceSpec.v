(** What a pool contains, as a tree of names and values. *)
From Verif Require Import Base Types Sort Xb XbWrite XbBin BinSpec Bw BwSpec BwHist BwSym BwNamesSpec BwLifeSpec.

(** [x] has a registered name, a type and, in its own space, the bytes [v]. *)
Definition says (s : Z -> Z) m (L : names) x name ty v : Prop :=
  exists i ty', el_id m x = Ok (Z.of_nat i) /\ nth_error L i = Some (name, ty') /\ ty' <> XBT_UNKNOWN /\ el_type m x = Ok ty /\ rd m (x + 24) (s x - 24) = Ok v.
Definition attr_says (k : Z -> bool) s m P a (d : list Z * Z * list Z) : Prop := let '(name, ty, v) := d in k a = false /\ says s m P a name ty v.
(** The tree at [x]: its attributes and its children in their order. *)
Inductive tree_at (k : Z -> bool) (s : Z -> Z) m (T P : names) (F : forest) : Z -> bnode -> Prop :=
| tree_here x A L name ty v attrs kids : In x (members F) -> k x = true -> says s m T x name ty v -> owned F x false A -> owned F x true L ->
    Forall2 (attr_says k s m P) A attrs -> Forall2 (tree_at k s m T P F) L kids -> tree_at k s m T P F x (BNode name ty v attrs kids).

(** The values the converter keeps (see C50): of variable size only if they are completely there. *)
Definition complete ty (v : list Z) : Prop :=
  In ty (four_bytes ++ eight_bytes ++ [XBT_GUID; XBT_IPv6; XBT_SHA1; XBT_NULL]) \/ In ty [XBT_BLOB; XBT_HEX] /\ 4 + unle (ztake 4 v) <= zlen v \/ ty = XBT_STRING /\ In 0 v.
Definition convertible (u : bnode) : Prop :=
  let '(BNode _ ty v attrs _) := u in complete ty v /\ ty <> XBT_IPv6 /\ zlen attrs <= 32767 /\ forall n ty v, In (n, ty, v) attrs -> complete ty v /\ (ty = XBT_STRING -> hd 0 v = 0).
