(** The items of a document as a tree of positions, and the orders it can be visited in. *)
From Verif Require Import Base Types Xb XbWrite CheckSpec DocSpec.

Inductive itree := At (x : Z) (kids : list itree).
Definition place (t : itree) : Z := let '(At x _) := t in x.
(** The tree is in the file. *)
Inductive laid m : itree -> Prop :=
| laid_here x kids : it_childcount m x = Ok (zlen kids) -> (forall i t, nth_error kids i = Some t -> getChildByIndex m (Some x) (Z.of_nat i) = Ok (Some (place t))) ->
    Forall (laid m) kids -> laid m (At x kids).
Fixpoint levels (t : itree) : nat := let '(At _ kids) := t in S (fold_right Nat.max O (map levels kids)).
(** Everything below, with its depth; parents before their children. *)
Fixpoint parents_first deep (t : itree) : list (Z * Z) :=
  let '(At _ kids) := t in flat_map (fun k => (place k, deep) :: parents_first (deep + 1) k) kids.
(** Children before their parents *)
Fixpoint children_first deep (t : itree) : list (Z * Z) :=
  let '(At _ kids) := t in flat_map (fun k => children_first (deep + 1) k ++ [(place k, deep)]) kids.
(** The same, each with all items from the start down to it. *)
Fixpoint ways (up : list Z) (t : itree) : list (Z * list Z) :=
  let '(At _ kids) := t in flat_map (fun k => ways (up ++ [place k]) k ++ [(place k, up ++ [place k])]) kids.
(** In the array, from the index [deep] on, is the way, as far as the array goes. *)
Definition lists_way deep (R : list Z) (way : list Z) : Prop := zlen R = 1024 /\ forall i p, nth_error way i = Some p -> deep + Z.of_nat i < 1024 -> nth_error R (Z.to_nat (deep + Z.of_nat i)) = Some p.
(** One call: the item, its depth, the array with the way to it. *)
Definition with_way deep0 (e : Z * Z * option (list Z)) (w : Z * list Z) : Prop :=
  let '(y, d, R) := e in y = fst w /\ d = deep0 + zlen (snd w) - 2 /\ exists r, R = Some r /\ lists_way deep0 r (snd w).
(** The items are those of the source, with its names. *)
Inductive same_items m sy : itree -> node -> Prop :=
| same_here x kids name v a ks id : it_name m x = Ok id -> getSymbol m sy id = Ok name -> Forall2 (same_items m sy) kids ks -> same_items m sy (At x kids) (Node name v a ks).
(** How deep elements are nested *)
Fixpoint depth (t : node) : nat := let '(Node _ _ _ kids) := t in S (fold_right Nat.max O (map depth kids)).
(** The item at [y] has this name. *)
Definition named m sy y name : Prop := exists id, it_name m y = Ok id /\ getSymbol m sy id = Ok name.
