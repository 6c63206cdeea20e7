(** What a document made of a JSON text should show. *)
From Verif Require Import Base Types SymtabSpec RoundtripProofs XbWrite DocSpec ReadSpec Jsmn JsonSpec.

(** The elements of a tree. *)
Fixpoint all (e : elem) : list elem := match e with El _ _ es => e :: flat_map all es end.
Definition ename (e : elem) : option (list Z) := match e with El n _ _ => n end.
Definition evalue (e : elem) : option (list Z) := match e with El _ v _ => v end.
Definition enames (e : elem) : list (list Z) := flat_map (fun u => match ename u with Some n => [n] | None => [] end) (all e).
(** The same tree as a document; an element without a name is called NULL. *)
Fixpoint doc (e : elem) : node := match e with El n v es => Node (match n with Some k => k | None => lit "NULL" end) v [] (map doc es) end.
(** The same tree, but names may be replaced by NULL, except those of elements with [keep] values. *)
Inductive resembles (keep : option (list Z) -> Prop) : elem -> node -> Prop :=
| Resembles n v es k ks : (n = Some k \/ k = lit "NULL" /\ (n = None \/ ~ keep v)) -> Forall2 (resembles keep) es ks -> resembles keep (El n v es) (Node k v [] ks).
(** Names and values *)
Definition texts (e : elem) : list (list Z) := enames e ++ flat_map (fun u => match evalue u with Some v => [v] | None => [] end) (all e).
(** All values survive (see C29). *)
Definition steady (e : elem) : Prop := forall u v, In u (all e) -> evalue u = Some v -> v = [] \/ steady_text v.
