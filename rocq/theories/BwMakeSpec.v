(** What a text document should look like in the pool made of it. *)
From Verif Require Import Base Types Sort Symtab SymtabSpec Xb XbWrite XbBin BinSpec Bw BwSpec BwHist BwFile BwSym BwNamesSpec BwLifeSpec BwSourceSpec.

(** The bytes a text is converted to for the type [ty], as in a buffer of its own. *)
Definition converted fl (v : list Z) ty (bs : list Z) : Prop :=
  exists size size2 st, XBT_SizeFromString v ty = Ok size /\ XBT_Size2 ty size = Ok size2 /\ XBT_FromString fl v ty 0 size2 = Ok st /\ st_pos st = 0 /\ st_bytes st = bs.
(** The space of an element with the type [ty] begins with the converted text. *)
Definition holds_text fl ty (w v : list Z) : Prop := exists bs pad, converted fl v ty bs /\ w = bs ++ pad.
(** The texts of a document in a tree of typed values: the same names, attributes and children in the same order. *)
Inductive mirrors fl : bnode -> node -> Prop :=
| mirrors_here name ty w attrs' kids' value attrs kids : holds_text fl ty w (match value with Some v => v | None => [] end) ->
    Forall2 (fun '(n', ty, w) '(n, v) => n' = n /\ holds_text fl ty w v) attrs' attrs -> Forall2 (mirrors fl) kids' kids ->
    mirrors fl (BNode name ty w attrs' kids') (Node name value attrs kids).
(** All names of a document *)
Definition tag_names root : list (list Z) := map fst (tag_uses root).
Definition attr_names root : list (list Z) := map fst (attr_uses root).
(** The names the converter can number: not the reserved one, not more than fit. *)
Definition numbered root : Prop :=
  different (tag_names root) <= 32768 /\ different (attr_names root) <= 32768 /\ ~ In (lit "et-tecera") (tag_names root) /\ ~ In (lit "et-tecera") (attr_names root).
(** A list of the names [l] (with their texts) in alphabetical order, each with the type all its texts fit in. *)
Definition lists_all (T : names) (l : list (list Z * list Z)) : Prop :=
  strictly_ordered (map fst T) /\ (forall n, In n (map fst l) -> In (n, column_type (values_of n l)) T) /\ forall n ty, In (n, ty) T -> In n (map fst l).
(** The pool gets at least the 16 KB it begins with: the source of [n] bytes is shorter than 128 MB, or the file was a pool before, its size is kept. *)
Definition roomy n f : Prop := zlen f < HEADER /\ 0 <= n < 134213632 \/ HEADER <= zlen f /\ exists mm, p_mmap_size f = Ok mm /\ INITIAL <= mm.
