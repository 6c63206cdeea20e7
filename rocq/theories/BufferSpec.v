(** The shortest XML text of a document (texts without characters that need escaping; escaping only makes it
    longer).  *)
From Verif Require Import Base XbWrite DocSpec.

Definition attr_source (a : list Z * list Z) : list Z := [32] ++ fst a ++ [61; 34] ++ snd a ++ [34].   (* name="value" *)
Fixpoint source (t : node) : list Z :=
  let '(Node name value attrs kids) := t in
  [60] ++ name ++ flat_map attr_source attrs ++
  match value, kids with
  | None, [] => [47; 62]                                                              (* /> *)
  | _, _ => [62] ++ match value with Some v => v | None => [] end ++ flat_map source kids ++ [60; 47] ++ name ++ [62]
  end.

(** src/bin_xml_creator.cpp:398: what the converter allocates for a source of that length. *)
Definition buffer_size (root : node) : Z := 1024 + 4 * zlen (source root).
