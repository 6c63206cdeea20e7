(** Printing a source to the standard output: print, s_PrintElement and s_PrintParam of Bin_src_plugin, src/bin_xml_creator.cpp:113-151, for
    sources of texts.  The output is the list of the bytes written; the counter of the elements is taken not to overflow. *)
From Verif Require Import Base Types XbWrite.

(** [printf("%*s", deep * TAB_SIZE, "")]; TAB_SIZE: include/binary_xml/bin_xml_creator.h:24 *)
Definition pad (deep : Z) : list Z := zrepeat 32 (4 * deep).
(** 148-151 *)
Definition print_param (a : list Z * list Z) : list Z := [32] ++ fst a ++ [61; 34] ++ snd a ++ [34].
(** 121-146, with print_deep and print_node_counter: the output and the counter afterwards *)
Fixpoint print_element (t : node) (deep counter : Z) : list Z * Z :=
  let '(Node name value attrs kids) := t in
  let '(inner, after) := (fix children (l : list node) (c : Z) : list Z * Z :=
    match l with
    | [] => ([], c)
    | u :: l => let '(s, c) := print_element u (deep + 1) c in let '(r, c) := children l c in (s ++ r, c)
    end) kids counter in
  let break := if counter <? after then [10] ++ pad deep else [] in
  ([10] ++ pad deep ++ [60] ++ name ++ flat_map print_param attrs ++ [62] ++ inner ++ break ++
   match value with Some v => v ++ break | None => [] end ++ [60; 47] ++ name ++ [62], after + 1).
(** 113-119 *)
Definition print_source (root : node) : list Z := fst (print_element root 0 0) ++ [10].
