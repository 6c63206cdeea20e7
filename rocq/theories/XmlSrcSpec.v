(** XML documents, how libxml2 represents them, and what a source should show of them. *)
From Verif Require Import Base XbWrite XmlSrc.

(** The value of an attribute: characters (with character references and the five predefined entities replaced), or a reference to a declared entity *)
Inductive part := Letters (s : list Z) | RefTo (name replacement : list Z).
(** The content of an element.  Elements: local name, name space they belong to, the name spaces declared there, attributes (prefix, local name, value), content *)
Inductive xitem :=
| Text (s : list Z) | CData (s : list Z) | Comment (s : list Z) | Instruction (target data : list Z) | Ref (name replacement : list Z)
| Element (local : list Z) (space : option (list Z)) (declared : list (list Z)) (attrs : list (list Z * list Z * list part)) (items : list xitem).

(** libxml2's tree of it (libxml/tree.h) when entities are not substituted, as xmlReadFile without options does it *)
Definition part_tree (p : part) : xml_node :=
  match p with
  | Letters s => XmlNode 3 (Some (lit "text")) (Some s) None None [] []
  | RefTo n r => XmlNode 5 (Some n) (Some r) None None [] []
  end.
Fixpoint tree (i : xitem) : xml_node :=
  match i with
  | Text s => XmlNode 3 (Some (lit "text")) (Some s) None None [] []
  | CData s => XmlNode 4 None (Some s) None None [] []
  | Comment s => XmlNode 8 (Some (lit "comment")) (Some s) None None [] []
  | Instruction t d => XmlNode 7 (Some t) (Some d) None None [] []
  | Ref n r => XmlNode 5 (Some n) (Some r) None None [] []
  | Element l sp ds attrs items => XmlNode 1 (Some l) None (option_map Some sp) (match ds with [] => None | d :: _ => Some (Some d) end) (map (fun '(_, n, ps) => (n, map part_tree ps)) attrs) (map tree items)
  end.

(** The character data of an element *)
Definition chars_of (i : xitem) : list Z := match i with Text s | CData s | Ref _ s => s | _ => [] end.
Definition char_data (items : list xitem) : list Z := flat_map chars_of items.
Definition white (s : list Z) : Prop := Forall (fun c => 9 <= c <= 13 \/ c = 32) s.
Definition is_element (i : xitem) : bool := match i with Element _ _ _ _ _ => true | _ => false end.
(** [v] is [s] without the white space in front; white space at the end may be there or not. *)
Definition value_is (s : list Z) (v : option (list Z)) : Prop :=
  match v with
  | None => white s
  | Some v => exists w z, s = w ++ v ++ z /\ white w /\ white z /\ exists c r, v = c :: r /\ ~ (9 <= c <= 13 \/ c = 32)
  end.
Definition value_text (ps : list part) : list Z := flat_map (fun p => match p with Letters s => s | RefTo _ r => r end) ps.
Definition written (prefix local : list Z) : list Z := match prefix with [] => local | _ => prefix ++ lit ":" ++ local end.

(** What should be seen: the local name, the name space as attribute xmlns in front of the attributes, all attributes with their whole values, the
    character data, the elements in order. *)
Inductive shows : xitem -> node -> Prop :=
| Shows local space ds attrs items v kids : value_is (char_data items) v -> show_all (filter is_element items) kids ->
    shows (Element local space ds attrs items) (Node local v (match space with Some u => [(lit "xmlns", u)] | None => [] end ++ map (fun '(p, n, ps) => (written p n, value_text ps)) attrs) kids)
with show_all : list xitem -> list node -> Prop :=
| ShowNone : show_all [] []
| ShowSome i n l r : shows i n -> show_all l r -> show_all (i :: l) (n :: r).

(** Documents the plugin can cope with: in every element the character data is one text and comes first, attributes have no prefix, their values no
    references and one node, and name spaces are declared by elements that belong to one. *)
Definition plain_element (i : xitem) : Prop :=
  match i with
  | Element _ sp ds attrs items => ((exists s r, items = Text s :: r /\ white (char_data r)) \/ white (char_data items)) /\
      Forall (fun '(p, n, ps) => p = [] /\ exists s, ps = [Letters s]) attrs /\ (sp = None -> ds = [])
  | _ => True
  end.
Fixpoint inside (i : xitem) : list xitem := i :: match i with Element _ _ _ _ items => flat_map inside items | _ => [] end.
Definition plain (i : xitem) : Prop := forall j, In j (inside i) -> plain_element j.

(** The elements in document order with their depths *)
Fixpoint in_order (i : xitem) (depth : Z) : list (xitem * Z) :=
  match i with Element _ _ _ _ items => (i, depth) :: flat_map (fun j => in_order j (depth + 1)) items | _ => [] end.

(** What the plugin needs of any tree to survive: elements have names, attributes begin with a text. *)
Fixpoint sound_tree (x : xml_node) : Prop :=
  match x with XmlNode _ name _ _ _ properties children => name <> None /\ Forall (fun '(_, l) => exists c r, l = c :: r /\ x_type c = 3) properties /\
    fold_right and True (map (fun c => x_type c = 1 -> sound_tree c) children) end.
