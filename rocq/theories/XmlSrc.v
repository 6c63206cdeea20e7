(** Model of the source of XML documents, src/bin_xml_plugin.cpp.  libxml2 is not modelled: the document is the tree xmlReadFile delivers, any tree. *)
From Verif Require Import Base Sort XbWrite.

(** What the plugin uses of libxml2's xmlNode and xmlAttr (libxml/tree.h): type, name, content, ns and nsDef (with their href), properties and children.
    Null pointers are None; a list of siblings is a list.  The children of an attribute are nodes as well. *)
Inductive xml_node := XmlNode (type : Z) (name content : option (list Z)) (ns nsDef : option (option (list Z))) (properties : list (list Z * list xml_node)) (children : list xml_node).
Definition x_type (x : xml_node) : Z := let '(XmlNode t _ _ _ _ _ _) := x in t.
Definition x_name (x : xml_node) : option (list Z) := let '(XmlNode _ n _ _ _ _ _) := x in n.
Definition x_content (x : xml_node) : option (list Z) := let '(XmlNode _ _ c _ _ _ _) := x in c.
Definition x_ns (x : xml_node) : option (option (list Z)) := let '(XmlNode _ _ _ n _ _ _) := x in n.
Definition x_nsDef (x : xml_node) : option (option (list Z)) := let '(XmlNode _ _ _ _ n _ _) := x in n.
Definition x_properties (x : xml_node) : list (list Z * list xml_node) := let '(XmlNode _ _ _ _ _ p _) := x in p.
Definition x_children (x : xml_node) : list xml_node := let '(XmlNode _ _ _ _ _ _ c) := x in c.
(** libxml/tree.h, xmlElementType *)
Definition XML_ELEMENT_NODE : Z := 1.
Definition XML_TEXT_NODE : Z := 3.

(** Initialize and getRoot, src/bin_xml_plugin.cpp:42-67: [doc] is what xmlReadFile returned, with what xmlDocGetRootElement finds in it. *)
Definition xml_open (doc : option (option xml_node)) : option xml_node := match doc with None => None | Some r => r end.

(** getNodeName, src/bin_xml_plugin.cpp:69-73.  The callers need a name. *)
Definition xml_getNodeName (x : xml_node) : outcome (list Z) := match x_name x with Some n => Ok n | None => Ub end.

(** getNodeValue, src/bin_xml_plugin.cpp:75-86.  isspace gets a char; bytes from 128 are taken as no spaces. *)
Definition xml_getNodeValue (x : xml_node) : option (list Z) :=
  match x_children x with
  | [] => None
  | c :: _ => if negb (x_type c =? XML_TEXT_NODE) then None else match x_content c with None => None | Some v => match skip_spaces v with [] => None | v => Some v end end
  end.

(** ForAllChildren, src/bin_xml_plugin.cpp:89-97: the elements on_element is called for *)
Definition xml_ForAllChildren (x : xml_node) : list xml_node := filter (fun c => x_type c =? XML_ELEMENT_NODE) (x_children x).

(** ForAllChildrenRecursively, src/bin_xml_plugin.cpp:99-110: the calls of on_element with the depth *)
Fixpoint xml_ForAllChildrenRecursively (x : xml_node) (deep : Z) : list (xml_node * Z) :=
  (x, deep) :: match x with XmlNode _ _ _ _ _ _ children => flat_map (fun c => if x_type c =? XML_ELEMENT_NODE then xml_ForAllChildrenRecursively c (deep + 1) else []) children end.

(** ForAllParams, src/bin_xml_plugin.cpp:112-134: the calls of on_param.  An attribute without nodes is a null pointer that is followed, another node than a
    text ends the program by assert: both [Ub].  A missing value is treated as an empty one by all callers (see [node]). *)
Definition xml_text (v : option (list Z)) : list Z := match v with Some v => v | None => [] end.
Definition xmlns (x : xml_node) : list (list Z * list Z) :=
  match x_ns x with
  | Some href => [(lit "xmlns", xml_text href)]
  | None => match x_nsDef x with Some href => [(lit "xmlns", xml_text href)] | None => [] end
  end.
Fixpoint xml_properties (l : list (list Z * list xml_node)) : outcome (list (list Z * list Z)) :=
  match l with
  | [] => Ok []
  | (name, children) :: l =>
      match children with
      | [] => Ub
      | c :: _ => if negb (x_type c =? XML_TEXT_NODE) then Ub else obind (xml_properties l) (fun r => Ok ((name, xml_text (x_content c)) :: r))
      end
  end.
Definition xml_ForAllParams (x : xml_node) : outcome (list (list Z * list Z)) := obind (xml_properties (x_properties x)) (fun r => Ok (xmlns x ++ r)).

(** What the converter gets to see through these functions: it calls them for the root and then for the children of every element
    (src/bin_xml_creator.cpp:534-584, 853-1000). *)
Fixpoint xml_source (x : xml_node) : outcome node :=
  obind (xml_getNodeName x) (fun name =>
  obind (xml_ForAllParams x) (fun attrs =>
  let value := xml_getNodeValue x in
  match x with XmlNode _ _ _ _ _ _ children =>
  obind ((fix kids (l : list xml_node) : outcome (list node) :=
    match l with
    | [] => Ok []
    | c :: l => if x_type c =? XML_ELEMENT_NODE then obind (xml_source c) (fun n => obind (kids l) (fun r => Ok (n :: r))) else kids l
    end) children) (fun k => Ok (Node name value attrs k)) end)).
