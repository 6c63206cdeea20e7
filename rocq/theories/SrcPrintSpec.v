(** Elements whose texts need no entities. *)
From Verif Require Import Base XbWrite DocSpec XmlSpec.

(** Names are XML names, no attribute stands twice; attributes and values can stand in XML as they are; the value of an element with children has no
    white space at its ends. *)
Definition unescaped (t : node) : Prop :=
  xml_name (name_of t) /\ NoDup (map fst (attrs_of t)) /\
  (forall a, In a (attrs_of t) -> xml_name (fst a) /\ forall c, In c (snd a) -> attr_char c = true /\ c <> 38) /\
  forall v, value_of t = Some v -> (forall c, In c v -> text_char c = true /\ c <> 38) /\ has_cdata_end v = false /\ (kids_of t <> [] -> trim v = v).
