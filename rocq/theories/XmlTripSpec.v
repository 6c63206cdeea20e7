(** XML texts as libxml2 delivers them: from the reader of XmlSpec to the documents of XmlSrcSpec. *)
From Verif Require Import Base XbWrite DocSpec XmlSpec XmlSrc XmlSrcSpec.

Fixpoint item (x : xml) : xitem :=
  match x with Elem n attrs body => Element n None [] (map (fun '(a, v) => ([], a, [Letters v])) attrs) (map (fun p => match p with Chars t => Text t | Child y => item y end) body) end.
(** No text has white space in front (or behind, beside children), and the character data of an element stands in front of its children. *)
Definition text_of (body : list piece) : list Z := flat_map (fun p => match p with Chars t => t | Child _ => [] end) body.
Definition starts_well (t : list Z) : Prop := forall c r, t = c :: r -> ~ (9 <= c <= 13 \/ c = 32).
Definition laid_out_element (x : xml) : Prop :=
  match x with Elem n attrs body =>
    (exists t, body = [Chars t] /\ starts_well t) \/ body = [] \/
    (exists y, In (Child y) body) /\ forallb blank (text_of body) = true \/
    (exists t rest y, body = Chars t :: rest /\ In (Child y) rest /\ forallb blank (text_of rest) = true /\ starts_well t /\ trim t = t)
  end.
Fixpoint parts (x : xml) : list xml := x :: match x with Elem _ _ body => flat_map (fun p => match p with Chars _ => [] | Child y => parts y end) body end.
Definition laid_out (x : xml) : Prop := forall y, In y (parts x) -> laid_out_element y.
