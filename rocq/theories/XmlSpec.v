(** XML texts: a cautious reader.  It accepts a part of XML 1.0 (no comments, processing instructions, CDATA or doctype;
    attributes in double quotes) and says for what it accepts which elements, attributes and texts are meant.  Bytes from 128 on are
    taken as parts of letters; whether they form proper UTF-8 is not checked. *)
From Verif Require Import Base Types XbWrite DocSpec.

Inductive xml := Elem (name : list Z) (attrs : list (list Z * list Z)) (body : list piece)
with piece := Chars (text : list Z) | Child (x : xml).

(** Names: letters, '_', ':'; then also digits, '-' and '.'. *)
Definition name_start (c : Z) : bool := ((65 <=? c) && (c <=? 90)) || ((97 <=? c) && (c <=? 122)) || (c =? 95) || (c =? 58) || ((128 <=? c) && (c <=? 255)).
Definition name_char (c : Z) : bool := name_start c || ((48 <=? c) && (c <=? 57)) || (c =? 45) || (c =? 46).
Fixpoint span (p : Z -> bool) (s : list Z) : list Z * list Z :=
  match s with
  | [] => ([], [])
  | c :: r => if p c then let '(a, b) := span p r in (c :: a, b) else ([], s)
  end.
Definition read_name (s : list Z) : option (list Z * list Z) :=
  match span name_char s with
  | (c :: n, r) => if name_start c then Some (c :: n, r) else None
  | ([], _) => None
  end.

Definition xml_name (n : list Z) : Prop := (exists c r, n = c :: r /\ name_start c = true) /\ forallb name_char n = true.

(** What stands behind a given beginning. *)
Fixpoint after (e s : list Z) : option (list Z) :=
  match e, s with
  | [], _ => Some s
  | a :: e, b :: s => if a =? b then after e s else None
  | _ :: _, [] => None
  end.
(** Entities are replaced; every other character must be one of [ok]. *)
Fixpoint decode (k : nat) (ok : Z -> bool) (s : list Z) : option (list Z) :=
  match k with
  | O => None
  | S k =>
      match s with
      | [] => Some []
      | c :: r =>
          if c =? 38 then
            match after (lit "lt;") r with Some r => option_map (cons 60) (decode k ok r) | None =>
            match after (lit "gt;") r with Some r => option_map (cons 62) (decode k ok r) | None =>
            match after (lit "amp;") r with Some r => option_map (cons 38) (decode k ok r) | None =>
            match after (lit "quot;") r with Some r => option_map (cons 34) (decode k ok r) | None =>
            match after (lit "apos;") r with Some r => option_map (cons 39) (decode k ok r) | None => None
            end end end end end
          else if ok c then option_map (cons c) (decode k ok r) else None
      end
  end.
(** Characters of texts between tags: no control characters except tab and newline (a carriage return would be read as a
    newline).  In attributes tabs and newlines would be read as blanks. *)
Definition text_char (c : Z) : bool := (c =? 9) || (c =? 10) || ((32 <=? c) && (c <=? 255) && negb (c =? 60)).
Definition attr_char (c : Z) : bool := (32 <=? c) && (c <=? 255) && negb (c =? 60) && negb (c =? 34).
(** "]]>" must not occur in texts. *)
Fixpoint has_cdata_end (s : list Z) : bool :=
  match s with
  | [] => false
  | c :: r => (match after (lit "]]>") s with Some _ => true | None => false end) || has_cdata_end r
  end.
Definition decode_text (s : list Z) : option (list Z) := if has_cdata_end s then None else decode (S (List.length s)) text_char s.
Definition decode_attr (s : list Z) : option (list Z) := decode (S (List.length s)) attr_char s.

Definition same_name (a b : list Z) : bool := if list_eq_dec Z.eq_dec a b then true else false.
(** Attributes up to the end of the tag, no name twice. *)
Fixpoint read_attributes (k : nat) (s : list Z) : option (list (list Z * list Z) * list Z) :=
  match k with
  | O => None
  | S k =>
      match after [32] s with
      | None => Some ([], s)
      | Some s =>
          match read_name s with
          | None => None
          | Some (n, s) =>
              match after [61; 34] s with
              | None => None
              | Some s =>
                  let '(raw, s) := span (fun c => negb (c =? 34)) s in
                  match decode_attr raw, after [34] s with
                  | Some v, Some s =>
                      match read_attributes k s with
                      | Some (l, s) => if existsb (fun a => same_name (fst a) n) l then None else Some ((n, v) :: l, s)
                      | None => None
                      end
                  | _, _ => None
                  end
              end
          end
      end
  end.
(** An element from its '<' on, and the contents of an element up to the "</" of its end tag. *)
Fixpoint read_element (k : nat) (s : list Z) : option (xml * list Z) :=
  match k with
  | O => None
  | S k =>
      match after [60] s with
      | None => None
      | Some s =>
          match read_name s with
          | None => None
          | Some (n, s) =>
              match read_attributes (S (List.length s)) s with
              | None => None
              | Some (a, s) =>
                  match after [47; 62] s with
                  | Some s => Some (Elem n a [], s)
                  | None =>
                      match after [62] s with
                      | None => None
                      | Some s =>
                          match read_body k s with
                          | None => None
                          | Some (b, s) =>
                              match after ([60; 47] ++ n ++ [62]) s with Some s => Some (Elem n a b, s) | None => None end
                          end
                      end
                  end
              end
          end
      end
  end
with read_body (k : nat) (s : list Z) : option (list piece * list Z) :=
  match k with
  | O => None
  | S k =>
      match after [60; 47] s with
      | Some _ => Some ([], s)
      | None =>
          match after [60] s with
          | Some _ =>
              match read_element k s with
              | Some (x, s) => match read_body k s with Some (b, s) => Some (Child x :: b, s) | None => None end
              | None => None
              end
          | None =>
              let '(raw, s) := span (fun c => negb (c =? 60)) s in
              match raw with
              | [] => None
              | _ => match decode_text raw, read_body k s with Some t, Some (b, s) => Some (Chars t :: b, s) | _, _ => None end
              end
          end
      end
  end.
Definition blank (c : Z) : bool := (c =? 32) || (c =? 9) || (c =? 10) || (c =? 13).
(** A document: one element, then white space. *)
Definition read_xml (s : list Z) : option xml :=
  match read_element (S (List.length s)) s with
  | Some (x, r) => if forallb blank r then Some x else None
  | None => None
  end.

(** What an XML text says about an element: the value of an element without children is its text; beside children white space at
    both ends is layout. *)
Fixpoint trim_left (s : list Z) : list Z := match s with c :: r => if blank c then trim_left r else s | [] => [] end.
Definition trim (s : list Z) : list Z := rev (trim_left (rev (trim_left s))).
Fixpoint content (x : xml) : node :=
  let '(Elem name attrs body) := x in
  let kids := flat_map (fun p => match p with Chars _ => [] | Child y => [content y] end) body in
  let text := flat_map (fun p => match p with Chars t => t | Child _ => [] end) body in
  Node name (match (match kids with [] => text | _ => trim text end) with [] => None | v => Some v end) attrs kids.
(** A document without the reading details: what a text says, if it is XML. *)
Definition says (s : list Z) : option node := option_map content (read_xml s).

(** Elements that can be printed as they are: the names are XML names, none is the reserved et-tecera, no attribute stands twice;
    attributes and values need no entities; the value of an element with children has no white space at its ends; and
    no value is a GUID. *)
Definition printable (t : node) : Prop :=
  xml_name (name_of t) /\ name_of t <> lit "et-tecera" /\ NoDup (map fst (attrs_of t)) /\
  (forall a, In a (attrs_of t) -> xml_name (fst a) /\ forall c, In c (snd a) -> attr_char c = true /\ c <> 38) /\
  forall v, value_of t = Some v -> (forall c, In c v -> text_char c = true /\ c <> 38) /\ has_cdata_end v = false /\ XBT_Detect v <> XBT_GUID /\
    (kids_of t <> [] -> trim v = v).
