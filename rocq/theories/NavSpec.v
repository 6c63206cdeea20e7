(** Going down a document by child indices. *)
From Verif Require Import Base Types RoundtripProofs SymtabSpec Xb XbSpec XbWrite DocSpec.

(** In the source tree. *)
Fixpoint sub (t : node) (path : list nat) : option node :=
  match path with [] => Some t | i :: r => match nth_error (kids_of t) i with Some k => sub k r | None => None end end.
(** In the file. *)
Fixpoint walk (m : list Z) (x : Z) (path : list nat) : outcome (option Z) :=
  match path with
  | [] => Ok (Some x)
  | i :: r => obind (getChildByIndex m (Some x) (Z.of_nat i)) (fun c => match c with Some y => walk m y r | None => Ok None end)
  end.

(** No attribute text of the document consists of hexadecimal digits only. *)
Definition no_hex (root : node) : Prop := forall u, In u (elements root) -> no_hex_attr u.

(** What the reader finds at the attribute record [q] of the element at [x]. *)
Definition attr_read (fl : floats) (img : list Z) (root : node) (x q : Z) (a : list Z * list Z) : Prop :=
  (* an empty text is stored as no value *)
  (snd a = [] /\ pd_type img q = Ok XBT_NULL /\ (forall out st, param_getString fl img (Some q) (Some x) out st = Ok (NoText, st)))
  (* a text is stored as it is *)
  \/ (snd a <> [] /\ pd_type img q = Ok XBT_STRING /\ (forall out st, param_getString fl img (Some q) (Some x) out st = Ok (Text (snd a), st)) /\
      exists p, param_getData img (Some q) (Some x) = Ok (mkref XBT_STRING (Some p) (zlen (snd a) + 1)) /\ has img p (snd a ++ [0]))
  (* four bytes: those the conversion of the text gives *)
  \/ (exists ty bs, snd a <> [] /\ ty = XBT_Detect2 (snd a) (column_type (values_of (fst a) (flat_map attrs_of (elements root)))) /\ pd_type img q = Ok ty /\
      (exists limit, stores fl (snd a) ty (q + 4) limit bs) /\ zlen bs = 4 /\ has img (q + 4) bs /\
      (ty = XBT_UNIX_DATE \/
       param_getData img (Some q) (Some x) = Ok (mkref ty (Some (q + 4)) 4) /\ exists rest, forall out st, param_getString fl img (Some q) (Some x) out st = XBT_ToString fl ty (bs ++ rest) out st)).

