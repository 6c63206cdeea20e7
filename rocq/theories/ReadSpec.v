(** A client that reads a whole document through the API, and the texts for which it must see the source. *)
From Verif Require Import Base Types CalSpec RingProofs RoundtripProofs SymtabSpec Sort Xb XbWrite DocSpec.

(** A null pointer is read as the empty text. *)
Definition text_of (s : shown) (st : ring) : list Z := match shown_text s st with Some t => t | None => [] end.

(** Attributes [i], [i + 1], ...: name through the symbol table, value through getString. *)
Fixpoint read_attrs (n : nat) fl m (R : reader) x i out st : outcome (list (list Z * list Z) * ring) :=
  match n with
  | O => Ok ([], st)
  | S k =>
      obind (getParamByIndex m (Some x) i) (fun q =>
      match q with
      | None => Fail
      | Some p =>
          obind (pd_name m p) (fun id => obind (getSymbol m (rd_params R) id) (fun name =>
          obind (param_getString fl m q (Some x) out st) (fun '(s, st) =>
          obind (read_attrs k fl m R x (i + 1) out st) (fun '(l, st') => Ok ((name, text_of s st) :: l, st')))))
      end)
  end.

(** The element at [x] with everything below; the fuel bounds the depth. *)
Fixpoint read_node (fuel : nat) fl m (R : reader) x out st : run (node * ring) :=
  match fuel with
  | O => None
  | S k =>
      rbind (Some (obind (it_name m x) (fun id => getSymbol m (rd_tags R) id))) (fun name =>
      rbind (Some (it_paramcount m x)) (fun pc => rbind (Some (it_childcount m x)) (fun cc =>
      rbind (Some (read_attrs (Z.to_nat pc) fl m R x 0 out st)) (fun '(attrs, st) =>
      rbind (Some (getString fl m (Some x) out st)) (fun '(s, st) =>
      let value := match text_of s st with [] => None | t => Some t end in
      rbind ((fix children (n : nat) (i : Z) (st : ring) : run (list node * ring) :=
        match n with
        | O => rret ([], st)
        | S n' =>
            rbind (Some (getChildByIndex m (Some x) i)) (fun c =>
            match c with
            | None => Some Fail
            | Some y => rbind (read_node k fl m R y out st) (fun '(t, st) => rbind (children n' (i + 1) st) (fun '(l, st) => rret (t :: l, st)))
            end)
        end) (Z.to_nat cc) 0 st) (fun '(kids, st) =>
      rret (Node name value attrs kids, st)))))))
  end.

(** What the source says: an empty value is no value. *)
Fixpoint normal (t : node) : node :=
  let '(Node name value attrs kids) := t in
  Node name (match value with Some [] => None | v => v end) attrs (map normal kids).
Fixpoint height (t : node) : nat := let '(Node _ _ _ kids) := t in S (fold_right Nat.max 0%nat (map height kids)).

(** The texts that survive: as a value, those that come back letter by letter ([exact_text], see
    C12) other than integers beyond 32 bits, whose text depends on what was shown before (C17). *)
Definition steady_text (v : list Z) : Prop := exact_text v /\ XBT_Detect v <> XBT_INT64 /\ XBT_Detect v <> XBT_UINT64.
Definition steady_value (t : node) : Prop := forall v, value_of t = Some v -> v = [] \/ steady_text v.
(** As an attribute: [ty] is the type its column gets from all its texts in the document.  Whatever does not fit the
    four bytes of the record is kept as text; the others must be exact and not be changed by the column. *)
Definition steady_attr (root : node) (a : list Z * list Z) : Prop :=
  let ty := XBT_Detect2 (snd a) (column_type (values_of (fst a) (flat_map attrs_of (elements root)))) in
  fst a <> lit "et-tecera" /\
  (snd a = [] \/ XBT_Size2 ty 0 <> Ok 4 \/ ty = XBT_Detect (snd a) /\ steady_text (snd a) /\ ty <> XBT_UNIX_DATE).
Definition steady_document (root : node) : Prop :=
  forall u, In u (elements root) -> steady_value u /\ no_hex_attr u /\ forall a, In a (attrs_of u) -> steady_attr root a.
