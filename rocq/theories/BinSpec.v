(** What a converted binary source must give back: the values, a client that reads a whole document with its binary
    values, and the room the document needs. *)
From Verif Require Import Base Types Sort Xb XbWrite XbBin.

Definition four_bytes := [XBT_INT32; XBT_INT32_DECI; XBT_INT32_CENTI; XBT_INT32_MILI; XBT_INT32_MICRO; XBT_INT32_NANO; XBT_UINT32; XBT_FLOAT; XBT_UNIX_TIME; XBT_IPv4].
Definition eight_bytes := [XBT_INT64; XBT_UINT64; XBT_DOUBLE; XBT_UNIX_TIME64_MSEC].

(** How many bytes of [src] are the value. *)
Definition value_size (ty : Z) (src : list Z) : Z :=
  if isin ty four_bytes then 4 else if isin ty eight_bytes then 8
  else if isin ty [XBT_GUID; XBT_IPv6] then 16 else if ty =? XBT_SHA1 then 20
  else if isin ty [XBT_BLOB; XBT_HEX] then 4 + unle (ztake 4 src)
  else if ty =? XBT_STRING then zlen (cstr src) + 1
  else 0.
(** The value is there (the converter copies 24 bytes of a SHA-1 value). *)
Definition value_there (ty : Z) (src : list Z) : Prop :=
  bytes src /\
  (In ty four_bytes /\ 4 <= zlen src \/ In ty eight_bytes /\ 8 <= zlen src \/ In ty [XBT_GUID; XBT_IPv6] /\ 16 <= zlen src \/
   ty = XBT_SHA1 /\ 24 <= zlen src \/ In ty [XBT_BLOB; XBT_HEX] /\ 4 <= zlen src /\ 4 + unle (ztake 4 src) <= zlen src <= INT_MAX \/ ty = XBT_NULL).
Definition string_there (ty : Z) (src : list Z) : Prop := bytes src /\ ty = XBT_STRING /\ zlen (cstr src) < zlen src.

(** The document a source tree stands for. *)
Definition value_bytes ty src := ztake (value_size ty src) src.
Definition attr_doc (a : list Z * Z * list Z) := let '(n, ty, src) := a in (n, ty, value_bytes ty src).
Fixpoint doc_of (t : bnode) : bnode :=
  let '(BNode name ty src attrs kids) := t in BNode name ty (value_bytes ty src) (map attr_doc attrs) (map doc_of kids).
Fixpoint bheight (t : bnode) : nat := let '(BNode _ _ _ _ kids) := t in S (fold_right Nat.max 0%nat (map bheight kids)).
Fixpoint belements (t : bnode) : list bnode := t :: match t with BNode _ _ _ _ kids => flat_map belements kids end.

(** The client: types and values through getData. *)
Definition read_data m (r : data_ref) : outcome (Z * list Z) :=
  match dr_data r with None => Fail | Some p => obind (rd m p (dr_size r)) (fun bs => Ok (dr_type r, bs)) end.
Fixpoint read_bin_attrs (n : nat) m (R : reader) x i : outcome (list (list Z * Z * list Z)) :=
  match n with
  | O => Ok []
  | S k =>
      obind (getParamByIndex m (Some x) i) (fun q =>
      match q with
      | None => Fail
      | Some p =>
          obind (pd_name m p) (fun id => obind (getSymbol m (rd_params R) id) (fun name =>
          obind (obind (param_getData m q (Some x)) (read_data m)) (fun '(ty, bs) =>
          obind (read_bin_attrs k m R x (i + 1)) (fun l => Ok ((name, ty, bs) :: l)))))
      end)
  end.
Fixpoint read_bin_node (fuel : nat) m (R : reader) x : run bnode :=
  match fuel with
  | O => None
  | S k =>
      rbind (Some (obind (it_name m x) (fun id => getSymbol m (rd_tags R) id))) (fun name =>
      rbind (Some (it_paramcount m x)) (fun pc => rbind (Some (it_childcount m x)) (fun cc =>
      rbind (Some (read_bin_attrs (Z.to_nat pc) m R x 0)) (fun attrs =>
      rbind (Some (obind (getData m (Some x)) (read_data m))) (fun '(ty, bs) =>
      rbind ((fix children (n : nat) (i : Z) : run (list bnode) :=
        match n with
        | O => rret []
        | S n' =>
            rbind (Some (getChildByIndex m (Some x) i)) (fun c =>
            match c with
            | None => Some Fail
            | Some y => rbind (read_bin_node k m R y) (fun t => rbind (children n' (i + 1)) (fun l => rret (t :: l)))
            end)
        end) (Z.to_nat cc) 0) (fun kids =>
      rret (BNode name ty bs attrs kids)))))))
  end.

(** Which sources: the numbers fit their fields, the values are there; attributes of type STRING are empty, no element value is
    an IPv6 address. *)
Definition bin_attr_ok (a : list Z * Z * list Z) : Prop :=
  let '(n, ty, src) := a in value_there ty src \/ string_there ty src /\ cstr src = [].
Definition bin_element_ok (t : bnode) : Prop :=
  let '(BNode n ty src attrs kids) := t in
  (value_there ty src /\ ty <> XBT_IPv6 \/ string_there ty src) /\
  (forall a, In a attrs -> bin_attr_ok a) /\ zlen attrs <= 32767 /\ zlen kids <= INT_MAX.

(** Room: an attribute takes its record, its value and at most 11 bytes of alignment and surplus; an element its header, the link from its
    parent, the type, its value, and at most 18 bytes more (some of it only room that must be left behind a copied value). *)
Definition total (l : list Z) : Z := fold_right Z.add 0 l.
Definition attr_room (a : list Z * Z * list Z) : Z := let '(_, ty, src) := a in 8 + value_size ty src + 11.
Fixpoint bin_room (t : bnode) : Z :=
  let '(BNode _ ty src attrs kids) := t in 12 + 4 + 1 + value_size ty src + 18 + total (map attr_room attrs) + total (map bin_room kids).

(** The whole source: what its tables must have, and the room the image needs. *)
Definition bname (t : bnode) := let '(BNode n _ _ _ _) := t in n.
Definition battrs (t : bnode) := let '(BNode _ _ _ a _) := t in a.
Definition table_source (l : list (list Z * Z)) : Prop := (forall n ty, In (n, ty) l -> cstring n /\ 0 <= ty < 256) /\ zlen l <= 32768.
Definition known_name (n : list Z) (l : list (list Z * Z)) : Prop := exists ty, In (n, ty) l /\ ty <> XBT_UNKNOWN.
Definition bin_source_ok (tags params : list (list Z * Z)) (root : bnode) : Prop :=
  table_source tags /\ table_source params /\ (forall u, In u (belements root) -> bin_element_ok u) /\
  (forall u, In u (belements root) -> known_name (bname u) tags /\ forall a, In a (battrs u) -> known_name (fst (fst a)) params).
Definition names_room (l : list (list Z * Z)) : Z := total (map (fun s => zlen (fst s) + 6) l).
Definition convert_room (filename : list Z) tags params root : Z := 192 + zlen filename + names_room tags + names_room params + bin_room root.
