(** A text document converted into a pool: Bin_xml_creator::Make_xbw, src/bin_xml_creator.cpp:592-653, for a source that delivers its values as
    texts (getNodeBinValue returns null, CopySymbolTable false). *)
From Verif Require Import Base Types Sort Symtab Xb XbWrite Bw BwSym BwFile.

(** The first half of XStore2XBWEvent, 1046-1079, after the name was found: size, makeSpace, new_element, the fields, the value.  _exit(1) is
    [Fail].  A null value: of type NULL it is the same as an empty one; all other types hand the null pointer to the C library, [Ub]. *)
Definition make_item fl (disk : bool) m id ty flags (value : option (list Z)) : outcome (Z * list Z) :=
  obind (match value with Some v => Ok v | None => if ty =? XBT_NULL then Ok [] else Ub end) (fun v =>
  obind (XBT_SizeFromString v ty) (fun size => obind (XBT_Size2 ty size) (fun size2 =>
  int_ (24 + size2 + 8) (fun n => obind (makeSpace disk m n) (fun '(ok, m) => if negb ok then Fail else
  obind (new_element disk m ty size) (fun '(x, m) => match x with None => Fail | Some x =>
  obind (wr m (x + 4) (le 2 id)) (fun m => obind (wr m (x + 6) [flags]) (fun m =>
  obind (XBT_FromString fl v ty (x + 24) (x + 24 + size2)) (fun st =>
  obind (wr m (st_pos st) (st_bytes st)) (fun m => Ok (x, m)))))
  end)))))).

(** XBWStoreParamsEvent, 1107-1127, with XStore2XBWEvent, 1015-1025, for every attribute: one whose name is not found is left out. *)
Fixpoint make_attrs fl disk (cr : creator) m x (attrs : list (list Z * list Z)) : outcome (list Z) :=
  match attrs with
  | [] => Ok m
  | (name, value) :: r =>
      obind (find_ name (cr_params cr)) (fun id => if id <? 0 then make_attrs fl disk cr m x r else
      obind (type_at (cr_params cr) id) (fun ty => obind (make_item fl disk m id ty ATTR (Some value)) (fun '(a, m) =>
      obind (add m x a) (fun '(_, tr) => make_attrs fl disk cr (final m tr) x r))))
  end.
(** XBWStoreChildrenEvent, 1129-1147, for every child; [W] is XStore2XBWEvent. *)
Definition make_kids (W : list Z -> node -> outcome (option Z * list Z)) x :=
  fix go m (kids : list node) : outcome (list Z) :=
  match kids with
  | [] => Ok m
  | t :: r => obind (W m t) (fun '(c, m) => match c with
      | None => go m r
      | Some c => obind (add m x c) (fun '(_, tr) => go (final m tr) r)
      end)
  end.
(** XStore2XBWEvent, 997-1105, for an element: the new element; [None]: its name was not found. *)
Fixpoint make_node fl disk (cr : creator) m (t : node) {struct t} : outcome (option Z * list Z) :=
  let '(Node name value attrs kids) := t in
  obind (find_ name (cr_tags cr)) (fun id => if id <? 0 then Ok (None, m) else
  obind (type_at (cr_tags cr) id) (fun ty => obind (make_item fl disk m id ty ELEMENT value) (fun '(x, m) =>
  obind (make_attrs fl disk cr m x attrs) (fun m =>
  obind (make_kids (fun m t => make_node fl disk cr m t) x m kids) (fun m => Ok (Some x, m)))))).

(** The loops over registerTag and registerAttr, 629-634: the results are not looked at. *)
Fixpoint register_ids (fuel : nat) m t i (l : table) : run (list Z) :=
  match l with
  | [] => rret m
  | (name, ty) :: r => rbind (register_id fuel m t i name ty) (fun '(_, m) => register_ids fuel m t (i + 1) r)
  end.
(** The size given to the pool, 625: off_t, handed over as int. *)
Definition max_size source_size : Z := s32 (Z.max 262144 ((source_size / 4096 + 1) * 65536)).
(** Make_xbw, 592-653: the result and the file; [f] is the file before, [source_size] the size of the source file. *)
Definition Make_xbw fl (fuel : nat) (disk : bool) source_size root f : run (bool * list Z) :=
  rbind (MakeSymbolTable root) (fun cr =>
  rbind (Initialize fuel disk true (max_size source_size) f) (fun '(ok, m) => if negb ok then rret (false, m) else
  rbind (register_ids fuel m TAGS 0 (cr_tags cr)) (fun m =>
  rbind (register_ids fuel m PARAMS 0 (cr_params cr)) (fun m =>
  rbind (allRegistered fuel disk false 0 m) (fun '(ok, m) => if negb ok then rret (false, m) else
  rbind (Some (make_node fl disk cr m root)) (fun '(x, m) => match x with
  | None => rret (false, m)
  | Some x => rbind (Some (setRoot m x)) (fun m => rret (true, m))
  end)))))).
