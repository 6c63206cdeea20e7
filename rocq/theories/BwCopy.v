(** Model of copying a part of an opened document into an XBW pool, src/bin_write_plugin.cpp:623-669, 2604-2633, 2745-2769.

    The document is the memory [d] an XB_reader was initialised with; the pool is the memory [m].  They do not overlap. *)
From Verif Require Import Base Types Sort Xb XbWrite Bw BwTag.

(** The bytes a reference to [n] bytes at [p] stands for, as memcpy reads them; a negative size is a huge one. *)
Definition ref_bytes d (p : option Z) n : outcome (list Z) := match p with None => Ub | Some p => if n <? 0 then Ub else rd d p n end.
(** The text of a reference converted with XBT_FromString into a buffer of alloca, which is aligned; [None]: the conversion failed.  Between the begin
    of the buffer and an aligned value there is nothing. *)
Definition from_text fl d (r : data_ref) ty : outcome (option (list Z)) :=
  match dr_data r with
  | None => Ub
  | Some p => obind (rd_str d p) (fun s => match XBT_FromString fl s ty 0 (dr_size r + 64) with Ok st => Ok (Some (st_bytes st)) | Fail => Ok None | Ub => Ub end)
  end.
(** An element from allocate8 with init and [n] bytes of [src] behind it, as in lines 643-648, 656-661 and 2624-2628.  The sum is of type size_t and cut
    to int; it is not checked for overflow. *)
Definition put_el m id ty flags n (src : outcome (list Z)) : outcome (option Z * list Z) :=
  obind (allocate8 m (s32 (24 + n))) (fun '(x, m) => match x with
  | None => Ok (None, m)
  | Some x => obind (init m x id ty flags) (fun m => obind src (fun bs => obind (wr m (x + 24) bs) (fun m => Ok (Some x, m))))
  end).
(** BW_element::attrData, 623-662.  No room is made in the file. *)
Definition attrData fl d m x id (r : data_ref) : outcome (option Z * list Z) :=
  obind (el_offset m x) (fun o => if negb (o =? x) then Ub else
  obind (getAttrType m id) (fun ty =>
  let attr n src := obind (put_el m id ty ATTR n src) (fun '(a, m) => match a with
    | None => Ok (None, m)
    | Some a => obind (add m x a) (fun '(_, tr) => Ok (Some x, final m tr))
    end) in
  if (dr_type r =? XBT_STRING) && negb (ty =? XBT_STRING) then
    obind (from_text fl d r ty) (fun bs => match bs with None => Ok (None, m) | Some bs => attr (zlen bs) (Ok bs) end)
  else if negb (ty =? dr_type r) then Ok (None, m) else attr (dr_size r) (ref_bytes d (dr_data r) (dr_size r)))).
(** BW_element::attrCopy, 664-669: [q] is the attribute of the item [y]. *)
Definition attrCopy fl d m x y q : outcome (option Z * list Z) :=
  obind (param_getData d (Some q) (Some y)) (fun r => obind (pd_name d q) (fun id => attrData fl d m x id r)).
(** BW_plugin::tagData, 2604-2633 *)
Definition tagData fl disk d m id (r : data_ref) : outcome (option Z * list Z) :=
  int_ (BW2_INITIAL_FILE_SIZE + 8 + dr_size r) (fun n => obind (makeSpace disk m n) (fun '(ok, m) => if negb ok then Ok (None, m) else
  if dr_type r =? XBT_NULL then bw_tag disk m id else
  obind (getTagType m id) (fun ty =>
  if negb (ty =? dr_type r) then
    if negb (dr_type r =? XBT_STRING) then Ok (None, m) else
    obind (from_text fl d r ty) (fun bs => match bs with None => Ok (None, m) | Some bs => put_el m id ty ELEMENT (zlen bs) (Ok bs) end)
  else put_el m id ty ELEMENT (dr_size r) (ref_bytes d (dr_data r) (dr_size r))))).
(** The first loop of CopyAll, 2754-2758: [n] attributes from [i] on; [false]: it returns NULL. *)
Fixpoint copy_attrs (n : nat) fl d m x y i : outcome (bool * list Z) :=
  match n with
  | O => Ok (true, m)
  | S n' => obind (getParamByIndex d (Some y) i) (fun q => match q with
      | None => Ub
      | Some q => obind (attrCopy fl d m x y q) (fun '(r, m) => match r with None => Ok (false, m) | Some _ => copy_attrs n' fl d m x y (i + 1) end)
      end)
  end.
(** CopyAll, 2745-2769: the item [y] of the document into the element [x]; a child whose copy failed is NULL and add() of NULL does nothing. *)
Fixpoint CopyAll (fuel : nat) fl disk d m (x : option Z) y : run (option Z * list Z) :=
  match fuel with
  | O => None
  | S k => match x with
    | None => rret (None, m)
    | Some x =>
        rbind (Some (el_child m x)) (fun c => if negb (c =? 0) then rret (None, m) else
        rbind (Some (el_attr m x)) (fun a => if negb (a =? 0) then rret (None, m) else
        rbind (Some (el_id m x)) (fun id => rbind (Some (it_name d y)) (fun nm => if negb (id =? nm) then rret (None, m) else
        rbind (Some (it_paramcount d y)) (fun pc => rbind (Some (copy_attrs (Z.to_nat pc) fl d m x y 0)) (fun '(ok, m) => if negb ok then rret (None, m) else
        rbind (Some (it_childcount d y)) (fun cc =>
        rbind ((fix children (n : nat) (i : Z) m : run (list Z) :=
          match n with
          | O => rret m
          | S n' => rbind (Some (getChildByIndex d (Some y) i)) (fun c => match c with
              | None => Some Ub
              | Some c => rbind (Some (getData d (Some c))) (fun r => rbind (Some (it_name d c)) (fun nm => rbind (Some (tagData fl disk d m nm r)) (fun '(e, m) =>
                  rbind (CopyAll k fl disk d m e c) (fun '(e, m) =>
                  rbind (match e with None => rret m | Some e => Some (obind (add m x e) (fun '(_, tr) => Ok (final m tr))) end) (fun m => children n' (i + 1) m)))))
              end)
          end) (Z.to_nat cc) 0 m) (fun m => rret (Some x, m)))))))))
    end
  end.
