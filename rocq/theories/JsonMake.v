(** A JSON text converted into a document: Bin_xml_creator::Make_xb, src/bin_xml_creator.cpp:371-443, with Bin_json_plugin as the source.

    getNodeName and getNodeValue of that source hand out the same buffer, last_str; the pass over the names gets both pointers at once. *)
From Verif Require Import Base Types Sort Symtab Xb XbWrite Jsmn.

(** [FindOrAdd(src->getNodeName(element), SYMBOL_TABLE_NODES, src->getNodeValue(element))], bin_xml_creator.cpp:560: C++ leaves open which of
    the two arguments is computed first. *)
Inductive order := NameFirst | ValueFirst.

(** Whether a name that getNodeName returns stands in the buffer: not if it is the constant of bin_json_plugin.cpp:227. *)
Definition in_last (s : source) (i : Z) : outcome bool :=
  obind (token s i) (fun X => obind (token s (par X)) (fun P =>
  if ty P =? JSMN_ARRAY then obind (token s (par P)) (fun K => Ok (ty K =? JSMN_STRING)) else Ok true)).
(** The two texts FindOrAdd finds behind the pointers, when both have been computed. *)
Definition arguments (o : order) (s : source) (i : Z) : outcome (option (list Z) * option (list Z) * source) :=
  match o with
  | NameFirst =>
      obind (getNodeName s i) (fun '(n, s) => obind (getNodeValue s i) (fun '(v, s) =>
      match n, v with
      | Some _, Some w => obind (in_last s i) (fun b => Ok (if b then Some w else n, v, s))
      | _, _ => Ok (n, v, s)
      end))
  | ValueFirst =>
      obind (getNodeValue s i) (fun '(v, s) => obind (getNodeName s i) (fun '(n, s) =>
      match n, v with
      | Some k, Some _ => obind (in_last s i) (fun b => Ok (n, if b then Some k else v, s))
      | _, _ => Ok (n, v, s)
      end))
  end.
(** SecondPassEvent, bin_xml_creator.cpp:556-564, for each of the elements met; there are no attributes (bin_json_plugin.cpp:332-335).  XBT_Detect
    takes a null pointer and an empty text alike (src/bin_xml_types.cpp:51-52). *)
Fixpoint name_pass (o : order) (s : source) (t : table) (l : list Z) : run (source * table) :=
  match l with
  | [] => rret (s, t)
  | i :: l =>
      rbind (Some (arguments o s i)) (fun '(n, v, s) =>
      rbind (FindOrAdd n t (match v with Some w => w | None => [] end)) (fun '(_, t) => name_pass o s t l))
  end.

(** ForAllChildren with XStoreChildrenEvent, bin_xml_creator.cpp:991-995. *)
Fixpoint json_children (W : source -> list Z -> Z -> Z -> run (list Z * Z * Z * source)) (x : Z) (s : source) m wp c (l : list Z) : run (list Z * Z * source) :=
  match l with
  | [] => rret (m, wp, s)
  | i :: r => rbind (W s m wp i) (fun '(m, wp, y, s) => rbind (Some (wr m c (le 4 (y - x)))) (fun m => json_children W x s m wp (c + 4) r))
  end.
(** WriteNode, bin_xml_creator.cpp:815-883, for token [i]; the fuel bounds the depth.  The source comes back with another buffer. *)
Fixpoint JsonWriteNode (fuel : nat) fl cr (s : source) m wp (i : Z) : run (list Z * Z * Z * source) :=
  match fuel with
  | O => None
  | S k =>
      let x := align_up 4 wp in
      rbind (Some (getNodeName s i)) (fun '(n, s) =>
      rbind (Find n (cr_tags cr)) (fun id =>
      rbind (Some (ForAllChildren s i)) (fun is =>
      let cc := s32 (zlen is) in
      rbind (Some (wr m x (le 2 id ++ le 2 0 ++ le 4 cc))) (fun m =>
      let children := x + 12 in
      rbind (Some (getNodeValue s i)) (fun '(v, s) =>
      rbind (Some (store_value fl m (children + 4 * cc) v)) (fun '(m, wp) =>
      rbind (json_children (JsonWriteNode k fl cr) x s m wp children is) (fun '(m, wp, s) =>
      rbind (Some (wr m (x + 8) (le 4 (wp - x)))) (fun m => rret (m, wp, x, s)))))))))
  end.

(** Make_xb, bin_xml_creator.cpp:371-443: [js] is the source file, [fill] the bytes of its buffer, [m] those of the image's.  Running out of
    fuel while the image is written shows as [Ub]. *)
Definition JsonMake_xb (o : order) (fuel : nat) fl js fill m filename modified : run (list Z) :=
  rbind (Jsmn.Initialize fuel js fill) (fun r =>
  match r with
  | None => Some Fail
  | Some s =>
      rbind (ForAllChildrenRecursively fuel s 0 0) (fun l =>
      rbind (name_pass o s [] (map fst l)) (fun '(s, tags) =>
      let cr := mkcreator tags [] in
      let W := fun m wp => match JsonWriteNode fuel fl cr s m wp 0 with Some (Ok (m, wp, x, _)) => Ok (m, wp, x) | Some Fail => Fail | _ => Ub end in
      rbind (Some (FillDataOf W cr m filename modified)) (fun '(m, size) =>
      let size := align_up 4 size in
      if zlen m <? size then Some Ub else rret (ztake size m))))
  end).
(** The size of the buffer of the image, bin_xml_creator.cpp:398. *)
Definition json_buffer (js : list Z) : Z := 1024 + zlen js * 4.
