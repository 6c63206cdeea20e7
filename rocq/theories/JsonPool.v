(** A JSON text converted into a pool: Bin_xml_creator::Make_xbw, src/bin_xml_creator.cpp:592-653, with Bin_json_plugin as the source. *)
From Verif Require Import Base Types Sort Symtab Xb XbWrite Bw BwSym BwFile BwMake Jsmn JsonMake.

(** ForAllChildren with XBWStoreChildrenEvent, bin_xml_creator.cpp:1129-1147; [W] is XStore2XBWEvent. *)
Fixpoint json_kids (W : source -> list Z -> Z -> run (option Z * list Z * source)) x (s : source) m (l : list Z) : run (list Z * source) :=
  match l with
  | [] => rret (m, s)
  | i :: r => rbind (W s m i) (fun '(c, m, s) => match c with
      | None => json_kids W x s m r
      | Some c => rbind (Some (add m x c)) (fun '(_, tr) => json_kids W x s (final m tr) r)
      end)
  end.
(** XStore2XBWEvent, bin_xml_creator.cpp:997-1105, for token [i]; there are no attributes (bin_json_plugin.cpp:332-335) and no binary values.  The fuel
    bounds the depth.  [None]: the element has no name (1035, a check that returns) or its name was not found. *)
Fixpoint json_item (fuel : nat) fl disk (cr : creator) (s : source) m (i : Z) : run (option Z * list Z * source) :=
  match fuel with
  | O => None
  | S k =>
      rbind (Some (getNodeName s i)) (fun '(n, s) => match n with
      | None => rret (None, m, s)
      | Some n =>
          rbind (Some (find_ n (cr_tags cr))) (fun id => if id <? 0 then rret (None, m, s) else
          rbind (Some (getNodeValue s i)) (fun '(v, s) =>
          rbind (Some (type_at (cr_tags cr) id)) (fun ty =>
          rbind (Some (make_item fl disk m id ty ELEMENT v)) (fun '(x, m) =>
          rbind (Some (ForAllChildren s i)) (fun is =>
          rbind (json_kids (json_item k fl disk cr) x s m is) (fun '(m, s) => rret (Some x, m, s)))))))
      end)
  end.
(** Make_xbw, bin_xml_creator.cpp:592-653: the result and the file; [js] is the source file, [fill] the bytes of its buffer, [f] the file before. *)
Definition JsonMake_xbw (o : order) fl (fuel : nat) (disk : bool) js fill f : run (bool * list Z) :=
  rbind (Jsmn.Initialize fuel js fill) (fun r =>
  match r with
  | None => rret (false, f)
  | Some s =>
      rbind (ForAllChildrenRecursively fuel s 0 0) (fun l =>
      rbind (name_pass o s [] (map fst l)) (fun '(s, tags) =>
      let cr := mkcreator tags [] in
      rbind (BwFile.Initialize fuel disk true (max_size (zlen js)) f) (fun '(ok, m) => if negb ok then rret (false, m) else
      rbind (register_ids fuel m TAGS 0 tags) (fun m =>
      rbind (allRegistered fuel disk false 0 m) (fun '(ok, m) => if negb ok then rret (false, m) else
      rbind (json_item fuel fl disk cr s m 0) (fun '(x, m, _) => match x with
      | None => rret (false, m)
      | Some x => rbind (Some (setRoot m x)) (fun m => rret (true, m))
      end))))))
  end).
