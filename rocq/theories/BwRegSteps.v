(** The stores that registering a name in a pool makes, one by one: src/bin_write_plugin.cpp:1436-1454, 1630-1644, 2100-2184.  The lists
    hold the file after each store; memset, memcpy and strcpy are taken to store byte by byte in the order of the addresses. *)
From Verif Require Import Base Types Sort Xb XbWrite Bw BwSym BwFile BwReg.

(** BW_pool::allocate, 1630-1644: the allocator, then the bytes of memset *)
Definition allocate_steps m size : outcome (option Z * list (list Z)) :=
  if size <=? 0 then Ok (None, []) else
  int_ (size + 3) (fun _ => let size := align_up 4 size in
  a <- p_allocator m ;; limit <- p_limit m ;;
  int_ (a + size) (fun e => if limit <? e then Ok (None, []) else
  tr <- bytes_store m (store m (Ok []) 52 e) a (zrepeat 0 size) ;; Ok (Some a, tr))).
(** BW_symbol_table_16B::Open, 1436-1454: what getNamesSize leaves (it stores max_id or nothing), the space, the bytes of memcpy, the
    index, the names. *)
Definition Open_steps (fuel : nat) m t : run (bool * list (list Z)) :=
  rbind (getNamesSize fuel m t) (fun '(size, m1) => rbind (Some (t_index m1 t)) (fun index => rbind (Some (t_names m1 t)) (fun names =>
  rbind (Some (p_allocator m1)) (fun a => if (index =? 0) && (names + size =? a) then rret (true, [m1]) else
  rbind (Some (allocate_steps m1 size)) (fun '(x, tr) => match x with
  | None => rret (false, m1 :: tr)
  | Some x => rbind (Some (b <- rd (final m1 tr) names size ;; store m1 (store m1 (bytes_store m1 (Ok tr) x b) (t + 8) 0) (t + 4) x)) (fun tr => rret (true, m1 :: tr))
  end))))).
(** 2120-2136, 2164-2183: after opening the table and taking space, max_id, the id (16 bits), the type, the bytes of strcpy *)
Definition register_new_steps (fuel : nat) m t name type : run (Z * list (list Z)) :=
  rbind (Some (t_names m TAGS)) (fun tags => if (t =? PARAMS) && (tags =? 0) then rret (-1, []) else
  rbind (Open_steps fuel m t) (fun '(ok, tr1) => if negb ok then rret (-1, tr1) else
  let m1 := final m tr1 in
  rbind (Some (allocate_steps m1 (4 + zlen name))) (fun '(x, tr2) => let m2 := final m1 tr2 in match x with
  | None => rret (-1, tr1 ++ tr2)
  | Some x => rbind (Some (t_max_id m2 t)) (fun max_id => rbind (Some (int_ (max_id + 1) (fun id =>
      m3 <- wr32 m2 t id ;; m4 <- wr m3 x (le 2 id) ;; m5 <- wr m4 (x + 2) [type] ;; r <- wr_bytes m5 (x + 3) (name ++ [0]) ;;
      Ok (id, tr1 ++ tr2 ++ [m3; m4; m5] ++ r)))) (fun r => rret r))
  end))).
(** registerTag(name), 2100-2137, and registerParam, 2139-2184: first where the names begin, if there are none *)
Definition register_steps (fuel : nat) m t name type : run (Z * list (list Z)) :=
  if (t =? PARAMS) && negb ((XBT_NULL <=? type) && (type <? XBT_LAST)) then rret (-1, []) else
  rbind (Some (names <- t_names m t ;; if names =? 0 then a <- p_allocator m ;; m0 <- wr32 m (t + 4) a ;; Ok [m0] else Ok [])) (fun tr0 =>
  let m0 := final m tr0 in
  rbind (Some (t_flags m0 t)) (fun flags =>
  rbind (if Z.land flags FAST_REG =? 0 then getByName fuel m0 t name else rret None) (fun found =>
  let new := rbind (register_new_steps fuel m0 t name type) (fun '(id, tr) => rret (id, tr0 ++ tr)) in
  match found with
  | Some (id, o, old) => if 0 <=? id then
      rbind (Some (if negb (old =? type) then m1 <- wr m0 (o + 2) [XBT_JoinTypes type old] ;; Ok [m1] else Ok [])) (fun tr => rret (id, tr0 ++ tr))
      else new
  | None => new
  end))).
