(** The stores that making an element makes, one by one: src/bin_write_plugin.cpp:57-86, 1646-1690, 1706-1780.  The lists hold the file
    after each store; memset and the copy of the value are taken to store byte by byte in the order of the addresses. *)
From Verif Require Import Base Types Sort Xb XbWrite Bw BwFile BwRegSteps.

(** BW_pool::allocate8, 1646-1661: the rounded allocator, the allocator behind the space, the bytes of memset *)
Definition allocate8_steps m size : outcome (option Z * list (list Z)) :=
  if size <=? 0 then Ok (None, []) else
  a <- p_allocator m ;; int_ (a + 7) (fun _ => let a := align_up 8 a in
  m1 <- wr32 m 52 a ;;
  int_ (size + 7) (fun _ => let size := align_up 8 size in
  limit <- p_limit m1 ;;
  int_ (a + size) (fun e => if limit <? e then Ok (None, [m1]) else
  tr <- bytes_store m (store m (Ok [m1]) 52 e) a (zrepeat 0 size) ;; Ok (Some a, tr)))).
Definition take_steps (eight : bool) m n := if eight then allocate8_steps m n else allocate_steps m n.
(** BW_pool::new_element, 1663-1690: the space (the pool is enlarged if there is none), the type, the three links to itself, the size *)
Definition new_element_steps (disk : bool) m type size : outcome (option Z * list (list Z)) :=
  size2 <- XBT_Size2 type size ;; if size2 <? 0 then Ok (None, []) else
  int_ (24 + size2) (fun n => let eight := XBT_Align type =? 8 in
  r <- take_steps eight m n ;; let '(x, tr1) := r in
  r <- match x with
       | Some x => Ok (Some x, tr1)
       | None => r <- makeSpace_steps disk (final m tr1) n ;; let '(ok, tr2) := r in
                 if negb ok then Ok (None, tr1 ++ tr2) else r <- take_steps eight (final m (tr1 ++ tr2)) n ;; let '(x, tr3) := r in Ok (x, (tr1 ++ tr2) ++ tr3)
       end ;; let '(x, tr) := r in
  match x with
  | None => Ok (None, tr)
  | Some x =>
      tr <- bytes_store m (Ok tr) (x + 7) [type] ;; tr <- store m (store m (store m (Ok tr) x x) (x + 8) x) (x + 12) x ;;
      tr <- (if XBT_IS_VARSIZE type then store m (Ok tr) (x + 24) (size2 - 4) else Ok tr) ;; Ok (Some x, tr)
  end).
(** BW_element::init, 57-86: the offset, the id, the type, the flags, four links.  The store of an id is one store of 16 bits. *)
Definition init_steps m x id type flags : outcome (list (list Z)) :=
  b <- rd m 32 4 ;; if (0 <? x) && (x + 24 <=? unle b) then
    m1 <- wr m x (le 4 x) ;; m2 <- wr m1 (x + 4) (le 2 id) ;; m3 <- wr m2 (x + 7) [type] ;; m4 <- wr m3 (x + 6) [flags] ;;
    m5 <- wr m4 (x + 8) (le 4 x) ;; m6 <- wr m5 (x + 12) (le 4 x) ;; m7 <- wr m6 (x + 16) (le 4 0) ;; m8 <- wr m7 (x + 20) (le 4 0) ;;
    Ok [m1; m2; m3; m4; m5; m6; m7; m8]
  else Ub.
(** tag, tagInt32, tagInt64, tagString, tagTime, tagSHA1 after their checks, 1706-1780: the element, then the bytes of its value *)
Definition fresh_steps (disk : bool) m id type size flags bs : outcome (option Z * list (list Z)) :=
  r <- new_element_steps disk m type size ;; let '(x, tr) := r in
  match x with
  | None => Ok (None, tr)
  | Some x => tr1 <- init_steps (final m tr) x id type flags ;; tr2 <- wr_bytes (final (final m tr) tr1) (x + 24) bs ;; Ok (Some x, tr ++ tr1 ++ tr2)
  end.
