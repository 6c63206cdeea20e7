(** Model of opening, creating and enlarging the file of an XBW pool, src/bin_write_plugin.cpp.

    A file is the list of its bytes.  The mapping is shared: what is stored through it is in the file (the kernel writes it
    when the process dies; a crash of the whole machine is not modelled).  Every changing step gives the file after it; the
    stores of memset and strncpy are single bytes.  open, fstat and mmap are taken to succeed. *)
From Coq Require Import String Ascii.
From Verif Require Import Base Types Sort Symtab Xb XbWrite Bw BwSym.

Definition INITIAL := 16384.
(** "binary_xml.pksoft.org", 21 bytes *)
Definition TYPE_INFO : list Z := map (fun c => Z.of_nat (nat_of_ascii c)) (list_ascii_of_string "binary_xml.pksoft.org").
(** The files after each store of the bytes [bs] at [p]. *)
Fixpoint wr_bytes m p (bs : list Z) : outcome (list (list Z)) :=
  match bs with [] => Ok [] | b :: bs => m1 <- wr m p [b] ;; r <- wr_bytes m1 (p + 1) bs ;; Ok (m1 :: r) end.
(** One store of 32 bits after the stores [tr] *)
Definition store m (tr : outcome (list (list Z))) p v : outcome (list (list Z)) := tr <- tr ;; m1 <- wr32 (final m tr) p v ;; Ok (tr ++ [m1]).
Definition bytes_store m (tr : outcome (list (list Z))) p bs : outcome (list (list Z)) := tr <- tr ;; r <- wr_bytes (final m tr) p bs ;; Ok (tr ++ r).
(** InitEmptyFile, 1926-1954: the file after ftruncate and after each store. *)
Definition InitEmptyFile (disk : bool) max_pool_size f : outcome (bool * list (list Z)) :=
  if negb disk then Ok (false, []) else
  let tr := Ok [resize f INITIAL] in
  let tr := bytes_store f tr 0 (zrepeat 0 HEADER) in
  let tr := bytes_store f tr 4 (TYPE_INFO ++ [0; 0; 0]) in
  let tr := store f tr 28 0 in
  let tr := store f tr 32 INITIAL in
  let tr := store f tr 36 max_pool_size in
  let tr := store f tr 52 HEADER in
  let tr := store f tr 56 INITIAL in
  let tr := store f tr 60 (-1) in
  let tr := store f tr 76 (-1) in
  let tr := store f tr 0 HEADER in
  tr <- tr ;; Ok (true, tr).
(** makeSpace, 1988-2003, step by step *)
Definition makeSpace_steps (disk : bool) m size : outcome (bool * list (list Z)) :=
  a <- p_allocator m ;; int_ (a + 4095) (fun s => int_ (s + size) (fun s =>
  let new_size := s / 4096 * 4096 in
  mmap <- p_mmap_size m ;; if mmap <? new_size then Ok (false, []) else
  fs <- p_file_size m ;; if new_size <=? fs then Ok (true, []) else
  if negb disk then Ok (false, []) else
  let tr := Ok [resize m new_size] in let tr := store m tr 32 new_size in let tr := store m tr 56 new_size in tr <- tr ;; Ok (true, tr))).

(** CheckExistingFile, 1956-1978 *)
Definition CheckExistingFile (fuel : nat) max_pool_size m : run (bool * list Z) :=
  rbind (Some (
    s <- rd_str m 4 ;; v <- rd m 28 4 ;; fs <- p_file_size m ;; mm <- p_mmap_size m ;; l <- p_limit m ;; a <- p_allocator m ;;
    Ok ((if list_eq_dec Z.eq_dec s TYPE_INFO then true else false) && (unle v =? 0) && (fs =? zlen m) && (mm =? max_pool_size) && (l =? fs) && (HEADER <=? a) && (a <=? l)))) (fun ok =>
  if negb ok then rret (false, m) else
  rbind (check fuel m TAGS) (fun '(ok, m) => rbind (Some (if ok then Ok m else wr32 m (TAGS + 8) 0)) (fun m =>
  rbind (check fuel m PARAMS) (fun '(ok, m) => rbind (Some (if ok then Ok m else wr32 m (PARAMS + 8) 0)) (fun m => rret (true, m)))))).
(** Initialize, 1834-1901, of a new plugin without flags or with BIN_WRITE_CFG_ALWAYS_CREATE_NEW: the result and the file.  A file
    longer than 2 GB is not modelled. *)
Definition Initialize (fuel : nat) (disk always_new : bool) max_pool_size f : run (bool * list Z) :=
  let create := rbind (Some (InitEmptyFile disk max_pool_size f)) (fun '(ok, tr) => rret (ok, final f tr)) in
  if zlen f <? HEADER then create else
  rbind (Some (p_mmap_size f)) (fun mm => if mm <? zlen f then rret (false, f) else
  (* mapped again with the size in the file, if it was another; the second pass finds it equal *)
  if always_new then rbind (Some (InitEmptyFile disk mm f)) (fun '(ok, tr) => rret (ok, final f tr)) else CheckExistingFile fuel mm f).
