(** Files shared as memory and small text files: src/utils.cpp:17-43 (WriteToFile) and 92-151 (ShareFileRO, ShareFileRW, s_ShareFile, CloseSharedFile).

    A file is its name: there are no links, no renaming, no rights.  Messages are not modelled.  What the system answers is a parameter of the
    functions; [can_open] and [can_map] say what it may answer. *)
From Verif Require Import Base.

(** ** The process: the files, the descriptors (a number is closed or belongs to a file) and the pages of its memory. *)
Record page := Page { p_file : list Z; p_at : Z; p_write : bool }.   (* the page of the file, whether it may be written *)
Record os := Os { files : list Z -> option (list Z); descr : Z -> option (list Z); pages : Z -> option page }.
Definition same_name (a b : list Z) : bool := if list_eq_dec Z.eq_dec a b then true else false.
Definition page_count (n : Z) : Z := (n + 4095) / 4096.
Definition set_file (s : os) (name c : list Z) : os := Os (fun n => if same_name n name then Some c else files s n) (descr s) (pages s).
Definition set_descr (s : os) (d : Z) (v : option (list Z)) : os := Os (files s) (fun e => if e =? d then v else descr s e) (pages s).

(** open(2), which succeeded with [d]; close(2), which gives the number back even if it reports an error. *)
Definition open_ (s : os) (name : list Z) (create : bool) (d : Z) : os :=
  let s := match files s name with None => if create then set_file s name [] else s | Some _ => s end in set_descr s d (Some name).
Definition close_ (s : os) (d : Z) : os := set_descr s d None.
Definition can_open (s : os) (name : list Z) (create : bool) (d : Z) : Prop := 0 <= d /\ descr s d = None /\ (create = false -> files s name <> None).
(** mmap(2) from the beginning of a file, which succeeded with [a]; munmap(2).  The length is an int that becomes a size_t: the system refuses 0 and
    what was negative. *)
Definition mmap (s : os) (name : list Z) (len : Z) (write : bool) (a : Z) : os :=
  Os (files s) (descr s) (fun k => if (a / 4096 <=? k) && (k <? a / 4096 + page_count len) then Some (Page name (k - a / 4096) write) else pages s k).
Definition munmap (s : os) (a len : Z) : os :=
  Os (files s) (descr s) (fun k => if (a / 4096 <=? k) && (k <? a / 4096 + page_count len) then None else pages s k).
Definition can_map (s : os) (len a : Z) : Prop := 0 < a /\ a mod 4096 = 0 /\ 0 < len /\ forall k, a / 4096 <= k < a / 4096 + page_count len -> pages s k = None.

(** s_ShareFile, src/utils.cpp:106-137.  [opened]: what open answers; [mapped]: what mmap answers; [want]: fd is not null.  The address (null: [None]), *fd
    (not written: [None]) and the process. *)
Definition s_ShareFile (s : os) (name : list Z) (create write want : bool) (len : Z) (opened mapped : option Z) : option Z * option Z * os :=
  match opened with
  | None => (None, None, s)
  | Some d =>
      let s := open_ s name create d in
      match mapped with
      | None => (None, None, close_ s d)
      | Some a =>
          let s := mmap s name len write a in
          if want then (Some a, Some d, s) else (Some a, None, close_ s d)
      end
  end.
(** ShareFileRO and ShareFileRW, src/utils.cpp:94-104 *)
Definition ShareFileRO (s : os) (name : list Z) := s_ShareFile s name false false.
Definition ShareFileRW (s : os) (name : list Z) (must_exist : bool) := s_ShareFile s name (negb must_exist) true.
(** CloseSharedFile, src/utils.cpp:139-151; a null address is 0 *)
Definition CloseSharedFile (s : os) (pool len fd : Z) : os :=
  let s := if 0 <? fd then close_ s fd else s in
  if pool =? 0 then s else munmap s pool len.

(** ** What the processor does with an address *)
Inductive loaded := Byte (b : Z) | Tail | Signal.   (* a byte of the file; behind its end on its last page; SIGSEGV or SIGBUS *)
Definition load (s : os) (addr : Z) : loaded :=
  match pages s (addr / 4096) with
  | None => Signal
  | Some g =>
      let c := match files s (p_file g) with Some c => c | None => [] end in
      let i := p_at g * 4096 + addr mod 4096 in
      if i <? zlen c then Byte (znth c i) else if p_at g <? page_count (zlen c) then Tail else Signal
  end.
(** [None]: a signal.  What is written behind the end of the file is not carried to it. *)
Definition store (s : os) (addr v : Z) : option os :=
  match pages s (addr / 4096) with
  | None => None
  | Some g =>
      let c := match files s (p_file g) with Some c => c | None => [] end in
      let i := p_at g * 4096 + addr mod 4096 in
      if negb (p_write g) then None
      else if i <? zlen c then Some (set_file s (p_file g) (ztake i c ++ v :: zskip (i + 1) c))
      else if p_at g <? page_count (zlen c) then Some s else None
  end.

(** WriteToFile, src/utils.cpp:17-43, of a format that gives [text].  [printed]: vfprintf succeeds; [closed]: fclose succeeds; [written]: how much reaches
    the file if one of them fails.  fopen makes the file or cuts it. *)
Definition WriteToFile (s : os) (name text : list Z) (opened : option Z) (printed closed : bool) (written : Z) : bool * os :=
  match opened with
  | None => (false, s)
  | Some d =>
      let s := set_file (open_ s name true d) name [] in
      if negb printed then (false, set_file s name (ztake written text))
      else (closed, close_ (set_file s name (if closed then text else ztake written text)) d)
  end.
