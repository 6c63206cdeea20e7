(** Directories and whole files: src/files.cpp:17-41 (force_directory), 95-113 (file_get_contents), 116-175 (scan_dir) and
    src/utils.cpp:45-85 (ReadFile).

    The file system has no symbolic links.  What other processes do between two system calls is a function on file systems. *)
From Verif Require Import Base.

(** ** The file system: a place is the list of names from the root, the last name first. *)
Definition place := list (list Z).
Inductive kind := Dir | File.
Definition fs := place -> option kind.
Definition same_place (a b : place) : bool := if list_eq_dec (list_eq_dec Z.eq_dec) a b then true else false.
Definition create (f : fs) (p : place) : fs := fun q => if same_place q p then Some Dir else f q.

(** The names between the slashes of a path. *)
Fixpoint names_of (path : list Z) (name : list Z) : list (list Z) :=
  match path with
  | [] => [name]
  | c :: r => if c =? 47 then name :: names_of r [] else names_of r (name ++ [c])
  end.
(** One name: it is looked up in a directory. *)
Definition enter (f : fs) (p : place) (name : list Z) : option place :=
  match f p with
  | Some Dir =>
      if list_eq_dec Z.eq_dec name [] then Some p else if list_eq_dec Z.eq_dec name [46] then Some p
      else if list_eq_dec Z.eq_dec name [46; 46] then Some (tl p) else Some (name :: p)
  | _ => None
  end.
Fixpoint follow (f : fs) (p : place) (names : list (list Z)) : option place :=
  match names with
  | [] => Some p
  | n :: r => match enter f p n with Some q => follow f q r | None => None end
  end.
(** The place a path names, seen from the working directory; [None]: a name before the last one is not that of a directory. *)
Definition start (cwd : place) (path : list Z) : place := match path with 47 :: _ => [] | _ => cwd end.
Definition locate (f : fs) (cwd : place) (path : list Z) : option place := follow f (start cwd path) (names_of path []).

(** mkdir(2) of Linux: slashes at the end do not count; [allowed]: there are the rights and the space. *)
Inductive made := Made | Exists | Refused.
Fixpoint trim (names : list (list Z)) : list (list Z) :=
  match names with
  | [] => []
  | n :: r => match trim r with [] => if list_eq_dec Z.eq_dec n [] then [] else [n] | t => n :: t end
  end.
Definition mkdir (f : fs) (cwd : place) (path : list Z) (allowed : bool) : made * fs :=
  match follow f (start cwd path) (trim (names_of path [])) with
  | None => (Refused, f)
  | Some p => match f p with Some _ => (Exists, f) | None => if allowed then (Made, create f p) else (Refused, f) end
  end.

(** force_directory, src/files.cpp:17-41.  [done_] is the part of the name before [rest]; before each mkdir others act, and the mkdir is allowed
    or not: [world]; an exhausted [world] is one in which nothing happens and all is allowed. *)
Definition world := list ((fs -> fs) * bool).
Fixpoint force_loop (w : world) (f : fs) (cwd : place) (done_ rest : list Z) : bool * fs * world :=
  match rest with
  | [] => (true, f, w)
  | c :: r =>
      if (c =? 47) && negb (zlen done_ =? 0) then
        let '(others, allowed, w) := match w with (g, a) :: w => (g, a, w) | [] => (fun f => f, true, []) end in
        match mkdir (others f) cwd done_ allowed with
        | (Refused, f) => (false, f, w)
        | (_, f) => force_loop w f cwd (done_ ++ [c]) r
        end
      else force_loop w f cwd (done_ ++ [c]) r
  end.
Definition force_directory (w : world) (f : fs) (cwd : place) (directory : list Z) : bool * fs :=
  let '(r, f, _) := force_loop w f cwd [] directory in (r, f).

(** ** scan_dir, src/files.cpp:116-175 *)
(** What readdir delivers, call by call; behind the list there is nothing more.  [closes]: closedir succeeds. *)
Inductive entry := Entry (name : list Z) (type : Z) | ReadError.
Definition dots (name : list Z) : bool := match name with [46] | [46; 46] => true | _ => false end.
(** The callback: whether to go on, errno afterwards (readdir set it to 0 before), its state. *)
Section SCAN.
Context {U : Type} (on_file : list Z -> Z -> U -> bool * Z * U).
(** The calls made, errno, the state. *)
Fixpoint scan_loop (l : list entry) (u : U) : list (list Z * Z) * Z * U :=
  match l with
  | [] => ([], 0, u)
  | ReadError :: _ => ([], 5, u)   (* EIO *)
  | Entry name type :: r =>
      if dots name then scan_loop r u else
      let '(go, errno, u) := on_file name type u in
      if go then let '(calls, errno, u) := scan_loop r u in ((name, type) :: calls, errno, u)
      else ([(name, type)], errno, u)
  end.
(** [dir]: [None] if opendir fails.  The result, the calls, whether the directory is still open. *)
Definition scan_dir (dir : option (list entry)) (closes : bool) (u : U) : bool * list (list Z * Z) * bool * U :=
  match dir with
  | None => (false, [], false, u)
  | Some l =>
      let '(calls, errno, u) := scan_loop l u in
      if negb (errno =? 0) then (false, calls, true, u)
      else (closes, calls, false, u)
  end.
End SCAN.

(** ** Whole files *)
(** read(fd, data, n) of a file with the contents [c]: an error, or the first [r] bytes, where [r] is at most [n], the length and
    the most that Linux reads at once. *)
Inductive reading := NoRead | Reads (r : Z).
Definition possible (c : list Z) (n : Z) (x : reading) : Prop := match x with NoRead => True | Reads r => 0 <= r <= n /\ r <= zlen c /\ r <= 2147479552 end.
(** ReadFile, src/utils.cpp:45-85, of a file that can be opened: [size] is what FileGetSizeByFd says (-1: it fails), [c] the contents when it is read.
    The memory (null: [None]) and *size, an int. *)
Definition ReadFile (size : Z) (c : list Z) (x : reading) : option (list Z) * Z :=
  (if size <=? 0 then None
   else match x with
        | NoRead => None
        | Reads r => if r <? size then None else Some (ztake r c ++ [0])
        end, s32 size).
(** file_get_contents, src/files.cpp:95-113: the buffer of [size] bytes and the result. *)
Definition file_get_contents (size : Z) (c : list Z) (x : reading) : list Z * Z :=
  match x with
  | NoRead => (zrepeat 0 size, -1)
  | Reads r => (ztake r c ++ zrepeat 0 (size - r), r)
  end.
