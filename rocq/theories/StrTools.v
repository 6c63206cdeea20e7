(** Model of two small helpers for texts, src/utils.cpp:1090-1100 and 1169-1183. *)
From Verif Require Import Base.

(** [strncpy(d,s,n)] of the C library: the bytes before the NUL of [s], filled up with NULs. *)
Fixpoint strncpy (n : nat) (s : list Z) : list Z :=
  match n with
  | O => []
  | S k => match s with
           | c :: r => if c =? 0 then 0 :: strncpy k [] else c :: strncpy k r
           | [] => 0 :: strncpy k []
           end
  end.
(** [strlen] *)
Fixpoint strlen (s : list Z) : Z :=
  match s with
  | c :: r => if c =? 0 then 0 else 1 + strlen r
  | [] => 0
  end.

(** src/utils.cpp:1090-1100: [StrWrite].  [dest]: the bytes from [dest] to [dest_limit]; [src]:
    the bytes from [src] on; [limit]: how many of them lie before [src_limit], [None] when
    that is null.  Both differences are stored in an [int].  Result: false, or true with the new
    bytes of the buffer, how far [dest] has moved, and what [src] points to now, [None] for null. *)
Definition StrWrite (dest src : list Z) (limit : option Z) : outcome (bool * list Z * Z * option (list Z)) :=
  let dst_space := s32 (zlen dest) in
  let src_size := s32 (match limit with Some n => n | None => strlen src end) in
  if dst_space <? src_size then Ok (false, dest, 0, Some src)
  else if src_size <? 0 then Ub
  else Ok (true, strncpy (Z.to_nat src_size) src ++ zskip src_size dest, src_size,
           match limit with Some n => Some (zskip n src) | None => None end).

(** [strcmp(a,b) == 0] *)
Fixpoint same_text (a b : list Z) : bool :=
  match a, b with
  | [], [] => true
  | x :: a', y :: b' => (x =? y) && same_text a' b'
  | _, _ => false
  end.

(** src/utils.cpp:1169-1183: [streq]; [None] is the null pointer. *)
Definition streq (src0 src1 : option (list Z)) : bool :=
  match src0 with
  | None => match src1 with
            | None => true
            | Some b => match b with [] => true | _ => false end
            end
  | Some a => match src1 with
              | None => match a with [] => true | _ => false end
              | Some b => same_text a b
              end
  end.

(** Not in the library: a program that writes pieces one after another.  Result: what it has
    written, [Fail] as soon as a piece is refused. *)
Fixpoint write_all (dest : list Z) (pieces : list (list Z)) : outcome (list Z) :=
  match pieces with
  | [] => Ok []
  | s :: ss => match StrWrite dest s (Some (zlen s)) with
               | Ok (true, d, n, _) => match write_all (zskip n d) ss with Ok r => Ok (ztake n d ++ r) | Fail => Fail | Ub => Ub end
               | Ok (false, _, _, _) => Fail
               | Fail => Fail
               | Ub => Ub
               end
  end.
