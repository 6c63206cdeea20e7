(** Model of the command line tools 2xb, 2xbw and xb2xml, src/tests/2xb.cpp, 2xbw.cpp, xb2xml.cpp. *)
From Verif Require Import Base.

(** main of 2xb and of 2xbw, src/tests/2xb.cpp:12-29, src/tests/2xbw.cpp:12-29, which differ in the conversion only.  [argv]: the arguments behind the
    program's name; [convert]: whether the conversion of a file succeeds (Creator.v, XbWrite.v, BwMake.v); [test]: what XBT_Test returns (SelfTest.v).
    Result: exit code and the files that were converted, in order. *)
Definition beq (a b : list Z) : bool := if list_eq_dec Z.eq_dec a b then true else false.
Fixpoint convert_args (convert : list Z -> bool) (test : bool) (first : list Z) (argv : list (list Z)) (done : list (list Z)) : Z * list (list Z) :=
  match argv with
  | [] => (0, done)
  | a :: argv =>
      if beq a (lit "--test") then ((if test then 0 else 1), done)
      else if convert first then convert_args convert test first argv (done ++ [first]) else (1, done)
  end.
Definition main_2xb convert test (argv : list (list Z)) : Z * list (list Z) := convert_args convert test (match argv with [] => [] | a :: _ => a end) argv [].

(** The size of the mapping xb2xml asks for, src/tests/xb2xml.cpp:24-26: an off_t that is converted to int in the end; [None] if ASSERT_NO_RET_1 returns. *)
Definition xb2xml_pool_size (size : Z) : option Z :=
  let file_size := s32 size in
  if file_size <=? 0 then None else Some (s32 (Z.shiftl (Z.shiftr (Z.shiftr (file_size * 3) 1 + 16384) 12) 12)).
