(** random() delivers numbers of 31 bits; a clock in nanoseconds, started less than 146 years ago. *)
From Verif Require Import Base OutBuf.
Definition drawn (r : Z) : Prop := 0 <= r < 2147483648.
Definition clocked (c : Z) : Prop := 0 <= c < 4611686018427387904.
(** All numbers of a series of draws; the clock is asked while the counter is 0. *)
Fixpoint series (gen : Z -> Z -> Z -> Z -> outcome (Z * Z)) (base : Z) (draws : list (Z * Z * Z)) : outcome (list Z) :=
  match draws with
  | [] => Ok []
  | (c, r1, r2) :: rest => obind (gen base c r1 r2) (fun '(v, b) => obind (series gen b rest) (fun l => Ok (v :: l)))
  end.
(** The buffer after a series of requests. *)
Fixpoint requests (have : Z) (wants : list Z) : outcome Z :=
  match wants with [] => Ok have | w :: r => obind (XBT_Buffer have w) (fun h => requests h r) end.
