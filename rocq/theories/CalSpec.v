(** The Gregorian calendar as a specification: what "the next day" is. *)
From Verif Require Import Base NumSpec.

Record date := mkdate { yr : Z; mo : Z; dy : Z }.

Definition leap (y : Z) : bool := ((y mod 4 =? 0) && negb (y mod 100 =? 0)) || (y mod 400 =? 0).

Definition month_days (y m : Z) : Z :=
  if m =? 2 then (if leap y then 29 else 28)
  else if (m =? 4) || (m =? 6) || (m =? 9) || (m =? 11) then 30 else 31.

Definition valid_date (d : date) : Prop := 1 <= mo d <= 12 /\ 1 <= dy d <= month_days (yr d) (mo d).

Definition next_day (d : date) : date :=
  if dy d <? month_days (yr d) (mo d) then mkdate (yr d) (mo d) (dy d + 1)
  else if mo d <? 12 then mkdate (yr d) (mo d + 1) 1
  else mkdate (yr d + 1) 1 1.

Definition epoch : date := mkdate 1970 1 1.

(** [day_number d n]: [d] is [n] days after 1970-01-01 (before it, if [n] is negative). *)
Definition day_number (d : date) (n : Z) : Prop :=
  if 0 <=? n then Nat.iter (Z.to_nat n) next_day epoch = d
  else Nat.iter (Z.to_nat (- n)) next_day d = epoch.

(** "YYYY-MM-DD" *)
Definition date_text (d : date) : list Z := fmt0 4 (yr d) ++ [45] ++ fmt0 2 (mo d) ++ [45] ++ fmt0 2 (dy d).

(** "hh:mm:ss" *)
Definition clock_text (h m s : Z) : list Z := fmt0 2 h ++ [58] ++ fmt0 2 m ++ [58] ++ fmt0 2 s.

Definition last_of_leap_year (d : date) : bool := leap (yr d) && (mo d =? 12) && (dy d =? 31).

(** "YYYY-MM-DD hh:mm:ss" with the given separator. *)
Definition time_text (sep : Z) (d : date) (h m s : Z) : list Z := date_text d ++ [sep] ++ clock_text h m s.
