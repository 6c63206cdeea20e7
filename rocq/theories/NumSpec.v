(** Specification of numerals, independent of the code: the value of a digit string. *)
From Verif Require Import Base.

(** Value of a string of decimal digits, most significant first. *)
Definition dec_value (ds : list Z) : Z := fold_left (fun v c => v * 10 + (c - 48)) ds 0.

Definition digit (c : Z) : Prop := 48 <= c <= 57.

(** [ds] is the decimal numeral of [n >= 0]: digits only, right value, no leading zero. *)
Definition numeral (n : Z) (ds : list Z) : Prop :=
  ds <> [] /\ Forall digit ds /\ dec_value ds = n /\ (hd 0 ds = 48 -> ds = [48]).

(** [t] is the decimal numeral of the integer [n], with a minus sign if negative. *)
Definition signed_numeral (n : Z) (t : list Z) : Prop :=
  if n <? 0 then exists ds, t = 45 :: ds /\ numeral (- n) ds else numeral n t.

(** Value of one hexadecimal digit character. *)
Definition hex_digit_value (c : Z) : option Z :=
  if (48 <=? c) && (c <=? 57) then Some (c - 48)
  else if (65 <=? c) && (c <=? 70) then Some (c - 55)
  else if (97 <=? c) && (c <=? 102) then Some (c - 87)
  else None.

(** Value of a string of hexadecimal digits; [None] if another character occurs. *)
Fixpoint hex_value (v : Z) (ds : list Z) : option Z :=
  match ds with
  | [] => Some v
  | c :: r => match hex_digit_value c with Some d => hex_value (v * 16 + d) r | None => None end
  end.

(** Decimal numeral of [n >= 0], the canonical printer used for libc's "%d"/"%u"
    (the C library is external; this is what its manual promises). *)
Fixpoint udec_fuel (fuel : nat) (n : Z) (acc : list Z) : list Z :=
  match fuel with
  | O => acc
  | S k => if n <? 10 then (48 + n) :: acc else udec_fuel k (n / 10) ((48 + n mod 10) :: acc)
  end.
Definition udec (n : Z) : list Z := udec_fuel (S (Z.to_nat (Z.log2 n))) n [].

(** "%d" *)
Definition sdec (n : Z) : list Z := if n <? 0 then 45 :: udec (- n) else udec n.

(** "%0wd": the sign counts to the width. *)
Definition zeros (n : Z) : list Z := zrepeat 48 n.
Definition fmt0 (w : Z) (n : Z) : list Z :=
  if n <? 0 then 45 :: zeros (w - 1 - zlen (udec (- n))) ++ udec (- n)
  else zeros (w - zlen (udec n)) ++ udec n.

(** "%wd": padded with spaces. *)
Definition fmtsp (w : Z) (n : Z) : list Z := zrepeat 32 (w - zlen (sdec n)) ++ sdec n.

(** Dotted-quad text of an IPv4 address, as printed with "%d.%d.%d.%d". *)
Definition quad (a b c d : Z) : list Z := udec a ++ [46] ++ udec b ++ [46] ++ udec c ++ [46] ++ udec d.

(** [t] is white space, an optional minus sign, and digits with value [n]. *)
Definition number_text (t : list Z) (n : Z) : Prop :=
  exists sp sign ds, t = sp ++ sign ++ ds /\ Forall (fun c => is_space c = true) sp /\
    ds <> [] /\ Forall digit ds /\
    ((sign = [] /\ n = dec_value ds) \/ (sign = [45] /\ n = - dec_value ds)).
