(** Base64 (RFC 4648, section 4) as a specification: the 24-bit group cut into four 6-bit digits. *)
From Verif Require Import Base.

Definition alphabet : list Z := lit "ABCDEFGHIJKLMNOPQRSTUVWXYZabcdefghijklmnopqrstuvwxyz0123456789+/".

(** The [i]-th 6-bit digit (0 = most significant) of a 24-bit group. *)
Definition digit64 (g i : Z) : Z := znth alphabet ((g / 64 ^ (3 - i)) mod 64).
Definition group24 (a b c : Z) : Z := a * 65536 + b * 256 + c.

Fixpoint b64_text (src : list Z) : list Z :=
  match src with
  | [] => []
  | [a] => let g := group24 a 0 0 in [digit64 g 0; digit64 g 1; 61; 61]
  | [a; b] => let g := group24 a b 0 in [digit64 g 0; digit64 g 1; digit64 g 2; 61]
  | a :: b :: c :: r =>
      let g := group24 a b c in
      digit64 g 0 :: digit64 g 1 :: digit64 g 2 :: digit64 g 3 :: b64_text r
  end.
