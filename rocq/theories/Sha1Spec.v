(** SHA-1 as FIPS 180-4 defines it (sections 2.2.2, 4.1.1, 4.2.1, 5.1.1, 5.3.1, 6.1.2), for
    messages of whole bytes. *)
From Verif Require Import Base.

Definition word (x : Z) : Z := x mod 2 ^ 32.
Definition ROTL (n x : Z) : Z := Z.lor (word (Z.shiftl x n)) (Z.shiftr x (32 - n)).
Definition Ch (x y z : Z) : Z := Z.lxor (Z.land x y) (Z.land (Z.lnot x) z).
Definition Parity (x y z : Z) : Z := Z.lxor (Z.lxor x y) z.
Definition Maj (x y z : Z) : Z := Z.lxor (Z.lxor (Z.land x y) (Z.land x z)) (Z.land y z).

Definition f_t (t : Z) : Z -> Z -> Z -> Z :=
  if t <? 20 then Ch else if t <? 40 then Parity else if t <? 60 then Maj else Parity.
Definition K_t (t : Z) : Z :=
  if t <? 20 then 1518500249 (* 5a827999 *) else if t <? 40 then 1859775393 (* 6ed9eba1 *)
  else if t <? 60 then 2400959708 (* 8f1bbcdc *) else 3395469782 (* ca62c1d6 *).

(** Big-endian words of a block. *)
Definition be_word (l : list Z) : Z := fold_left (fun acc b => acc * 256 + b) l 0.
Fixpoint be_words (n : nat) (l : list Z) : list Z :=
  match n with O => [] | S k => be_word (ztake 4 l) :: be_words k (zskip 4 l) end.

(** The message schedule: 16 words of the block, then each word from four earlier ones. *)
Fixpoint schedule (n : nat) (ws : list Z) : list Z :=
  match n with
  | O => ws
  | S k =>
      let t := zlen ws in
      let w i := znth ws i in
      schedule k (ws ++ [ROTL 1 (Z.lxor (Z.lxor (Z.lxor (w (t - 3)) (w (t - 8))) (w (t - 14))) (w (t - 16)))])
  end.
Definition W_of (block : list Z) : list Z := schedule 64 (be_words 16 block).

Record state := mkst { sa : Z; sb : Z; sc : Z; sd : Z; se : Z }.
Definition step (W : list Z) (t : Z) (s : state) : state :=
  mkst (word (ROTL 5 (sa s) + f_t t (sb s) (sc s) (sd s) + se s + K_t t + znth W t)) (sa s) (ROTL 30 (sb s)) (sc s) (sd s).
Fixpoint steps (n : nat) (W : list Z) (t : Z) (s : state) : state :=
  match n with O => s | S k => steps k W (t + 1) (step W t s) end.

Definition compress (h : state) (block : list Z) : state :=
  let s := steps 80 (W_of block) 0 h in
  mkst (word (sa s + sa h)) (word (sb s + sb h)) (word (sc s + sc h)) (word (sd s + sd h)) (word (se s + se h)).

(** The first [n] blocks of 64 bytes of a message. *)
Fixpoint hash_blocks (n : nat) (h : state) (l : list Z) : state :=
  match n with O => h | S k => hash_blocks k (compress h (ztake 64 l)) (zskip 64 l) end.

Definition H0 : state := mkst 1732584193 4023233417 2562383102 271733878 3285377520.
(* 67452301 efcdab89 98badcfe 10325476 c3d2e1f0 *)

(** [n] big-endian bytes of a number. *)
Fixpoint be (n : nat) (x : Z) : list Z :=
  match n with O => [] | S k => be k (x / 256) ++ [x mod 256] end.

(** Padding: a one bit, the fewest zero bits that leave room for the 64-bit length in bits. *)
Definition padded (m : list Z) : list Z := m ++ [128] ++ zrepeat 0 ((55 - zlen m) mod 64) ++ be 8 (8 * zlen m).
Definition digest (h : state) : list Z := be 4 (sa h) ++ be 4 (sb h) ++ be 4 (sc h) ++ be 4 (sd h) ++ be 4 (se h).
Definition sha1 (m : list Z) : list Z :=
  digest (hash_blocks (Z.to_nat (zlen (padded m) / 64)) H0 (padded m)).
