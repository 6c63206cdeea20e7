(** Common vocabulary: bytes, C strings, C integer ranges, little-endian fields.

    Bytes and C integers are [Z]; a C string is the list of its bytes before the
    terminating NUL, so reading [*p] past the end of the list gives 0.            *)
From Coq Require Export List ZArith Lia Bool Ascii String.
From Coq Require Export ZifyBool ZifyNat ZifyN.
Export ListNotations.
Global Open Scope Z_scope.
Global Open Scope bool_scope.
Global Open Scope list_scope.

Ltac Zify.zify_post_hook ::= Z.div_mod_to_equations.

Arguments Z.add : simpl never.
Arguments Z.sub : simpl never.
Arguments Z.mul : simpl never.
Arguments Z.div : simpl never.
Arguments Z.modulo : simpl never.
Arguments Z.quot : simpl never.
Arguments Z.rem : simpl never.
Arguments Z.land : simpl never.
Arguments Z.lor : simpl never.
Arguments Z.lxor : simpl never.
Arguments Z.shiftl : simpl never.
Arguments Z.shiftr : simpl never.
Arguments Z.pow : simpl never.
Arguments Z.leb : simpl never.
Arguments Z.ltb : simpl never.
Arguments Z.eqb : simpl never.
Arguments Z.of_nat : simpl never.
Arguments Z.to_nat : simpl never.

(** ** Bytes and characters *)

Definition is_byte (b : Z) : Prop := 0 <= b < 256.
Definition bytes (l : list Z) : Prop := Forall is_byte l.

(** A C string: bytes without NUL. *)
Definition is_cchar (b : Z) : Prop := 0 < b < 256.
Definition cstring (l : list Z) : Prop := Forall is_cchar l.

(** Code of a character literal. *)
Definition ch (a : ascii) : Z := Z.of_N (N_of_ascii a).

(** A string literal as a list of character codes. *)
Fixpoint lit (s : string) : list Z :=
  match s with
  | EmptyString => []
  | String a r => ch a :: lit r
  end.

(** [*p] for a pointer [p] into a C string (0 at the end). *)
Definition cur (p : list Z) : Z := hd 0 p.

Definition is_digit (c : Z) : bool := (48 <=? c) && (c <=? 57).
Definition is_space (c : Z) : bool := ((9 <=? c) && (c <=? 13)) || (c =? 32).
Definition is_upper (c : Z) : bool := (65 <=? c) && (c <=? 90).
Definition is_lower (c : Z) : bool := (97 <=? c) && (c <=? 122).
Definition is_alpha (c : Z) : bool := is_upper c || is_lower c.
Definition is_alnum (c : Z) : bool := is_alpha c || is_digit c.
Definition is_xdigit (c : Z) : bool :=
  is_digit c || ((65 <=? c) && (c <=? 70)) || ((97 <=? c) && (c <=? 102)).

(** [while (isspace( *p )) p++;] *)
Fixpoint skip_spaces (p : list Z) : list Z :=
  match p with
  | c :: r => if is_space c then skip_spaces r else p
  | [] => []
  end.

(** ** C integers *)

Definition INT_MAX : Z := 2147483647.
Definition INT_MIN : Z := -2147483648.
Definition INT64_MAX : Z := 9223372036854775807.
Definition INT64_MIN : Z := -9223372036854775808.
Definition UINT32_MAX : Z := 4294967295.
Definition UINT64_MAX : Z := 18446744073709551615.

Definition int32 (x : Z) : Prop := -2147483648 <= x <= 2147483647.
Definition int64 (x : Z) : Prop := -9223372036854775808 <= x <= 9223372036854775807.
Definition uint32 (x : Z) : Prop := 0 <= x <= 4294967295.
Definition uint64 (x : Z) : Prop := 0 <= x <= 18446744073709551615.
Definition int32b (x : Z) : bool := (-2147483648 <=? x) && (x <=? 2147483647).
Definition int64b (x : Z) : bool := (-9223372036854775808 <=? x) && (x <=? 9223372036854775807).

(** Conversion to unsigned / signed types of a given width (two's complement). *)
Definition u8 (x : Z) : Z := x mod 256.
Definition u16 (x : Z) : Z := x mod 65536.
Definition u32 (x : Z) : Z := x mod 4294967296.
Definition u64 (x : Z) : Z := x mod 18446744073709551616.
Definition s8 (x : Z) : Z := (x + 128) mod 256 - 128.
Definition s16 (x : Z) : Z := (x + 32768) mod 65536 - 32768.
Definition s32 (x : Z) : Z := (x + 2147483648) mod 4294967296 - 2147483648.
Definition s64 (x : Z) : Z := (x + 9223372036854775808) mod 18446744073709551616 - 9223372036854775808.

(** ** Little-endian fields *)

(** [n] bytes of the little-endian representation of [x] (two's complement for negatives). *)
Fixpoint le (n : nat) (x : Z) : list Z :=
  match n with
  | O => []
  | S k => x mod 256 :: le k (x / 256)
  end.

(** Value of a little-endian byte sequence. *)
Fixpoint unle (l : list Z) : Z :=
  match l with
  | [] => 0
  | b :: r => b + 256 * unle r
  end.

(** ** Outcomes of C calls *)

(** [Ok v]: normal result; [Fail]: the function reports failure; [Ub]: the C program has
    undefined behaviour (overflow of a signed type, access out of bounds). *)
Inductive outcome (A : Type) : Type :=
| Ok (v : A)
| Fail
| Ub.
Arguments Ok {A} v.
Arguments Fail {A}.
Arguments Ub {A}.

Definition obind {A B} (o : outcome A) (f : A -> outcome B) : outcome B :=
  match o with Ok v => f v | Fail => Fail | Ub => Ub end.

Definition is_ok {A} (o : outcome A) : bool := match o with Ok _ => true | _ => false end.

(** ** Alignment: AA / AA8 round an address up (include/binary_xml/bin_xml_types.h AA, AA8) *)
Definition align_up (a x : Z) : Z := (x + a - 1) / a * a.

(** ** List access by [Z] index *)
Definition zlen {A} (l : list A) : Z := Z.of_nat (List.length l).
Definition znth (l : list Z) (i : Z) : Z := if i <? 0 then 0 else nth (Z.to_nat i) l 0.
Definition zskip {A} (n : Z) (l : list A) : list A := skipn (Z.to_nat n) l.
Definition ztake {A} (n : Z) (l : list A) : list A := firstn (Z.to_nat n) l.
Definition zrepeat {A} (x : A) (n : Z) : list A := repeat x (Z.to_nat n).
