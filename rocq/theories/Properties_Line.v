(** C83: scanning the items of a line; C84: comparing and copying texts. *)
From Verif Require Import Base NumSpec LineSpec Scan LineScan LineProofs StrSpec StrTools StrToolsProofs.

(** ** C83 *)

(** A table that was written as lines of items is read back, item by item and line by line. *)
Theorem C83_partial : forall rs t, table rs t -> cstring t -> scan_table (map (map shape) rs) t = Ok rs.
Proof. exact table_read. Qed.
Print Assumptions C83_partial.

Example C83_met :
  table [[Word (lit "size"); Word (lit "="); Int32 (-12); Text (ch ",") 8 (lit "a b"); Unsigned 18446744073709551615];
         [Text (ch " ") 5 (lit "next"); Int64 9000000000]]
        (lit "  size =-12 a b,18446744073709551615 # more" ++ 10 :: lit "next 9000000000" ++ [10]) /\
  cstring (lit "  size =-12 a b,18446744073709551615 # more" ++ 10 :: lit "next 9000000000" ++ [10]).
Proof.
  split; [|repeat constructor].
  eapply table_row with (rest := lit " # more" ++ 10 :: lit "next 9000000000" ++ [10]) (more := lit " # more").
  - apply (row_word (lit "  ") (lit "size")); [repeat constructor|reflexivity|].
    apply (row_word (lit " ") (lit "=")); [repeat constructor|reflexivity|].
    apply (row_int32 [] (-12)); [constructor|unfold int32; lia|unfold INT_MIN; lia|reflexivity|].
    apply (row_text (lit " ") (ch ",") 8 (lit "a b")); try reflexivity; try discriminate; [repeat constructor| repeat (constructor; [discriminate|]); constructor|].
    apply (row_unsigned [] 18446744073709551615); [constructor|unfold uint64; lia|reflexivity|discriminate|apply row_end].
  - reflexivity.
  - repeat (constructor; [discriminate|]). constructor.
  - eapply table_row with (rest := [10]) (more := []).
    + apply (row_name [] 5 (lit "next") 32); try reflexivity; try discriminate; try (constructor; fail); [repeat (constructor; [reflexivity|]); constructor|].
      apply (row_int64 [] 9000000000); [constructor|unfold int64; lia|unfold INT64_MIN; lia|reflexivity|apply row_end].
    + reflexivity.
    + constructor.
    + constructor.
Qed.

(** A word: found exactly if the text goes on with it behind the blanks; otherwise only the
    blanks are skipped. *)
Theorem C83_word : forall p w q, ScanW p w = (q, true) <-> exists sp, blank sp /\ is_space (cur (w ++ q)) = false /\ p = sp ++ w ++ q.
Proof. exact scanw_found. Qed.
Print Assumptions C83_word.
Theorem C83_no_word : forall p w q, ScanW p w = (q, false) <->
  exists sp, blank sp /\ is_space (cur q) = false /\ p = sp ++ q /\ forall r, q <> w ++ r.
Proof. exact scanw_missing. Qed.
Print Assumptions C83_no_word.

(** A number: found exactly if one is written there; a number that is too large, or the least
    number of the type, is undefined behaviour; without a number only the blanks are skipped. *)
Theorem C83_int32 : forall p q n, ScanIntW p = Ok (q, Some n) <-> number_at n p q /\ Z.abs n <= 2147483647.
Proof. exact int_found. Qed.
Print Assumptions C83_int32.
Theorem C83_int32_undefined : forall p, ScanIntW p = Ub <-> exists n q, number_at n p q /\ 2147483647 < Z.abs n.
Proof. exact int_ub. Qed.
Print Assumptions C83_int32_undefined.
Theorem C83_no_int32 : forall p q, ScanIntW p = Ok (q, None) <->
  (exists sp, blank sp /\ is_space (cur q) = false /\ p = sp ++ q) /\ (forall n r, ~ number_at n p r).
Proof. exact int_missing. Qed.
Print Assumptions C83_no_int32.
Theorem C83_int64 : forall p q n, ScanInt64W p = Ok (q, Some n) <-> number_at n p q /\ Z.abs n <= 9223372036854775807.
Proof. exact int64_found. Qed.
Print Assumptions C83_int64.
Theorem C83_int64_undefined : forall p, ScanInt64W p = Ub <-> exists n q, number_at n p q /\ 9223372036854775807 < Z.abs n.
Proof. exact int64_ub. Qed.
Print Assumptions C83_int64_undefined.
Theorem C83_no_int64 : forall p q, ScanInt64W p = Ok (q, None) <->
  (exists sp, blank sp /\ is_space (cur q) = false /\ p = sp ++ q) /\ (forall n r, ~ number_at n p r).
Proof. exact int64_missing. Qed.
Print Assumptions C83_no_int64.

(** Unsigned numbers, decimal and hexadecimal; decimal digits are reduced to 64 bits. *)
Theorem C83_unsigned : forall sp ds q, blank sp -> ds <> [] -> Forall digit ds -> is_digit (cur q) = false -> (ds = [48] -> cur q <> 120) ->
  ScanUInt64W (sp ++ ds ++ q) = (q, Some (dec_value ds mod 18446744073709551616)).
Proof. exact unsigned_found. Qed.
Print Assumptions C83_unsigned.
Theorem C83_hex : forall sp ds q v, blank sp -> ds <> [] -> hex_value 0 ds = Some v -> v <= UINT64_MAX -> hex_digit_value (cur q) = None ->
  ScanUInt64W (sp ++ 48 :: 120 :: ds ++ q) = (q, Some v).
Proof. exact unsigned_hex. Qed.
Print Assumptions C83_hex.

(** A text: whatever there is up to the separator is stored as far as the buffer reaches, and
    the position is behind the separator. *)
Theorem C83_text : forall p sep size, 1 <= size -> cstring p -> exists sp f q, p = sp ++ f ++ q /\ blank sp /\ is_space (cur (f ++ q)) = false /\
  Forall (fun c => ~ ends sep c) f /\ (q = [] \/ ends sep (cur q)) /\
  ScanStrW p sep size = Ok (tl q, ztake (size - 1) f, match ztake (size - 1) f with [] => false | _ => true end).
Proof. exact scanstr_any. Qed.
Print Assumptions C83_text.

(** Lines. *)
Theorem C83_line : forall p q, SkipLineW p = (q, true) <-> exists l, Forall (fun c => c <> 10) l /\ p = l ++ 10 :: q.
Proof. exact skipline_found. Qed.
Print Assumptions C83_line.
Theorem C83_last_line : forall p q, SkipLineW p = (q, false) <-> q = [] /\ Forall (fun c => c <> 10) p.
Proof. exact skipline_end. Qed.
Print Assumptions C83_last_line.

Example C83_items_met : ScanIntW (lit "  -7x") = Ok (lit "x", Some (-7)) /\ ScanIntW (lit " -x") = Ok (lit "-x", None) /\ ScanUInt64W (lit "0xfFg") = (lit "g", Some 255) /\
  ScanStrW (lit " alpha beta") 32 4 = Ok (lit "beta", lit "alp", true) /\ ScanW (lit " ab") (lit "ac") = (lit "ab", false).
Proof. repeat split. Qed.

(** The least number cannot be read back, larger unsigned numbers are taken for others, 0 before
    an x begins a hexadecimal number, a buffer of no bytes is written, and empty columns of
    a table whose separator is a tab are left out. *)
Theorem C83_least_refuted : ScanIntW (sdec (-2147483648)) = Ub.
Proof. exact least_ub. Qed.
Print Assumptions C83_least_refuted.
Theorem C83_wrapped_refuted : ScanUInt64W (udec 18446744073709551617 ++ lit ";") = (lit ";", Some 1).
Proof. exact wrapped. Qed.
Print Assumptions C83_wrapped_refuted.
Theorem C83_hex_refuted : ScanUInt64W (udec 0 ++ lit "xa") = ([], Some 10).
Proof. exact hex_taken. Qed.
Print Assumptions C83_hex_refuted.
Theorem C83_buffer_refuted : forall p sep size, size < 1 -> ScanStrW p sep size = Ub.
Proof. exact scanstr_w_ub. Qed.
Print Assumptions C83_buffer_refuted.
Theorem C83_column_refuted : ScanStrW (lit "a" ++ [9] ++ [9] ++ lit "c") 9 10 = Ok ([9] ++ lit "c", lit "a", true) /\
  ScanStrW ([9] ++ lit "c") 9 10 = Ok ([], lit "c", true).
Proof. exact empty_column. Qed.
Print Assumptions C83_column_refuted.

(** ** C84 *)

(** Texts are equal if their characters are, and null is the empty text. *)
Theorem C84_equal : forall a b, streq a b = true <-> text_of a = text_of b.
Proof. exact streq_iff. Qed.
Print Assumptions C84_equal.

(** A text is copied if it fits, and both positions move behind it; otherwise nothing changes. *)
Theorem C84_fits : forall dest s r, cstring s -> zlen s <= zlen dest <= INT_MAX ->
  StrWrite dest (s ++ r) (Some (zlen s)) = Ok (true, s ++ zskip (zlen s) dest, zlen s, Some r).
Proof. exact strwrite_fits. Qed.
Print Assumptions C84_fits.
Theorem C84_full : forall dest src n, zlen dest < n <= INT_MAX -> StrWrite dest src (Some n) = Ok (false, dest, 0, Some src).
Proof. exact strwrite_full. Qed.
Print Assumptions C84_full.

(** Pieces written one after another give their concatenation, if that fits. *)
Theorem C84_partial : forall pieces dest, Forall cstring pieces -> zlen dest <= INT_MAX -> Forall (fun s => zlen s <= INT_MAX) pieces ->
  write_all dest pieces = if zlen (List.concat pieces) <=? zlen dest then Ok (List.concat pieces) else Fail.
Proof. exact write_all_ok. Qed.
Print Assumptions C84_partial.

Example C84_met : streq None (Some []) = true /\ streq (Some (lit "a")) (Some (lit "b")) = false /\
  StrWrite (lit "....") (lit "abc") (Some 2) = Ok (true, lit "ab..", 2, Some (lit "c")) /\
  StrWrite (lit ".") (lit "abc") (Some 2) = Ok (false, lit ".", 0, Some (lit "abc")) /\
  write_all (lit ".....") [lit "ab"; []; lit "cde"] = Ok (lit "abcde") /\ write_all (lit "....") [lit "ab"; lit "cde"] = Fail.
Proof. repeat split. Qed.

(** Without a limit of the source its position is lost, and a NUL in the source ends the copy. *)
Theorem C84_null_refuted : forall dest s r, cstring s -> zlen s <= zlen dest <= INT_MAX ->
  StrWrite dest (s ++ 0 :: r) None = Ok (true, s ++ zskip (zlen s) dest, zlen s, None).
Proof. exact strwrite_null. Qed.
Print Assumptions C84_null_refuted.
Theorem C84_nul_refuted : StrWrite (lit "........") (lit "a" ++ [0] ++ lit "b") (Some 3) = Ok (true, lit "a" ++ [0; 0] ++ lit ".....", 3, Some []).
Proof. exact strwrite_nul_inside. Qed.
Print Assumptions C84_nul_refuted.
