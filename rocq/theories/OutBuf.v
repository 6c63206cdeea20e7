(** The buffer for long texts and the numbers that identify things: src/bin_xml_types.cpp:755-790 (sizes), 1229-1247 (XBT_Buffer, XBT_Free) and
    src/utils.cpp:1294-1321 (genI64, genU64). *)
From Verif Require Import Base.

(** XBT_Buffer, src/bin_xml_types.cpp:1231-1239.  [have]: g_output_buffer_size, 0 when there is no buffer; the new size.  [new] does not fail. *)
Definition XBT_Buffer (have want : Z) : outcome Z :=
  if want <=? have then Ok have
  else let n := want / 4096 * 4096 + 8192 in if n <=? INT_MAX then Ok n else Ub.
(** XBT_Free, 1241-1247 *)
Definition XBT_Free (have : Z) : Z := 0.
(** The size a BLOB of [size] bytes asks for (759, 765) and a HEX value (772, 777): computed in uint32_t, stored in an int. *)
Definition blob_room (size : Z) : Z := s32 (size / 3 * 4 + 5).
Definition hex_room (size : Z) : Z := s32 (size * 2 + size / 16 + 2).

(** ** genI64 and genU64, src/utils.cpp:1294-1321.  [base]: base_xor_value; [clock]: what s_init_base_xor_value (1296-1303) would set it to; [r1], [r2]: what random()
    delivers, evaluated from the left.  Incrementing the greatest int64_t is undefined. *)
Definition seeded (base clock : Z) : Z := if base =? 0 then clock else base.
Definition next (base : Z) : outcome Z := if base + 1 <=? INT64_MAX then Ok (base + 1) else Ub.
Definition genI64 (base clock r1 r2 : Z) : outcome (Z * Z) :=
  let b := seeded base clock in
  obind (next b) (fun b' => Ok (Z.lxor (Z.lor (Z.shiftl r1 31) r2) b, b')).
Definition genU64 (base clock r1 r2 : Z) : outcome (Z * Z) :=
  let b := seeded base clock in
  obind (next b) (fun b' => Ok (u64 (Z.lxor (Z.lor (Z.shiftl r1 32) r2) b), b')).
