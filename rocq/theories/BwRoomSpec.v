(** The room that adding an attribute needs. *)
From Verif Require Import Base BwAttrSpec.
(** The bytes of the value as it is stored: a text with its NUL, a BLOB with its size, a SHA-1 sum with four bytes behind it *)
Definition attr_size (c : attr_call) : Z :=
  match c with
  | CNull => 0 | CStr v | CStr2 v => zlen v + 1 | CBlob v | CHex v => zlen v + 4 | CBlobZero n | CHexZero n => n + 4
  | CInt32 _ | CUInt32 _ | CFloat _ | CTime _ => 4 | CInt64 _ | CUInt64 _ | CDouble _ | CTime64 _ => 8 | CGuid _ => 16 | CSha1 _ => 24
  end.
