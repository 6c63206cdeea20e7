(** What the self test of a type is about: a text is stored and printed again.  [printed] lists
    the pieces that are delivered from an offset on, each into an empty buffer of 4096 bytes. *)
From Verif Require Import Base Types.

Inductive printed (fl : floats) (ty : Z) (data : list Z) : Z -> list Z -> Prop :=
| printed_end offset c : XBT_ToStringChunk fl ty data offset (zrepeat 0 4096) = Ok c -> ck_ret c <= 0 -> printed fl ty data offset []
| printed_refused offset : XBT_ToStringChunk fl ty data offset (zrepeat 0 4096) = Fail -> printed fl ty data offset []
| printed_piece offset c t : XBT_ToStringChunk fl ty data offset (zrepeat 0 4096) = Ok c -> 0 < ck_ret c <= zlen (ck_dst c) ->
    printed fl ty data (ck_offset c) t -> printed fl ty data offset (ztake (ck_ret c) (ck_dst c) ++ t).
