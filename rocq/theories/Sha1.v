(** Model of the SHA-1 functions, src/missings.cpp:124-415. *)
From Verif Require Import Base.

(** include/binary_xml/missings.h:20-24; the sixteen words W are only used as 64 bytes. *)
Record blk_SHA_CTX := mkctx { ctx_size : Z; ctx_H : list Z; ctx_W : list Z }.

(** get_be32: ntohl of a little-endian load (x86), src/missings.cpp:121 *)
Definition ntohl (x : Z) : Z :=
  u32 (Z.lor (Z.lor (Z.shiftl (Z.land x 255) 24) (Z.shiftl (Z.land (Z.shiftr x 8) 255) 16))
             (Z.lor (Z.shiftl (Z.land (Z.shiftr x 16) 255) 8) (Z.land (Z.shiftr x 24) 255))).
Definition get_be32 (p : list Z) : Z := ntohl (unle (ztake 4 p)).
Definition htonl (x : Z) : Z := ntohl x.

(** src/missings.cpp:187-189 *)
Definition SHA_ROL (x n : Z) : Z := Z.lor (u32 (Z.shiftl x n)) (Z.shiftr x (32 - n)).
Definition SHA_ROR (x n : Z) : Z := Z.lor (Z.shiftr x n) (u32 (Z.shiftl x (32 - n))).

Definition reg (r : list Z) (i : nat) : Z := nth i r 0.
Definition set_reg (r : list Z) (i : nat) (x : Z) : list Z := firstn i r ++ [x] ++ skipn (S i) r.

(** The macro calls of src/missings.cpp:253-342: which of the registers A..E (0..4) are passed in
    the five places, for round t; the calls rotate with period five. *)
Definition call_regs (t : Z) : nat * nat * nat * nat * nat :=
  let m := t mod 5 in
  if m =? 0 then (0, 1, 2, 3, 4)%nat else if m =? 1 then (4, 0, 1, 2, 3)%nat else if m =? 2 then (3, 4, 0, 1, 2)%nat
  else if m =? 3 then (2, 3, 4, 0, 1)%nat else (1, 2, 3, 4, 0)%nat.

(** T_0_15 .. T_60_79, src/missings.cpp:230-239: function of the round and its constant. *)
Definition fn (t B C D : Z) : Z :=
  if t <? 20 then Z.lxor (Z.land (Z.lxor C D) B) D
  else if t <? 40 then Z.lxor (Z.lxor B C) D
  else if t <? 60 then Z.land B C + Z.land D (Z.lxor B C)
  else Z.lxor (Z.lxor B C) D.
Definition constant (t : Z) : Z :=
  if t <? 20 then 1518500249 (* 0x5a827999 *) else if t <? 40 then 1859775393 (* 0x6ed9eba1 *)
  else if t <? 60 then 2400959708 (* 0x8f1bbcdc *) else 3395469782 (* 0xca62c1d6 *).

(** src/missings.cpp:217-228: W(x), SHA_SRC, SHA_MIX, SHA_ROUND *)
Definition Wx (array : list Z) (x : Z) : Z := znth array (Z.land x 15).
Definition setW (array : list Z) (x v : Z) : list Z := set_reg array (Z.to_nat (Z.land x 15)) v.
Definition round (block : list Z) (t : Z) (st : list Z * list Z) : list Z * list Z :=
  let '(r, array) := st in
  let '(A, B, C, D, E) := call_regs t in
  let TEMP := if t <? 16 then get_be32 (zskip (t * 4) block)
              else SHA_ROL (Z.lxor (Z.lxor (Z.lxor (Wx array (t + 13)) (Wx array (t + 8))) (Wx array (t + 2))) (Wx array t)) 1 in
  let array' := setW array t TEMP in
  let e := u32 (reg r E + TEMP + SHA_ROL (reg r A) 5 + fn t (reg r B) (reg r C) (reg r D) + constant t) in
  let r1 := set_reg r E e in
  (set_reg r1 B (SHA_ROR (reg r1 B) 2), array').
Fixpoint rounds (n : nat) (block : list Z) (t : Z) (st : list Z * list Z) : list Z * list Z :=
  match n with O => st | S k => rounds k block (t + 1) (round block t st) end.

(** src/missings.cpp:241-347.  array[] is uninitialised in the code; every slot is written in the
    rounds 0-15 before it is read, so its first contents (zeros here) do not matter. *)
Definition blk_SHA1_Block (H block : list Z) : list Z :=
  let '(r, _) := rounds 80 block 0 (H, zrepeat 0 16) in
  map (fun '(h, x) => u32 (h + x)) (combine H r).

(** src/missings.cpp:349-359; [W] is whatever the memory holds. *)
Definition blk_SHA1_Init (W : list Z) : blk_SHA_CTX :=
  mkctx 0 [1732584193; 4023233417; 2562383102; 271733878; 3285377520] W.

(** src/missings.cpp:379-383: the loop over whole blocks. *)
Fixpoint block_loop (fuel : nat) (H data : list Z) : option (list Z * list Z) :=
  match fuel with
  | O => None
  | S k => if 64 <=? zlen data then block_loop k (blk_SHA1_Block H (ztake 64 data)) (zskip 64 data) else Some (H, data)
  end.

Definition store (W : list Z) (at_ : Z) (bs : list Z) : list Z := ztake at_ W ++ bs ++ zskip (at_ + zlen bs) W.

(** src/missings.cpp:361-387; [None] = the loop ran out of fuel (never, see Sha1Proofs). *)
Definition blk_SHA1_Update (c : blk_SHA_CTX) (data : list Z) : option blk_SHA_CTX :=
  let lenW := Z.land (ctx_size c) 63 in
  let size := u64 (ctx_size c + zlen data) in
  let tail c H data :=
    match block_loop (S (List.length data)) H data with
    | None => None
    | Some (H', rest) => Some (mkctx size H' (if zlen rest =? 0 then c else store c 0 rest))
    end in
  if lenW =? 0 then tail (ctx_W c) (ctx_H c) data
  else
    let left := if zlen data <? 64 - lenW then zlen data else 64 - lenW in
    let W := store (ctx_W c) lenW (ztake left data) in
    let lenW' := Z.land (lenW + left) 63 in
    if negb (lenW' =? 0) then Some (mkctx size (ctx_H c) W)
    else tail W (blk_SHA1_Block (ctx_H c) W) (zskip left data).

(** src/missings.cpp:389-408 *)
Definition blk_SHA1_Final (c : blk_SHA_CTX) : option (list Z) :=
  let pad := 128 :: zrepeat 0 63 in
  let padlen := le 4 (htonl (u32 (Z.shiftr (ctx_size c) 29))) ++ le 4 (htonl (u32 (u64 (Z.shiftl (ctx_size c) 3)))) in
  let i := Z.land (ctx_size c) 63 in
  match blk_SHA1_Update c (ztake (1 + Z.land 63 (55 - i)) pad) with
  | None => None
  | Some c1 =>
      match blk_SHA1_Update c1 padlen with
      | None => None
      | Some c2 => Some (flat_map (fun h => le 4 (htonl h)) (ctx_H c2))
      end
  end.

(** A message delivered in pieces. *)
Fixpoint updates (c : blk_SHA_CTX) (pieces : list (list Z)) : option blk_SHA_CTX :=
  match pieces with
  | [] => Some c
  | p :: r => match blk_SHA1_Update c p with Some c' => updates c' r | None => None end
  end.

(** src/missings.cpp:125-132 *)
Definition SHA1 (W d : list Z) : option (list Z) :=
  match blk_SHA1_Update (blk_SHA1_Init W) d with Some c => blk_SHA1_Final c | None => None end.

(** src/missings.cpp:136-167.  The operating system decides how many bytes each read delivers:
    [reads] lists these numbers, capped by 4096 and by what is left of the file; 0 when the list is
    exhausted.  A negative number is a read error.  [None]: no answer within the given reads. *)
Fixpoint sha1_reads (reads : list Z) (c : blk_SHA_CTX) (file : list Z) : option (option (list Z)) :=
  match reads with
  | [] => None
  | n :: reads' =>
      if n <? 0 then Some None
      else
        let size := Z.min n (Z.min 4096 (zlen file)) in
        match blk_SHA1_Update c (ztake size file) with
        | None => None
        | Some c' =>
            if size <? 4096 then option_map Some (blk_SHA1_Final c')
            else sha1_reads reads' c' (zskip size file)
        end
  end.
Definition file_getsha1 (W : list Z) (reads file : list Z) : option (option (list Z)) := sha1_reads reads (blk_SHA1_Init W) file.
