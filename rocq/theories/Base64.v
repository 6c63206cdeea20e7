(** Model of base64_encode / base64_decode (src/utils.cpp:1208-1292). *)
From Verif Require Import Base.

(** src/utils.cpp:1209 *)
Definition BASE64 : list Z := lit "ABCDEFGHIJKLMNOPQRSTUVWXYZabcdefghijklmnopqrstuvwxyz0123456789+/".
Definition b64char (v : Z) : Z := znth BASE64 v.

(** src/utils.cpp:1244-1260 *)
Definition BACK64 : list Z :=
  [-1; -1; -1; -1; -1; -1; -1; -1; -1; -1; -1; -1; -1; -1; -1; -1;
   -1; -1; -1; -1; -1; -1; -1; -1; -1; -1; -1; -1; -1; -1; -1; -1;
   -1; -1; -1; -1; -1; -1; -1; -1; -1; -1; -1; 62; -1; -1; -1; 63;
   52; 53; 54; 55; 56; 57; 58; 59; 60; 61; -1; -1; -1; -1; -1; -1;
   -1; 0; 1; 2; 3; 4; 5; 6; 7; 8; 9; 10; 11; 12; 13; 14;
   15; 16; 17; 18; 19; 20; 21; 22; 23; 24; 25; -1; -1; -1; -1; -1;
   -1; 26; 27; 28; 29; 30; 31; 32; 33; 34; 35; 36; 37; 38; 39; 40;
   41; 42; 43; 44; 45; 46; 47; 48; 49; 50; 51; -1; -1; -1; -1; -1;
   -1; -1; -1; -1; -1; -1; -1; -1; -1; -1; -1; -1; -1; -1; -1; -1;
   -1; -1; -1; -1; -1; -1; -1; -1; -1; -1; -1; -1; -1; -1; -1; -1;
   -1; -1; -1; -1; -1; -1; -1; -1; -1; -1; -1; -1; -1; -1; -1; -1;
   -1; -1; -1; -1; -1; -1; -1; -1; -1; -1; -1; -1; -1; -1; -1; -1;
   -1; -1; -1; -1; -1; -1; -1; -1; -1; -1; -1; -1; -1; -1; -1; -1;
   -1; -1; -1; -1; -1; -1; -1; -1; -1; -1; -1; -1; -1; -1; -1; -1;
   -1; -1; -1; -1; -1; -1; -1; -1; -1; -1; -1; -1; -1; -1; -1; -1;
   -1; -1; -1; -1; -1; -1; -1; -1; -1; -1; -1; -1; -1; -1; -1; -1].
Definition back64 (c : Z) : Z := znth BACK64 c.

(** Main loop, src/utils.cpp:1218-1236: characters written and remaining [dst_size].
    One step of the recursion is one iteration; the iteration reads 1, 2 or 3 source bytes. *)
Fixpoint b64_loop (src : list Z) (dst_size : Z) : list Z * Z :=
  if dst_size <? 2 then ([], dst_size) else
  match src with
  | [] => ([], dst_size)
  | [a] => ([b64char (Z.shiftr a 2); b64char (Z.lor (Z.shiftl (Z.land a 3) 4) (Z.shiftr 0 4))], dst_size - 2)
  | [a; b] =>
      let out2 := [b64char (Z.shiftr a 2); b64char (Z.lor (Z.shiftl (Z.land a 3) 4) (Z.shiftr b 4))] in
      if dst_size - 2 =? 0 then (out2, 0)
      else (out2 ++ [b64char (Z.lor (Z.shiftl (Z.land b 15) 2) (Z.shiftr 0 6))], dst_size - 3)
  | a :: b :: c :: r =>
      let out2 := [b64char (Z.shiftr a 2); b64char (Z.lor (Z.shiftl (Z.land a 3) 4) (Z.shiftr b 4))] in
      if dst_size - 2 =? 0 then (out2, 0)
      else
        let out3 := out2 ++ [b64char (Z.lor (Z.shiftl (Z.land b 15) 2) (Z.shiftr c 6))] in
        if dst_size - 3 =? 0 then (out3, 0)
        else let '(o, d) := b64_loop r (dst_size - 4) in
             (out3 ++ [b64char (Z.land c 63)] ++ o, d)
  end.

(** Padding loop, src/utils.cpp:1237-1238; [c] is the position in the group. *)
Fixpoint b64_pad (n : nat) (c dst_size : Z) : list Z * Z :=
  match n with
  | O => ([], dst_size)
  | S k => if (0 <? c) && (0 <? dst_size) && (c <? 4)
           then let '(o, d) := b64_pad k (c + 1) (dst_size - 1) in (61 :: o, d)
           else ([], dst_size)
  end.

(** src/utils.cpp:1211-1242: the characters written, and whether the NUL is written behind them
    (1239-1240: only if [dst_size > 1] is left).  The loop at 1237 runs at most three times. *)
Definition base64_encode (src : list Z) (dst_size : Z) : list Z * bool :=
  let '(o, d) := b64_loop src dst_size in
  let '(pad, d') := b64_pad 3 (Z.land (zlen o) 3) d in
  (o ++ pad, 1 <? d').

(** src/utils.cpp:1263-1292: bytes stored (their number is the return value).  [src] holds exactly
    [src_size] bytes. *)
Fixpoint base64_decode (src : list Z) (dst_size : Z) : list Z :=
  match src with
  | k0 :: l0 :: r =>
      if dst_size <=? 0 then [] else
      let K := back64 k0 in
      let L := back64 l0 in
      let M := match r with m :: _ => back64 m | [] => -1 end in
      let N := match r with _ :: n :: _ => back64 n | _ => -1 end in
      if K <? 0 then [] else if L <? 0 then [] else
      let A := u8 (Z.lor (Z.shiftl K 2) (Z.shiftr L 4)) in
      if M <? 0 then [A] else if dst_size <=? 1 then [A] else
      let B := u8 (Z.lor (Z.shiftl (Z.land L 15) 4) (Z.shiftr M 2)) in
      if N <? 0 then [A; B] else if dst_size <=? 2 then [A; B] else
      let C := u8 (Z.lor (Z.shiftl (Z.land M 3) 6) N) in
      match r with
      | _ :: _ :: r' => A :: B :: C :: base64_decode r' (dst_size - 3)
      | _ => [A; B; C]
      end
  | _ => []
  end.
