(** Making elements of any type from texts for XBW pools. *)
From Verif Require Import Base Types Sort Xb XbWrite Bw BwSpec BwHist BwSym BwNamesSpec BwLifeSpec BwTag BwTagSpec BwExamples BwSetExamples BwFileExamples BwTagExamples BwMakeSpec BwAny BwAnyProofs.

(** C82: in a pool with any history, for a text with the size the library computes for it, tagAny makes a new element on its own with this name and this type, and the bytes the text is converted
    to follow it.  What was in the pool is byte for byte as before.  If NULL is returned, there is at most one more element, on its own.
    Missing: hexadecimal data (C82_hex_refuted), other sizes (C82_size_refuted), a failed call without any effect (C82_failed_refuted). *)
Theorem C82_partial : forall fl disk k s m T P F id ty v size r m', life k s m T P F -> 0 <= ty < 256 -> -32768 <= id < 32768 -> XBT_SizeFromString v ty = Ok size -> ty <> XBT_HEX -> tagAny fl disk m id ty v size = Ok (r, m') ->
  (r = None /\ (forall e, In e (members F) -> rd m' e (s e) = rd m e (s e)) /\ exists k' s' F', (F' = F \/ exists x, F' = (None, [x]) :: F) /\ life k' s' m' T P F' /\ forall e, In e (members F) -> k' e = k e /\ s' e = s e) \/
  exists x bs, r = Some x /\ tag_done k s m T P F id ty x m' /\ converted fl v ty bs /\ rd m' (x + 24) (zlen bs) = Ok bs.
Proof. exact any_makes. Qed.
Print Assumptions C82_partial.
(** It does so whenever the text can be converted and the file has room; other than the typed functions it does not make the file larger. *)
Theorem C82_succeeds : forall fl disk k s m T P F id ty v size bs a n, life k s m T P F -> bytes m -> p_allocator m = Ok a -> XBT_SizeFromString v ty = Ok size -> ty <> XBT_HEX -> converted fl v ty bs -> XBT_Size2 ty size = Ok n -> 0 <= n -> a + n + 46 <= zlen m ->
  exists x m', tagAny fl disk m id ty v size = Ok (Some x, m').
Proof. exact any_succeeds. Qed.
Print Assumptions C82_succeeds.
Example C82_met : forall fl, life kg sg g6 tags4 [] Fg /\ bytes g6 /\ p_allocator g6 = Ok 164 /\ XBT_SizeFromString (lit "10.0.0.1") XBT_IPv4 = Ok 4 /\ XBT_IPv4 <> XBT_HEX /\ converted fl (lit "10.0.0.1") XBT_IPv4 [1; 0; 0; 10] /\ XBT_Size2 XBT_IPv4 4 = Ok 4 /\ 164 + 4 + 46 <= zlen g6.
Proof.
  intro fl. split; [exact g6_life|]. split; [exact g6_bytes|]. split; [vm_compute; reflexivity|]. split; [reflexivity|]. split; [discriminate|]. split; [|split; [reflexivity|vm_compute; discriminate]].
  exists 4, 4, (mkstored 0 [1; 0; 0; 10] 4). repeat split; vm_compute; reflexivity.
Qed.
(** Hexadecimal data with the size the library computes loses its last four bytes, because the space for its length is not counted: of five bytes one is kept.  Up to three bytes the count of the
    remaining space is negative. *)
Theorem C82_hex_refuted : forall fl, (exists k s T P F, life k s g6 T P F) /\ XBT_SizeFromString (lit "0011223344") XBT_HEX = Ok 5 /\
  (exists x m', tagAny fl true g6 1 XBT_HEX (lit "0011223344") 5 = Ok (Some x, m') /\ rd m' (x + 24) 5 = Ok (le 4 1 ++ [0])) /\ tagAny fl true g6 1 XBT_HEX (lit "001122") 3 = Ub.
Proof.
  intro fl. split; [exists kg, sg, tags4, [], Fg; exact g6_life|]. split; [reflexivity|]. split; [|vm_compute; reflexivity].
  exists 164, (mem (tagAny fl true g6 1 XBT_HEX (lit "0011223344") 5)). split; vm_compute; reflexivity.
Qed.
Print Assumptions C82_hex_refuted.
(** A text that is longer than the given size is stored completely, beyond the space of its element: the next element that is made lies upon it. *)
Theorem C82_size_refuted : forall fl, (exists k s T P F, life k s g6 T P F) /\ exists x m1 y m2, tagAny fl true g6 1 XBT_STRING (lit "abcdefgh") 3 = Ok (Some x, m1) /\ rd m1 (x + 24) 9 = Ok (lit "abcdefgh" ++ [0]) /\
  bw_tag true m1 1 = Ok (Some y, m2) /\ y = x + 28 /\ rd m2 (x + 24) 9 <> Ok (lit "abcdefgh" ++ [0]).
Proof.
  intro fl. split; [exists kg, sg, tags4, [], Fg; exact g6_life|]. exists 164, (mem (tagAny fl true g6 1 XBT_STRING (lit "abcdefgh") 3)), 192, (mem (bw_tag true (mem (tagAny fl true g6 1 XBT_STRING (lit "abcdefgh") 3)) 1)).
  split; [vm_compute; reflexivity|]. split; [vm_compute; reflexivity|]. split; [vm_compute; reflexivity|]. split; [reflexivity|]. vm_compute. discriminate.
Qed.
Print Assumptions C82_size_refuted.
(** A text that cannot be converted: NULL is returned, and the space of the element is used. *)
Theorem C82_failed_refuted : forall fl, (exists k s T P F, life k s g6 T P F) /\ p_allocator g6 = Ok 164 /\ exists m1, tagAny fl true g6 1 XBT_IPv4 (lit "10.0") 4 = Ok (None, m1) /\ p_allocator m1 = Ok 192.
Proof.
  intro fl. split; [exists kg, sg, tags4, [], Fg; exact g6_life|]. split; [vm_compute; reflexivity|]. exists (mem (tagAny fl true g6 1 XBT_IPv4 (lit "10.0") 4)). split; vm_compute; reflexivity.
Qed.
Print Assumptions C82_failed_refuted.
