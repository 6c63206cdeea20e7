(** What packing must keep. *)
From Verif Require Import Base Types Sha1Spec Xb CheckSpec.

(** The bytes of the node at [x], with everything below it. *)
Definition stored_as m x bs : Prop := exists n, it_length m x = Ok n /\ rd m x n = Ok bs.
(** No two different nodes of the image have the same SHA-1. *)
Definition sha1_separates m : Prop :=
  forall x y a b, reach m 0 x -> reach m 0 y -> stored_as m x a -> stored_as m y b -> sha1 a = sha1 b -> a = b.
