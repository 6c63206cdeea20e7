(** The text a pointer stands for: the null pointer is the empty text. *)
From Verif Require Import Base.

Definition text_of (s : option (list Z)) : list Z := match s with Some t => t | None => [] end.
