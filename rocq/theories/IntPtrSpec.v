(** Which of the four getters of numbers a call uses. *)
From Verif Require Import Base IntPtr.

Inductive getter := Param32 | Param64 | Item32 | Item64.
Definition getter_of (c : call) : getter :=
  match c with ParamInt32Ptr _ _ _ _ => Param32 | ParamInt64Ptr _ _ _ => Param64 | ItemIntPtr _ _ => Item32 | ItemInt64Ptr _ _ => Item64 end.
