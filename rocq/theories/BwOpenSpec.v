(** What is said about pools that are opened again. *)
From Verif Require Import Base Types Sort Xb XbWrite Bw BwNamesSpec.

(** The pool with the tags [T] and the attributes [P] has the name [name] with this id and this type. *)
Definition agrees (T P : names) (t : Z) (id : Z) (name : list Z) (type : Z) : Prop :=
  0 <= id /\ nth_error (if t =? TAGS then T else P) (Z.to_nat id) = Some (name, type).
(** Both tables have their indices, as allRegistered makes them. *)
Definition has_indices m : Prop := t_index m TAGS <> Ok 0 /\ t_index m PARAMS <> Ok 0.
Definition typed_names (L : names) : Prop := Forall (fun e => snd e <= XBT_LAST) L.
(** What a program registers: tags and attributes, with a type *)
Definition request (r : Z * Z * list Z * Z) : Prop := let '(t, _, _, type) := r in (t = TAGS \/ t = PARAMS) /\ XBT_NULL <= type < XBT_LAST.
