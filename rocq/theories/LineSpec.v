(** What a line of items is: the text that a writer makes of a list of items with printf,
    and which items it stands for.  Nothing here refers to the code. *)
From Verif Require Import Base NumSpec.

(** The items of a line: a fixed word, numbers of three types, and a text that is ended by a
    separator; the buffer of the reader has [size] bytes. *)
Inductive item :=
| Word (w : list Z)
| Int32 (n : Z)
| Int64 (n : Z)
| Unsigned (n : Z)
| Text (sep size : Z) (f : list Z).

Definition blank (sp : list Z) : Prop := Forall (fun c => is_space c = true) sp.

(** [row is t rest]: [t] is the text of the items [is], with any blanks before each of them,
    followed by [rest].  A number is not followed by another digit, 0 is not followed by an x;
    a text has no separator inside and does not begin with a blank. *)
Inductive row : list item -> list Z -> list Z -> Prop :=
| row_end t : row [] t t
| row_word sp w is t rest : blank sp -> is_space (cur (w ++ t)) = false -> row is t rest ->
    row (Word w :: is) (sp ++ w ++ t) rest
| row_int32 sp n is t rest : blank sp -> int32 n -> n <> INT_MIN -> is_digit (cur t) = false -> row is t rest ->
    row (Int32 n :: is) (sp ++ sdec n ++ t) rest
| row_int64 sp n is t rest : blank sp -> int64 n -> n <> INT64_MIN -> is_digit (cur t) = false -> row is t rest ->
    row (Int64 n :: is) (sp ++ sdec n ++ t) rest
| row_unsigned sp n is t rest : blank sp -> uint64 n -> is_digit (cur t) = false -> cur t <> ch "x" -> row is t rest ->
    row (Unsigned n :: is) (sp ++ udec n ++ t) rest
| row_text sp sep size f is t rest : blank sp -> f <> [] -> is_space (cur f) = false -> sep <> ch " " -> 2 <= size -> zlen f < size ->
    Forall (fun c => c <> sep) f -> row is t rest ->
    row (Text sep size f :: is) (sp ++ f ++ sep :: t) rest
| row_name sp size f c is t rest : blank sp -> f <> [] -> 2 <= size -> zlen f < size ->
    Forall (fun d => is_space d = false) f -> is_space c = true -> row is t rest ->
    row (Text (ch " ") size f :: is) (sp ++ f ++ c :: t) rest.

(** [table rs t]: [t] has a line for each of the rows [rs]; a line may have more after its
    items, up to its end. *)
Inductive table : list (list item) -> list Z -> Prop :=
| table_end : table [] []
| table_row is rs l rest more t : row is l rest -> rest = more ++ ch "010" :: t -> Forall (fun c => c <> 10) more -> table rs t ->
    table (is :: rs) l.

(** [n] is written in decimal at the beginning of [p], after any blanks; [q] is behind all its digits. *)
Definition number_at (n : Z) (p q : list Z) : Prop := exists t, number_text t n /\ is_digit (cur q) = false /\ p = t ++ q.

(** [c] ends a text whose separator is [sep]; a space stands for every blank. *)
Definition ends (sep c : Z) : Prop := if sep =? ch " " then is_space c = true else c = sep.
