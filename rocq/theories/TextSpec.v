(** What masks, identifiers and file name extensions are. *)
From Verif Require Import Base.

(** '?' stands for one character, '*' for any number of them, anything else for itself. *)
Inductive glob : list Z -> list Z -> Prop :=
| glob_end : glob [] []
| glob_char c m v : c <> ch "*" -> c <> ch "?" -> glob m v -> glob (c :: m) (c :: v)
| glob_one x m v : glob m v -> glob (ch "?" :: m) (x :: v)
| glob_none m v : glob m v -> glob (ch "*" :: m) v
| glob_more x m v : glob (ch "*" :: m) v -> glob (ch "*" :: m) (x :: v).

(** [A-Za-z_][A-Za-z0-9_]* *)
Definition ident_start (c : Z) : Prop := 65 <= c <= 90 \/ 97 <= c <= 122 \/ c = 95.
Definition ident_char (c : Z) : Prop := ident_start c \/ 48 <= c <= 57.
Definition identifier (s : list Z) : Prop := exists c r, s = c :: r /\ ident_start c /\ Forall ident_char r.

(** A path is a directory part (empty or ending with a slash) and a last component; the last
    component is a stem and an extension: empty, or a dot and what follows the last dot. *)
Definition path_parts (path dir stem ext : list Z) : Prop :=
  path = dir ++ stem ++ ext /\
  (dir = [] \/ exists d, dir = d ++ [ch "/"]) /\ ~ In (ch "/") (stem ++ ext) /\
  ((ext = [] /\ ~ In (ch ".") stem) \/ exists e, ext = ch "." :: e /\ ~ In (ch ".") e).
