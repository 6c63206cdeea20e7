(** Examples for C77 and C78. *)
From Verif Require Import Base Text Files.

(** A file system with the root and the working directory /w, and one with a file /w/a in it. *)
Definition bare : fs := fun p => if same_place p [] then Some Dir else if same_place p [lit "w"] then Some Dir else None.
Definition with_file : fs := fun p => if same_place p [lit "a"; lit "w"] then Some File else bare p.
(** Another process makes /w/a first. *)
Definition rival : fs -> fs := fun f p => if same_place p [lit "a"; lit "w"] then match f p with None => Some Dir | k => k end else f p.
(** A callback that counts and stops at the second file; one that leaves an errno when it stops. *)
Definition two (name : list Z) (type : Z) (n : Z) : bool * Z * Z := (n + 1 <? 2, 0, n + 1).
Definition rude (name : list Z) (type : Z) (n : Z) : bool * Z * Z := (false, 2, n + 1).
