(** What a directory, the entries of a directory and callbacks are for C77 and C78. *)
From Verif Require Import Base Files.

(** The path names something that exists; a directory. *)
Definition exists_at (f : fs) (cwd : place) (path : list Z) (k : kind) : Prop := exists p, locate f cwd path = Some p /\ f p = Some k.
Definition is_dir (f : fs) (cwd : place) (path : list Z) : Prop := exists_at f cwd path Dir.
(** Others remove nothing and make no files. *)
Definition only_dirs (f : fs) : Prop := forall p, f p <> Some File.
Definition friendly (g : fs -> fs) : Prop := forall f, (forall p k, f p = Some k -> g f p = Some k) /\ (only_dirs f -> only_dirs (g f)).

(** The entries a directory has, up to an error of readdir, without itself and its parent. *)
Definition itself_or_parent (name : list Z) : Prop := name = lit "." \/ name = lit "..".
Lemma itself_or_parent_dec (name : list Z) : {itself_or_parent name} + {~ itself_or_parent name}.
Proof. unfold itself_or_parent. destruct (list_eq_dec Z.eq_dec name (lit ".")); [left; auto|]. destruct (list_eq_dec Z.eq_dec name (lit "..")); [left; auto|right; tauto]. Defined.
Fixpoint listed (l : list entry) : list (list Z * Z) :=
  match l with
  | Entry name type :: r => (if itself_or_parent_dec name then [] else [(name, type)]) ++ listed r
  | _ => []
  end.
Definition broken (l : list entry) : Prop := In ReadError l.
(** The callback is called for these entries, one after the other; all but the last one say to go on; what the last one says is [b]. *)
Inductive served {U} (on_file : list Z -> Z -> U -> bool * Z * U) : list (list Z * Z) -> U -> U -> bool -> Prop :=
| served_end : forall u, served on_file [] u u true
| served_stop : forall n t u e u', on_file n t u = (false, e, u') -> served on_file [(n, t)] u u' false
| served_on : forall n t u e u' r u'' b, on_file n t u = (true, e, u') -> served on_file r u' u'' b -> served on_file ((n, t) :: r) u u'' b.
(** A callback that leaves no error when it stops the scan. *)
Definition polite {U} (on_file : list Z -> Z -> U -> bool * Z * U) : Prop := forall n t u e u', on_file n t u = (false, e, u') -> e = 0.
