(** What sharing files should mean: how long a file stays shared, and what it leaves behind. *)
From Verif Require Import Base Share.

(** A file that is shared: where, how much, under which descriptor, which file, whether it may be written. *)
Record shared := Shared { at_ : Z; size : Z; fd : option Z; name : list Z; writable : bool }.
Definition covers (h : shared) (k : Z) : Prop := at_ h / 4096 <= k < at_ h / 4096 + page_count (size h).

(** What a process does: it shares files, gives them back in any order, writes to memory; files change. *)
Inductive uses (s0 : os) : list shared -> os -> Prop :=
| uses_start : uses s0 [] s0
| uses_share L s n create w want len opened mapped a d s' : uses s0 L s ->
    (forall e, opened = Some e -> can_open s n create e) -> (forall e, mapped = Some e -> can_map s len e) ->
    s_ShareFile s n create w want len opened mapped = (Some a, d, s') -> uses s0 (Shared a len d n w :: L) s'
| uses_failed L s n create w want len opened mapped d s' : uses s0 L s ->
    (forall e, opened = Some e -> can_open s n create e) -> (forall e, mapped = Some e -> can_map s len e) ->
    s_ShareFile s n create w want len opened mapped = (None, d, s') -> uses s0 L s'
| uses_close L1 h L2 s : uses s0 (L1 ++ h :: L2) s -> uses s0 (L1 ++ L2) (CloseSharedFile s (at_ h) (size h) (match fd h with Some d => d | None => -1 end))
| uses_store L s a v s' : uses s0 L s -> store s a v = Some s' -> uses s0 L s'
| uses_files L s f : uses s0 L s -> uses s0 L (Os f (descr s) (pages s)).

(** Exactly the shared files are there beside what was there at the beginning. *)
Definition balanced (s0 : os) (L : list shared) (s : os) : Prop :=
  (forall h d, In h L -> fd h = Some d -> descr s d = Some (name h)) /\
  (forall d, (forall h, In h L -> fd h <> Some d) -> descr s d = descr s0 d) /\
  (forall h k, In h L -> covers h k -> pages s k = Some (Page (name h) (k - at_ h / 4096) (writable h))) /\
  (forall k, (forall h, In h L -> ~ covers h k) -> pages s k = pages s0 k).
