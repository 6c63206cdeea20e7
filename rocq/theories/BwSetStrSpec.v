(** What setting the text of a child should do. *)
From Verif Require Import Base Types Sort Xb XbWrite Bw BwSpec BwHist BwSym BwNamesSpec BwLifeSpec.

(** The text of [x] and its space, [room] bytes, are inside [x]. *)
Definition text_of (s : Z -> Z) m x (old : list Z) (room : Z) : Prop :=
  bw_getStr m x = Ok (Some old) /\
  (el_type m x = Ok XBT_STRING /\ room = zlen old + 1 /\ 24 + room <= s x \/ el_type m x = Ok XBT_BLOB_STRING /\ rd_s32 m (x + 24) = Ok room /\ 28 + room <= s x).
(** The same element has another text: nothing else changes. *)
Definition text_stored (k : Z -> bool) (s : Z -> Z) m T P F x v m' : Prop :=
  life k s m' T P F /\ bw_getStr m' x = Ok (Some v) /\ el_id m' x = el_id m x /\ el_type m' x = el_type m x /\ (forall e, In e (members F) -> e <> x -> same_data s m m' e).
(** A new element [n] behind the last child [parent] has left has the text, the name, the attributes; [x] is in no list. *)
Definition text_moved (k : Z -> bool) (s : Z -> Z) m T P F parent l1 x l2 A v n m' : Prop :=
  exists k' s' F', life k' s' m' T P F' /\ (forall e, In e (members F) -> k' e = k e /\ s' e = s e) /\ ~ In n (members F) /\ k' n = true /\
  bw_getStr m' n = Ok (Some v) /\ el_id m' n = el_id m x /\ owned F' parent true (l1 ++ l2 ++ [n]) /\ owned F' n false A /\ owned F' n true [] /\ owned F' x false [] /\
  (forall e, In e (members F) -> same_data s m m' e) /\ (forall q b Lq, In q (members F) -> (q, b) <> (parent, true) -> (q, b) <> (x, false) -> owned F q b Lq -> owned F' q b Lq).
