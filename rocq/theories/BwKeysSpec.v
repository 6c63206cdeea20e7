(** What comparing and copying the keys of an item, and copying a path of a document into a pool, should do. *)
From Verif Require Import Base Types Sort Xb XbWrite XbBin BinSpec Bw BwSpec BwHist BwSym BwNamesSpec BwLifeSpec BwSourceSpec BwCopy BwCopySpec.

(** An attribute: id, type and value *)
Definition attr := (Z * Z * list Z)%type.
Definition attr_id (a : attr) : Z := fst (fst a).
(** The attributes of the item [y] of a document, as a client gets them: [n] from [i] on *)
Fixpoint attrs_from (n : nat) d y i : outcome (list attr) :=
  match n with
  | O => Ok []
  | S n => obind (getParamByIndex d (Some y) i) (fun q => match q with
      | None => Ub
      | Some q => obind (pd_name d q) (fun id => obind (param_getData d (Some q) (Some y)) (fun r => obind (ref_bytes d (dr_data r) (dr_size r)) (fun v =>
          obind (attrs_from n d y (i + 1)) (fun l => Ok ((id, dr_type r, v) :: l)))))
      end)
  end.
Definition item_attrs d y : outcome (list attr) := obind (it_paramcount d y) (fun pc => attrs_from (Z.to_nat pc) d y 0).
(** A value of a known type is completely in the space [w]. *)
Definition there ty (w : list Z) : Prop := In ty known_types /\ value_size ty w <= zlen w /\ (ty = XBT_BLOB \/ ty = XBT_HEX -> 4 <= value_size ty w).
(** The attribute [a] of a pool *)
Definition attr_at (s : Z -> Z) m a (d : attr) : Prop :=
  let '(id, ty, v) := d in exists w, el_id m a = Ok id /\ el_type m a = Ok ty /\ rd m (a + 24) (s a - 24) = Ok w /\ there ty w /\ v = value_bytes ty w.
(** The keys among attributes *)
Definition keyed (key : Z -> bool) (l : list attr) : list attr := filter (fun a => key (attr_id a)) l.
(** Values of the same attribute are comparable without a conversion: both are texts or none is one. *)
Definition comparable (I E : list attr) : Prop := forall id ty v ty' v', In (id, ty, v) I -> In (id, ty', v') E -> ty = XBT_STRING <-> ty' = XBT_STRING.
(** An item of a document that can be copied with its keys: its attributes have known types, and its keys are different and at most 16. *)
Definition item key d R (T P : names) y : Prop :=
  exists fr n ty v attrs kids U, read_bin_node fr d R y = rret (BNode n ty v attrs kids) /\ named d R y /\ (forall u, In u (belements (BNode n ty v attrs kids)) -> copyable T P u) /\
  (forall n ty v, In (n, ty, v) attrs -> In ty known_types) /\ item_attrs d y = Ok U /\ NoDup (map attr_id (keyed key U)) /\ zlen (keyed key U) <= 16.

(** Every attribute in the pool has its value completely. *)
Definition sound s m (F : forest) : Prop := forall p A a, owned F p false A -> In a A -> exists d, attr_at s m a d.
(** [z] got at most one child more, the last one. *)
Definition grows (F F' : forest) z (Q : Z -> Prop) : Prop := (forall A, owned F z false A -> owned F' z false A) /\ forall L, owned F z true L -> owned F' z true L \/ exists t, ~ In t (members F) /\ owned F' z true (L ++ [t]) /\ Q t.
(** At most one of the elements that were in the pool got one child more; everything else that was in it is the same. *)
Definition grew k s m F k' s' m' F' : Prop := exists z, grown k s m F z k' s' m' F' /\ (In z (members F) -> grows F F' z (fun _ => True)).
(** [x] has the attributes of the item [y] and a part of what is below it. *)
Definition part_of d R T P k s m F y x : Prop :=
  exists fr n ty v attrs kids kids', read_bin_node fr d R y = rret (BNode n ty v attrs kids) /\ sub pruned kids' kids /\ holds k s m T P F x attrs kids'.
