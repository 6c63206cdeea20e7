(** What the names of a pool should be, without looking at how they are stored.

    A table lists the names with their types; the id of a name is its place. *)
From Verif Require Import Base Types Sort Xb XbWrite Bw BwHist BwSym.

Definition names := list (list Z * Z).
Fixpoint place (name : list Z) (L : names) : option nat :=
  match L with [] => None | (n, _) :: L => if list_eq_dec Z.eq_dec n name then Some O else option_map S (place name L) end.
(** A name that is there keeps its id, its type becomes the join of both; a new one gets the next id. *)
Definition id_of (name : list Z) (L : names) : Z := match place name L with Some i => Z.of_nat i | None => zlen L end.
Fixpoint noted (name : list Z) (type : Z) (L : names) : names :=
  match L with
  | [] => [(name, type)]
  | (n, old) :: L => if list_eq_dec Z.eq_dec n name then (n, if old =? type then old else XBT_JoinTypes type old) :: L else (n, old) :: noted name type L
  end.
Definition proper (name : list Z) : Prop := cstring name /\ name <> [].

(** Histories of registrations, of requests for space and of stores in it: the memory, the tags, the attributes and the blocks handed out.
    A table takes 128 names; a registration can fail (-1), then it changes nothing. *)
Inductive dicts : list Z -> names -> names -> list (Z * Z) -> Prop :=
| dicts_start m a : pool m a -> (forall t, t = TAGS \/ t = PARAMS -> t_max_id m t = Ok (-1) /\ t_names m t = Ok 0 /\ t_index m t = Ok 0 /\ t_flags m t = Ok 0) -> dicts m [] [] []
| dicts_tag m T P B fuel name type id m' : dicts m T P B -> proper name -> 0 <= type < 256 -> place name T <> None \/ zlen T < 128 ->
    registerTag fuel m name type = rret (id, m') -> dicts m' (if id =? -1 then T else noted name type T) P B
| dicts_param m T P B fuel name type id m' : dicts m T P B -> proper name -> 0 <= type < 256 -> place name P <> None \/ zlen P < 128 ->
    registerParam fuel m name type = rret (id, m') -> dicts m' T (if id =? -1 then P else noted name type P) B
| dicts_index m T P B fuel disk check failures ok m' : dicts m T P B -> allRegistered fuel disk check failures m = rret (ok, m') -> dicts m' T P B
| dicts_clear m T P B fuel m' : dicts m T P B -> Clear fuel m = rret (true, m') -> dicts m' T P []
| dicts_block m T P B n x m' : dicts m T P B -> allocate m n = Ok (Some x, m') -> dicts m' T P ((x, n) :: B)
| dicts_block8 m T P B n x m' : dicts m T P B -> allocate8 m n = Ok (Some x, m') -> dicts m' T P ((x, n) :: B)
| dicts_element m T P B disk ty n k x m' : dicts m T P B -> new_element disk m ty n = Ok (Some x, m') -> XBT_Size2 ty n = Ok k -> dicts m' T P ((x, 24 + k) :: B)
| dicts_no_block m T P B n m' : dicts m T P B -> allocate m n = Ok (None, m') -> dicts m' T P B
| dicts_no_block8 m T P B n m' : dicts m T P B -> allocate8 m n = Ok (None, m') -> dicts m' T P B
| dicts_no_element m T P B disk ty n m' : dicts m T P B -> new_element disk m ty n = Ok (None, m') -> dicts m' T P B
| dicts_space m T P B disk n ok m' : dicts m T P B -> makeSpace disk m n = Ok (ok, m') -> dicts m' T P B
| dicts_write m T P B x n q bs m' : dicts m T P B -> In (x, n) B -> x <= q -> q + zlen bs <= x + n -> wr m q bs = Ok m' -> dicts m' T P B.

(** The space that names take: 2 bytes for the id, one for the type and one for the end of the name, rounded up to 4; the index of them. *)
Definition names_size (L : names) : Z := fold_right (fun e s => (zlen (fst e) + 4 + 3) / 4 * 4 + s) 0 L.
Definition index_size (L : names) : Z := 4 * zlen L.

(** Every name of the table is found: by name and by id, with its type; no other name is found. *)
Definition known m t (L : names) : Prop :=
  NoDup (map fst L) /\ forall fuel, (2 * List.length L < fuel)%nat ->
  (forall i s ty, nth_error L i = Some (s, ty) ->
     (exists o, getByName fuel m t s = rret (Some (Z.of_nat i, o, ty))) /\ getName fuel m t (Z.of_nat i) = rret (Some s) /\ getType fuel m t (Z.of_nat i) = rret (Some ty)) /\
  (forall s, proper s -> ~ In s (map fst L) -> getByName fuel m t s = rret None).
