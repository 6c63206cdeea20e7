(** Histories of a whole pool: names are registered and indexed, elements are made, filled, linked and removed, the pool is cleared. *)
From Verif Require Import Base Types Sort Xb XbWrite Bw BwSpec BwHist BwSym BwNamesSpec BwImport BwAlter.
From Verif Require BwFile.

Definition set {A} (f : Z -> A) x v : Z -> A := fun y => if y =? x then v else f y.
(** Names are registered in [t] one after the other; what the table lists before and afterwards. *)
Inductive entering (fuel : nat) t : list Z -> names -> names -> list Z -> names -> Prop :=
| entering_done m L : entering fuel t m L [] m L
| entering_one m L name type N id m1 m' L' : register fuel m t name type = rret (id, m1) -> entering fuel t m1 (if id =? -1 then L else noted name type L) N m' L' -> entering fuel t m L ((name, type) :: N) m' L'.
(** Names as they are in the table of a document *)
Definition listable (N : names) : Prop := NoDup (map fst N) /\ Forall (fun e => proper (fst e) /\ 0 <= snd e < 256) N.
(** The name number [i] gets the type [ty]. *)
Definition altered (i : nat) (ty : Z) (L : names) : names := match nth_error L i with Some (s, _) => firstn i L ++ (s, ty) :: skipn (S i) L | None => L end.
(** The header tells that this is a pool, of version 0, as InitEmptyFile writes it. *)
Definition titled m : Prop := rd m 4 28 = Ok (BwFile.TYPE_INFO ++ zrepeat 0 7).
(** [life kind size m T P F]: the memory, the tags, the attributes, the chains; of the elements in [F], which ones are elements and which
    attributes, and the space reserved for them, a multiple of 4 bytes.  The last three: the attributes of an element are given away and taken over
    (setStr, src/bin_write_plugin.cpp:1051-1061, stores first_attribute directly). *)
Inductive life : (Z -> bool) -> (Z -> Z) -> list Z -> names -> names -> forest -> Prop :=
| life_start k s m a : pool m a -> titled m -> (forall t, t = TAGS \/ t = PARAMS -> t_max_id m t = Ok (-1) /\ t_names m t = Ok 0 /\ t_index m t = Ok 0 /\ t_flags m t = Ok 0) -> life k s m [] [] []
| life_tag k s m T P F fuel name type id m' : life k s m T P F -> proper name -> 0 <= type < 256 -> place name T <> None \/ zlen T < 128 ->
    registerTag fuel m name type = rret (id, m') -> life k s m' (if id =? -1 then T else noted name type T) P F
| life_param k s m T P F fuel name type id m' : life k s m T P F -> proper name -> 0 <= type < 256 -> place name P <> None \/ zlen P < 128 ->
    registerParam fuel m name type = rret (id, m') -> life k s m' T (if id =? -1 then P else noted name type P) F
| life_index k s m T P F fuel disk check failures ok m' : life k s m T P F -> allRegistered fuel disk check failures m = rret (ok, m') -> life k s m' T P F
| life_table k s m T P F t fuel ok m' : life k s m T P F -> t = TAGS \/ t = PARAMS -> makeTable fuel m t = rret (ok, m') -> life k s m' T P F
| life_clear k s m T P F fuel m' : life k s m T P F -> Clear fuel m = rret (true, m') -> life k s m' T P []
| life_new k s m T P F disk id ty n z flags x m' : life k s m T P F -> 0 <= flags < 256 -> 0 <= ty < 256 -> fresh disk m id ty n flags = Ok (Some x, m') -> XBT_Size2 ty n = Ok z ->
    life (set k x (is_element flags)) (set s x (24 + (z + 3) / 4 * 4)) m' T P ((None, [x]) :: F)
| life_not_new k s m T P F disk id ty n flags m' : life k s m T P F -> fresh disk m id ty n flags = Ok (None, m') -> life k s m' T P F
| life_write k s m T P F e q bs m' : life k s m T P F -> In e (members F) -> e + 24 <= q -> q + zlen bs <= e + s e -> wr m q bs = Ok m' -> life k s m' T P F
| life_root k s m T P F e m' : life k s m T P F -> In e (members F) -> setRoot m e = Ok m' -> life k s m' T P F
| life_allocate k s m T P F n r m' : life k s m T P F -> allocate m n = Ok (r, m') -> life k s m' T P F
| life_allocate8 k s m T P F n r m' : life k s m T P F -> allocate8 m n = Ok (r, m') -> life k s m' T P F
| life_space k s m T P F disk n r m' : life k s m T P F -> makeSpace disk m n = Ok (r, m') -> life k s m' T P F
| life_add k s m T P F p t F' ok tr : life k s m T P F -> In p (members F) -> adds k p t F F' -> add m p t = Ok (ok, tr) -> life k s (final m tr) T P F'
| life_join k s m T P F a b F' ok tr : life k s m T P F -> joins a b F F' -> join m a b = Ok (ok, tr) -> life k s (final m tr) T P F'
| life_remove k s m T P F p t F' ok tr : life k s m T P F -> removes k p t F F' -> remove m p t = Ok (ok, tr) -> life k s (final m tr) T P F'
| life_replace k s m T P F p old new child F' ok tr : life k s m T P F -> replaces p old new child F F' -> ~ In (Some (p, child), [old]) F ->
    replace m p old new = Ok (ok, tr) -> life k s (final m tr) T P F'
| life_put k s m T P F id ty n z flags N x m1 m' : life k s m T P F -> 0 <= flags < 256 -> 0 <= ty < 256 -> allocate8 m N = Ok (Some x, m1) -> init m1 x id ty flags = Ok m' ->
    XBT_Size2 ty n = Ok z -> 0 <= z -> 24 + z <= align_up 8 N -> life (set k x (is_element flags)) (set s x (24 + (z + 3) / 4 * 4)) m' T P ((None, [x]) :: F)
| life_import_tags k s m T P F fuel N m1 m2 T' m' : life k s m T P F -> listable N -> zlen T + zlen N <= 128 -> set_fast m TAGS = Ok m1 -> entering fuel TAGS m1 T N m2 T' -> T' <> [] ->
    set_fast m2 TAGS = Ok m' -> life k s m' T' P F
| life_import_params k s m T P F fuel N m1 m2 P' m' : life k s m T P F -> listable N -> zlen P + zlen N <= 128 -> set_fast m PARAMS = Ok m1 -> entering fuel PARAMS m1 P N m2 P' -> P' <> [] ->
    set_fast m2 PARAMS = Ok m' -> life k s m' T P' F
| life_alter_tag k s m T P F fuel id ty ok m' : life k s m T P F -> alterTag fuel m id ty = rret (ok, m') -> life k s m' (if ok : bool then altered (Z.to_nat id) ty T else T) P F
| life_alter_attr k s m T P F fuel id ty ok m' : life k s m T P F -> alterAttr fuel m id ty = rret (ok, m') -> life k s m' T (if ok : bool then altered (Z.to_nat id) ty P else P) F
| life_retype k s m T P F e ty ok m' : life k s m T P F -> In e (members F) -> 0 <= ty < 256 -> (ty = XBT_BLOB_STRING -> 44 <= s e) -> retype m e ty = Ok (ok, m') -> life k s m' T P F
| life_detach k s m T P F p A R m' : life k s m T P F -> Permutation F ((Some (p, false), A) :: R) -> wr32 m (p + 20) 0 = Ok m' -> life k s m' T P ((None, A) :: R)
| life_hang k s m T P F p x A R m' : life k s m T P F -> Permutation F ((None, x :: A) :: R) -> In p (members F) -> (forall L, ~ In (Some (p, false), L) R) ->
    wr32 m (p + 20) x = Ok m' -> life k s m' T P ((Some (p, false), x :: A) :: R)
| life_bare k s m T P F p m' : life k s m T P F -> In p (members F) -> (forall L, ~ In (Some (p, false), L) F) -> wr32 m (p + 20) 0 = Ok m' -> life k s m' T P F.

(** The id, the type and the value of [e] are the same. *)
Definition same_data (s : Z -> Z) m m' e : Prop := el_id m' e = el_id m e /\ el_type m' e = el_type m e /\ rd m' (e + 24) (s e - 24) = rd m (e + 24) (s e - 24).
(** What setting the child [id] of [p] may do to the pool: [t] is what the call returns, [n] carries the value afterwards, in a space of at least [w]
    bytes.  Without such a child [n] is put behind the last child; else [n] is the first one with this id, or takes its place.  Nothing else changes. *)
Definition set_done (k : Z -> bool) (s : Z -> Z) m T P F p L id t (n w : Z) m' : Prop :=
  exists k' s' F' L', life k' s' m' T P F' /\ (forall e, In e (members F) -> k' e = k e /\ s' e = s e) /\ owned F' p true L' /\
  ((forall e, In e L -> el_id m e <> Ok id) /\ L' = L ++ [n] /\ t = n \/
   exists l1 l2, L = l1 ++ t :: l2 /\ L' = l1 ++ n :: l2 /\ el_id m t = Ok id /\ forall e, In e l1 -> el_id m e <> Ok id) /\
  (forall e, In e (members F) -> e <> t -> same_data s m m' e) /\
  (forall q b Lq, In q (members F) -> (q, b) <> (p, true) -> owned F q b Lq -> owned F' q b Lq) /\
  (n = t \/ ~ In n (members F)) /\ k' n = true /\ w <= s' n - 24.
