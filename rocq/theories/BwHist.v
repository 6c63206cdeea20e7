(** The pools that histories of calls lead to. *)
From Verif Require Import Base Types Sort Xb XbWrite Bw BwSpec.

(** A pool nothing is in yet, as InitEmptyFile makes it or with names registered: whatever is below the allocator. *)
Definition pool (m : list Z) (a : Z) : Prop :=
  p_allocator m = Ok a /\ p_limit m = Ok (zlen m) /\ p_file_size m = Ok (zlen m) /\ (exists M, p_mmap_size m = Ok M /\ zlen m <= M) /\
  HEADER <= a <= zlen m /\ a mod 4 = 0 /\ zlen m mod 4096 = 0.

Section History.
(** Elements and attributes are told apart by [kind], [size] is what is reserved for them; both are given when they are made. *)
Variable kind : Z -> bool.
Variable size : Z -> Z.
Inductive built : list Z -> forest -> Prop :=
| built_start m a : pool m a -> built m []
| built_new m F disk id ty n flags x m' : built m F -> 0 <= flags < 256 -> fresh disk m id ty n flags = Ok (Some x, m') ->
    kind x = is_element flags -> XBT_Size2 ty n = Ok (size x - 24) -> built m' ((None, [x]) :: F)
| built_not_new m F disk id ty n flags m' : built m F -> fresh disk m id ty n flags = Ok (None, m') -> built m' F
| built_write m F e q bs m' : built m F -> In e (members F) -> e + 24 <= q -> q + zlen bs <= e + size e -> wr m q bs = Ok m' -> built m' F
| built_allocate m F n r m' : built m F -> allocate m n = Ok (r, m') -> built m' F
| built_allocate8 m F n r m' : built m F -> allocate8 m n = Ok (r, m') -> built m' F
| built_space m F disk n r m' : built m F -> makeSpace disk m n = Ok (r, m') -> built m' F
| built_add m F p t F' ok tr : built m F -> In p (members F) -> adds kind p t F F' -> add m p t = Ok (ok, tr) -> built (final m tr) F'
| built_join m F a b F' ok tr : built m F -> joins a b F F' -> join m a b = Ok (ok, tr) -> built (final m tr) F'
| built_remove m F p t F' ok tr : built m F -> removes kind p t F F' -> remove m p t = Ok (ok, tr) -> built (final m tr) F'
| built_replace m F p old new child F' ok tr : built m F -> replaces p old new child F F' -> ~ In (Some (p, child), [old]) F ->
    replace m p old new = Ok (ok, tr) -> built (final m tr) F'.
End History.

(** Between [m] and [m'] nothing was stored but links and flags of the elements [E]: not their ids (bytes 4, 5), types (7) and values
    (from 24 on), not the header, nothing elsewhere. *)
Definition only_links (E : list Z) m m' : Prop :=
  zlen m' = zlen m /\ forall q n, 0 <= n -> (forall e, In e E -> q + n <= e + 6 \/ e + 24 <= q \/ (e + 7 <= q /\ q + n <= e + 8)) -> rd m' q n = rd m q n.
(** What the reads of somebody else can meet while an operation stores: read number [i] sees the memory after some of the stores, and
    no store is undone. *)
Definition meets m (tr : list (list Z)) (s : nat -> list Z) : Prop :=
  exists at_ : nat -> nat, (forall i j, (i <= j)%nat -> (at_ i <= at_ j)%nat) /\ forall i, nth_error (m :: tr) (at_ i) = Some (s i).

(** Histories of requests for space: the memory and the blocks handed out, the last one first. *)
Inductive allocs : list Z -> list (Z * Z) -> Prop :=
| allocs_start m a : pool m a -> allocs m []
| allocs_block m B n x m' : allocs m B -> allocate m n = Ok (Some x, m') -> allocs m' ((x, n) :: B)
| allocs_block8 m B n x m' : allocs m B -> allocate8 m n = Ok (Some x, m') -> allocs m' ((x, n) :: B)
| allocs_element m B disk ty n k x m' : allocs m B -> new_element disk m ty n = Ok (Some x, m') -> XBT_Size2 ty n = Ok k -> allocs m' ((x, 24 + k) :: B)
| allocs_no_block m B n m' : allocs m B -> allocate m n = Ok (None, m') -> allocs m' B
| allocs_no_block8 m B n m' : allocs m B -> allocate8 m n = Ok (None, m') -> allocs m' B
| allocs_no_element m B disk ty n m' : allocs m B -> new_element disk m ty n = Ok (None, m') -> allocs m' B
| allocs_space m B disk n ok m' : allocs m B -> makeSpace disk m n = Ok (ok, m') -> allocs m' B
| allocs_write m B x n q bs m' : allocs m B -> In (x, n) B -> x <= q -> q + zlen bs <= x + n -> wr m q bs = Ok m' -> allocs m' B.
Definition apart (b c : Z * Z) : Prop := fst b + snd b <= fst c \/ fst c + snd c <= fst b.
