(** Model of the symbol tables of the converter, src/bin_xml_creator.cpp:1150-1283, and of the binary
    search the reader shares with it. *)
From Verif Require Import Base Types Sort.

(** The search loop of FindOrAddTyped, FindOrAdd, Find (src/bin_xml_creator.cpp:1155-1172, 1205-1226,
    1260-1271) and getID (src/bin_xml.cpp:701-715): [cmp i] compares the sought name with name [i].
    [inl]: found there; [inr]: not found, E + 1 when the loop ends. *)
Fixpoint search (fuel : nat) (cmp : Z -> outcome Z) (B E : Z) : run (Z + Z) :=
  match fuel with
  | O => None
  | S k =>
      if B <=? E then
        let M := Z.shiftr (B + E) 1 in
        rbind (Some (cmp M)) (fun c =>
        if c =? 0 then rret (inl M) else if c <? 0 then search k cmp B (M - 1) else search k cmp (M + 1) E)
      else rret (inr (E + 1))
  end.

(** A table: names (up to their NUL) and types; symbol_count is its length. *)
Definition table := list (list Z * Z).
Definition name_at (t : table) (i : Z) : outcome (list Z) :=
  if i <? 0 then Ub else match nth_error t (Z.to_nat i) with Some (n, _) => Ok n | None => Ub end.
Definition cmp_at (symbol : list Z) (t : table) (i : Z) : outcome Z := obind (name_at t i) (fun n => Ok (memcmp symbol n)).
Definition set_type (t : table) (i : Z) (f : Z -> Z) : table :=
  match nth_error t (Z.to_nat i) with Some (n, ty) => ztake i t ++ [(n, f ty)] ++ zskip (i + 1) t | None => t end.

(** include/binary_xml/bin_xml_creator.h: MAX_SYMBOL_COUNT *)
Definition MAX_SYMBOL_COUNT : Z := 32768.

(** Find the name or insert it at its place: the common part of src/bin_xml_creator.cpp:1150-1198 and
    1200-1252; [join] acts on the type of a name already there, [first] is the type of a new one.
    Result: the index (or -1) and the table. *)
Definition find_or_add (symbol : option (list Z)) (t : table) (first : Z) (join : Z -> Z) : run (Z * table) :=
  match symbol with
  | None => rret (-1, t)
  | Some s =>
      rbind (search (S (List.length t)) (cmp_at s t) 0 (zlen t - 1)) (fun r =>
      match r with
      | inl M => rret (M, set_type t M join)
      | inr P =>
          if MAX_SYMBOL_COUNT <=? zlen t then rret (-1, t)
          else if (P <? 0) || (zlen t <? P) then Some Fail (* assert, line 1181 / 1235 *)
          else rret (P, ztake P t ++ [(s, first)] ++ zskip P t)
      end)
  end.

Definition FindOrAddTyped (symbol : option (list Z)) (t : table) (type : Z) : run (Z * table) :=
  find_or_add symbol t type (fun ty => XBT_JoinTypes type ty).
Definition FindOrAdd (symbol : option (list Z)) (t : table) (value : list Z) : run (Z * table) :=
  find_or_add symbol t (XBT_Detect value) (fun ty => XBT_Detect2 value ty).

Definition XTNR_ET_TECERA : Z := -9.
(** src/bin_xml_creator.cpp:1254-1273 *)
Definition Find (symbol : option (list Z)) (t : table) : run Z :=
  match symbol with
  | None => rret (-1)
  | Some s =>
      if memcmp s (lit "et-tecera") =? 0 then rret XTNR_ET_TECERA
      else rbind (search (S (List.length t)) (cmp_at s t) 0 (zlen t - 1)) (fun r => rret (match r with inl M => M | inr _ => -1 end))
  end.

(** A sequence of registrations (name, value), as MakeSymbolTable's events make them. *)
Fixpoint register (t : table) (l : list (list Z * list Z)) : run table :=
  match l with
  | [] => rret t
  | (n, v) :: r => rbind (FindOrAdd (Some n) t v) (fun '(_, t') => register t' r)
  end.
