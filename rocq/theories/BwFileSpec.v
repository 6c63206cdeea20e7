(** What is said about the file of a pool and about the registry of plugins. *)
From Verif Require Import Base Types Sort Xb XbWrite Bw BwFile BwReg.

(** A new plugin on the file [f], whatever size it asks for, opens it; [g] is the file then. *)
Definition opens_as f g : Prop := exists fuel, forall max, Initialize fuel true false max f = rret (true, g).
Definition never_opens f : Prop := forall fuel max, Initialize fuel true false max f = rret (false, f).
(** Nothing registered, no root, no element *)
Definition empty_pool m : Prop :=
  t_max_id m TAGS = Ok (-1) /\ t_max_id m PARAMS = Ok (-1) /\ t_names m TAGS = Ok 0 /\ t_names m PARAMS = Ok 0 /\ p_root m = Ok 0 /\ p_allocator m = Ok HEADER /\
  rd m HEADER (zlen m - HEADER) = Ok (zrepeat 0 (zlen m - HEADER)).
(** The root, the tables of names and all data are as they were. *)
Definition same_contents m m' : Prop :=
  p_root m' = p_root m /\ p_allocator m' = p_allocator m /\ zlen m <= zlen m' /\ forall q k, TAGS <= q -> 0 <= k -> q + k <= zlen m -> rd m' q k = rd m q k.
(** The names and the index of the table [t] are behind the header, if there are any. *)
Definition placed m t : Prop := exists n x, t_names m t = Ok n /\ t_index m t = Ok x /\ (n = 0 \/ HEADER <= n) /\ (x = 0 \/ HEADER <= x).

(** The plugins that stand after the calls: the last one is destroyed first; the 33rd is not taken. *)
Definition pointer (p : Z) : Prop := 0 < p < 18446744073709551616.
Inductive standing : list call -> list Z -> Prop :=
| standing_none : standing [] []
| standing_construct l s p : standing l s -> ~ In p s -> pointer p -> zlen s < 32 -> standing (l ++ [Construct p]) (s ++ [p])
| standing_refused l s p : standing l s -> ~ In p s -> pointer p -> zlen s = 32 -> standing (l ++ [Construct p]) s
| standing_destroy l s p : standing l (s ++ [p]) -> standing (l ++ [Destroy p]) s
| standing_destroy_refused l s p : standing l s -> ~ In p s -> standing (l ++ [Destroy p]) s.
