(** Model of the walks through a pool, of its data size and of the check of its types, src/bin_write_plugin.cpp. *)
From Verif Require Import Base Types Sort Xb XbWrite Bw BwSym BwSource.

(** ForAllChildrenRecursively, 2833-2847: the elements handed to the event, with their depths; the event does not write.  [lists] bounds the
    lists, [fuel] the depth.  A depth that does not fit into an int is left out. *)
Fixpoint pool_walk (fuel lists : nat) m x deep : run (list (Z * Z)) :=
  match fuel with
  | O => None
  | S k => rbind (for_all lists (plugin_bwe m) m (x + 16)) (fun L => rbind (each (fun c => pool_walk k lists m c (deep + 1)) L) (fun l => rret ((x, deep) :: List.concat l)))
  end.
(** ForAllParams, 2849-2868: the attributes visited.  The name and the text handed to the event with each of them are left out. *)
Definition ForAllParams (fuel : nat) m x : run (list Z) :=
  rbind (Some (rd_s32 m (x + 20))) (fun first => rbind (Some (plugin_bwe m first)) (fun c => visit fuel (plugin_bwe m) m (x + 20) c)).
(** getDataSize, 2360-2364; the difference is computed without sign and converted to an int. *)
Definition getDataSize (fuel : nat) m : run (Z * list Z) :=
  rbind (getNamesSize fuel m TAGS) (fun '(ts, m) => rbind (getNamesSize fuel m PARAMS) (fun '(ps, m) => rbind (Some (p_allocator m)) (fun a => rret (s32 (a - HEADER - ts - ps), m)))).
(** What the walk of CheckAndUpdateTypes counts, 2975-2981 *)
Record stats := mkstats { bad_value_types : Z; loose_conversions : Z; unconvertable_values : Z; fail_count : Z }.
(** s_OnCheckTypes, 3010-3037: all of it is left out by the preprocessor; s_OnUpdateTypes, 3039-3042, is empty. *)
Definition s_OnCheckTypes (e : Z * Z) (s : stats) : stats := s.
Definition s_OnUpdateTypes (e : Z * Z) (s : stats) : stats := s.
(** CheckAndUpdateTypes, 2983-3008 *)
Definition CheckAndUpdateTypes (fuel lists : nat) m (loose : bool) : run bool :=
  rbind (Some (p_root m)) (fun r => rbind (if r =? 0 then rret [] else pool_walk fuel lists m r 0) (fun l =>
  let s := fold_left (fun s e => s_OnCheckTypes e s) l (mkstats 0 0 0 0) in
  if bad_value_types s =? 0 then rret true else if 0 <? unconvertable_values s then rret false else if negb loose && (0 <? loose_conversions s) then rret false else
  rret (fail_count (fold_left (fun s e => s_OnUpdateTypes e s) l s) =? 0))).
