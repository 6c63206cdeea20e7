(** Model of importing the names of a document into a pool: importTags and importParams, src/bin_write_plugin.cpp.

    A document is its bytes and what the reader found in them; [None] is a null pointer.  Symbols of a document whose table could not be read
    are [Ub], as in Xb. *)
From Verif Require Import Base Types Sort Xb XbWrite Bw BwSym.

(** 2209-2210, 2219-2220 and 2225-2226, 2234-2235: names are registered without being searched for as long as there are none. *)
Definition set_fast m t : outcome (list Z) :=
  max_id <- t_max_id m t ;; f <- t_flags m t ;; wr m (t + 12) (le 4 (if max_id =? -1 then Z.lor f FAST_REG else Z.land f (4294967295 - FAST_REG))).
(** The loops, 2214-2217 and 2229-2232: [n] names from [i] on.  What registering returns is ignored. *)
Fixpoint register_all (n : nat) (fuel : nat) d sy m t i : run (list Z) :=
  match n with
  | O => rret m
  | S n => rbind (Some (getSymbol d sy i)) (fun name => rbind (Some (Xb.getType d sy i)) (fun type =>
      rbind (register fuel m t name type) (fun '(_, m) => register_all n fuel d sy m t (i + 1))))
  end.
Definition import (fuel : nat) (src : option (list Z * symbols)) m t : run (list Z) :=
  rbind (Some (set_fast m t)) (fun m => match src with
  | None => rret m
  | Some (d, sy) => rbind (register_all (Z.to_nat (sy_count sy)) fuel d sy m t 0) (fun m => Some (set_fast m t))
  end).
(** importTags, 2207-2221 *)
Definition importTags (fuel : nat) (src : option (list Z * reader)) m := import fuel (option_map (fun '(d, R) => (d, rd_tags R)) src) m TAGS.
(** importParams, 2223-2236 *)
Definition importParams (fuel : nat) (src : option (list Z * reader)) m := import fuel (option_map (fun '(d, R) => (d, rd_params R)) src) m PARAMS.
