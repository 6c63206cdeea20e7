(** Model of setting a child that is a SHA-1, src/bin_write_plugin.cpp:876-895. *)
From Verif Require Import Base Types Sort Xb XbWrite Bw.

(** BW_element::tagSetSHA1.  [value]: the memory behind the pointer, [None] for null.  The result of [add] is not looked at; a null pointer is handed to
    memcpy when there is no child yet (1778). *)
Definition tagSetSHA1 fuel disk m x id (value : option (list Z)) : run (option Z * list Z) :=
  rbind (tagGet fuel m x id) (fun t => Some (match t with
  | Some t => obind (el_type m t) (fun ty => if negb (ty =? XBT_SHA1) then Ok (None, m) else
      obind (match value with None => Ok (zrepeat 0 20) | Some v => rd v 0 20 end) (fun bs => obind (wr m (t + 24) bs) (fun m => Ok (Some t, m))))
  | None => match value with
      | Some v => obind (rd v 0 20) (fun bs => obind (pool_tagSHA1 disk m id bs) (add_new x))
      | None => obind (pool_tagSHA1 disk m id (zrepeat 0 20)) (fun '(n, m) => match n with None => add_new x (None, m) | Some _ => Ub end)
      end
  end)).
