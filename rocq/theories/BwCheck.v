(** Model of the checks of a pool and of the name its messages give it, src/bin_write_plugin.cpp. *)
From Verif Require Import Base Types Sort Text Symtab Xb XbWrite XbBin Bw BwSym BwFile.

(** check_id, 1599-1602 *)
Definition check_id m : outcome bool := s <- rd_str m 4 ;; Ok (if list_eq_dec Z.eq_dec s TYPE_INFO then true else false).
(** The loop of checkTable, 1589-1595, over [n] entries from [i] on; the messages of failed checks are left out. *)
Fixpoint check_entries (n : nat) m index names i : outcome bool :=
  match n with
  | O => Ok true
  | S n => o <- rd_s32 m (index + 4 * i) ;; if o =? 0 then check_entries n m index names (i + 1) else
      if negb (names <=? o) then Ok false else if negb (o <? names) then Ok false else check_entries n m index names (i + 1)
  end.
(** checkTable, 1583-1597; its second parameter is not used. *)
Definition checkTable m t : outcome bool :=
  max_id <- t_max_id m t ;; if max_id <? 0 then Ok true else
  index <- t_index m t ;; if negb (HEADER <=? index) then Ok false else
  names <- t_names m t ;; check_entries (Z.to_nat (max_id + 1)) m index names 0.

(** What is known of the plugin of a pool: nothing, or its file name, which can be missing. *)
Definition plugin := option (option (list Z)).
(** The end of getDocTypeName, 1620-1627 *)
Definition plugin_name (pl : plugin) : list Z :=
  match pl with
  | None => lit "(no plugin for pool)"
  | Some None => lit "(no filename in plugin)"
  | Some (Some f) => match strrchr SLASH f with Some i => zskip (i + 1) f | None => f end
  end.
(** getDocTypeName, 1604-1628, and as much of tags.getName, 1295-1307, as concerns its check of the id.  A check that fails, ASSERT_NO_
    (include/binary_xml/macros.h:61-66), prints WORK_ID first, and WORK_ID is getDocTypeName() in both functions (1231, 1455): the
    function calls itself.  [calls] bounds these calls, [fuel] the names.  getPoolSize (include/binary_xml/bin_write_plugin.h:122) is the
    size of the header for every version of the format. *)
Fixpoint getDocTypeName (calls fuel : nat) m (pl : plugin) : run (list Z) :=
  match calls with
  | O => None
  | S calls => rbind (Some (p_root m)) (fun root => rbind (Some (p_allocator m)) (fun allocator =>
      if negb ((HEADER <? root) && (root <? allocator)) then rret (plugin_name pl) else
      rbind (Some (el_flags m root)) (fun f =>
      if negb (is_element f) then rbind (getDocTypeName calls fuel m pl) (fun _ => rret (lit "(bad root flags)")) else
      rbind (Some (el_id m root)) (fun id => if id <? 0 then rret (XTNR2str id) else
      rbind (Some (t_max_id m TAGS)) (fun max_id =>
      if max_id <? id then rbind (getDocTypeName calls fuel m pl) (fun _ => rret (plugin_name pl)) else
      rbind (getName fuel m TAGS id) (fun n => match n with Some n => rret n | None => rret (plugin_name pl) end))))))
  end.
