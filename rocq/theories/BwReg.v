(** Model of the registry of open pools, BW_plugins, src/bin_write_plugin.cpp:38-49, 2936-2973.

    The array of 32 pointers is the list of its 256 bytes; a pointer is a number below 2^64, 0 is null. *)
From Verif Require Import Base Types Sort Xb XbWrite.

(** bin_write_plugin.h:42 *)
Definition MAX_BW_PLUGINS := 32.
Record registry := mkreg { rg_plugins : list Z; rg_count : Z }.
(** BW_plugins::BW_plugins, 2936-2940 *)
Definition new_registry : registry := mkreg (zrepeat 0 (8 * MAX_BW_PLUGINS)) 0.
Definition slot (r : registry) (i : Z) : outcome Z := obind (rd (rg_plugins r) (8 * i) 8) (fun b => Ok (unle b)).
(** registerPlugin, 2948-2954 *)
Definition registerPlugin (r : registry) (plugin : Z) : outcome (bool * registry) :=
  if plugin =? 0 then Ok (false, r) else
  if MAX_BW_PLUGINS <=? rg_count r then Ok (false, r) else
  obind (wr (rg_plugins r) (8 * rg_count r) (le 8 plugin)) (fun a => Ok (true, mkreg a (rg_count r + 1))).
(** unregisterPlugin, 2956-2965: the loop from [i] on; memmove is given the number of the pointers behind, as a number of bytes. *)
Fixpoint unregister_from (n : nat) (r : registry) (i plugin : Z) : outcome (bool * registry) :=
  match n with
  | O => Ok (false, r)
  | S k => obind (slot r i) (fun p => if p =? plugin then
        let count := rg_count r - 1 in
        obind (rd (rg_plugins r) (8 * (i + 1)) (count - i)) (fun b => obind (wr (rg_plugins r) (8 * i) b) (fun a => Ok (true, mkreg a count)))
      else unregister_from k r (i + 1) plugin)
  end.
Definition unregisterPlugin r plugin := unregister_from (Z.to_nat (rg_count r)) r 0 plugin.
(** getPlugin, 2967-2973.  [pool_of] tells the pool of a plugin that exists; calling getPool of something else is [Ub]. *)
Fixpoint plugin_from (n : nat) (pool_of : Z -> option Z) r i pool : outcome (option Z) :=
  match n with
  | O => Ok None
  | S k => obind (slot r i) (fun p => match pool_of p with
      | None => Ub
      | Some q => if q =? pool then Ok (Some p) else plugin_from k pool_of r (i + 1) pool
      end)
  end.
Definition getPlugin pool_of r pool := plugin_from (Z.to_nat (rg_count r)) pool_of r 0 pool.

(** The constructor of a plugin registers it, its destructor unregisters it, 1798-1820. *)
Inductive call := Construct (plugin : Z) | Destroy (plugin : Z).
Definition do_call r (c : call) : outcome registry :=
  match c with
  | Construct p => obind (registerPlugin r p) (fun '(_, r) => Ok r)
  | Destroy p => obind (unregisterPlugin r p) (fun '(_, r) => Ok r)
  end.
Fixpoint calls r (l : list call) : outcome registry :=
  match l with [] => Ok r | c :: l => obind (do_call r c) (fun r => calls r l) end.
