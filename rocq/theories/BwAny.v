(** Model of making an element of any type from a text, src/bin_write_plugin.cpp:1782-1794. *)
From Verif Require Import Base Types Sort Xb XbWrite Bw.

(** BW_pool::tagAny: the caller gives the size of the data.  Simplification: when the conversion fails, what it has already stored in the new element is not modelled
    (ScanHex stores the digits it finds).  A null text is not modelled. *)
Definition tagAny fl disk m id ty (v : list Z) size : outcome (option Z * list Z) :=
  obind (fresh disk m id ty size ELEMENT) (fun '(x, m) => match x with
  | None => Ok (None, m)
  | Some x => match XBT_FromString fl v ty (x + 24) (x + 24 + size) with
      | Ok st => obind (wr m (st_pos st) (st_bytes st)) (fun m => Ok (Some x, m))
      | Fail => Ok (None, m)
      | Ub => Ub
      end
  end).
