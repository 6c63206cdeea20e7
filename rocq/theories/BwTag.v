(** Model of making elements with values for an XBW pool, src/bin_write_plugin.cpp:2368-2602.

    Every function but tag() asks for the type of the element's name and refuses other types, makes room in the file, makes an element and stores the
    value behind it.  tagHexStr, tagUInt32, tagUInt64, tagDouble, tagIPv4 and tagIPv6 are not implemented: they return NULL before they do anything and are left out. *)
From Verif Require Import Base Types Sort Xb XbWrite Bw.

(** BW2_INITIAL_FILE_SIZE, include/binary_xml/bin_write_plugin.h:31 *)
Definition BW2_INITIAL_FILE_SIZE := 16384.
(** The common part: makeSpace for [extra] more bytes, new_element for [ty] and [size], init, and the value [bs] [off] bytes behind the begin. *)
Definition make disk m id ty extra size off bs : outcome (option Z * list Z) :=
  int_ (BW2_INITIAL_FILE_SIZE + extra) (fun n => obind (makeSpace disk m n) (fun '(ok, m) => if negb ok then Ok (None, m) else
  obind (fresh disk m id ty size ELEMENT) (fun '(x, m) => match x with
  | None => Ok (None, m)
  | Some x => obind (wr m (x + off) bs) (fun m => Ok (Some x, m))
  end))).
(** With the check of the type: [made] gives the type of the element for the type of the name, [None]: refused. *)
Definition tag_ disk m id (made : Z -> option Z) extra size off bs : outcome (option Z * list Z) :=
  obind (getTagType m id) (fun ty => match made ty with None => Ok (None, m) | Some t => make disk m id t extra size off bs end).
(** Types that are the only ones, or the ones that XBT_VARIANT stands for *)
Definition just t ty : option Z := if ty =? t then Some t else None.
Definition or_variant t ty : option Z := if (ty =? t) || (ty =? XBT_VARIANT) then Some t else None.

(** tag, 2368-2381 *)
Definition bw_tag disk m id := make disk m id XBT_NULL 0 0 24 [].
(** tagStr, 2383-2402; a null value is handed to strlen and is not modelled.  2 * value_len is computed in int. *)
Definition bw_tagStr disk m id (v : list Z) : outcome (option Z * list Z) :=
  obind (getTagType m id) (fun ty => match (if ty =? XBT_BLOB_STRING then Some ty else or_variant XBT_STRING ty) with
  | None => Ok (None, m)
  | Some t => int_ (zlen v * 2) (fun n => make disk m id t n (zlen v) (if t =? XBT_STRING then 24 else 28) (v ++ [0]))
  end).
(** tagBLOB, tagHEX, 2410-2448; a null pointer with a size: zeros *)
Definition bw_tagVar made disk m id (v : list Z + Z) :=
  let '(n, bs) := match v with inl v => (zlen v, v) | inr n => (n, zrepeat 0 n) end in tag_ disk m id made (n + 4) n 24 (le 4 n ++ bs).
Definition bw_tagBLOB := bw_tagVar (or_variant XBT_BLOB).
Definition bw_tagHEX := bw_tagVar (just XBT_HEX).
(** tagInt32, 2451-2465: for XBT_VARIANT an element of this type is asked for. *)
Definition bw_tagInt32 disk m id v := tag_ disk m id (fun ty => if XBT_IS_4 ty || (ty =? XBT_VARIANT) then Some ty else None) 4 0 24 (le 4 v).
(** tagInt64, 2473-2487; tagFloat, 2496-2510, for the four bytes of the number *)
Definition bw_tagInt64 disk m id v := tag_ disk m id (or_variant XBT_INT64) 8 0 24 (le 8 v).
Definition bw_tagFloat disk m id bits := tag_ disk m id (just XBT_FLOAT) 4 0 24 (le 4 bits).
(** tagGUID, 2518-2532, tagSHA1, 2534-2548: 16 and 20 bytes are copied from the memory behind the pointer.  They are read after the checks; a value that is
    too short is [Ub] here even if a check fails. *)
Definition bw_tagGUID disk m id value := obind (rd value 0 16) (fun bs => tag_ disk m id (just XBT_GUID) 4 0 24 bs).
Definition bw_tagSHA1 disk m id value := obind (rd value 0 20) (fun bs => tag_ disk m id (just XBT_SHA1) 4 0 24 bs).
(** tagTime, 2552-2566; tagTime64, 2568-2587 *)
Definition bw_tagTime disk m id v := tag_ disk m id (or_variant XBT_UNIX_TIME) 4 0 24 (le 4 v).
Definition bw_tagTime64 disk m id v := tag_ disk m id (or_variant XBT_UNIX_TIME64_MSEC) 8 0 24 (le 8 v).
