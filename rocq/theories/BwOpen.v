(** Model of the registrations by id in a file that was opened again, src/bin_write_plugin.cpp:2005-2098: CheckExistingFile, 1966-1967, has
    set check_only, so they only compare. *)
From Verif Require Import Base Types Sort Xb XbWrite Bw BwSym BwSource.

(** registerTag(id), 2009-2023, and registerAttr, 2057-2072, with check_only.  Of what LOG_ERROR prints only the access to
    XML_BINARY_TYPE_NAMES, which has XBT_LAST+1 elements, is modelled. *)
Definition register_checked m t id name type : outcome bool :=
  if negb ((XBT_NULL <=? type) && (type <? XBT_LAST)) then Ok false else
  max_id <- t_max_id m t ;; nm <- (if t =? TAGS then getTagName m id else getAttrName m id) ;; ty <- (if t =? TAGS then getTagType m id else getAttrType m id) ;;
  if (0 <=? id) && (id <=? max_id) && match nm with Some s => if list_eq_dec Z.eq_dec name s then true else false | None => false end && (ty =? type) then Ok true
  else if XBT_LAST <? ty then Ub else Ok false.
(** A program registers its names; the value is check_failures.  A type that is none is refused before, 2010 and 2059, and not counted. *)
Fixpoint register_program m (l : list (Z * Z * list Z * Z)) failures : outcome Z :=
  match l with
  | [] => Ok failures
  | (t, id, name, type) :: l => ok <- register_checked m t id name type ;;
      register_program m l (if ok || negb ((XBT_NULL <=? type) && (type <? XBT_LAST)) then failures else failures + 1)
  end.
