(** The getters of numbers that return pointers, src/bin_xml.cpp:112-147, 423-474: where the pointer points to,
    and what is read through it later.  [Xb.param_getInt32], [Xb.param_getInt64], [Xb.getIntPtr] and
    [Xb.getInt64] give only the number behind the pointer at the time of the call. *)
From Verif Require Import Base Scan Types Xb.

(** The variables of the program the getters write: [s_int32_value] (112), [s_int64_value] (133), and the two
    static variables [p_result] of the getters of elements (443 and 470).  The variable of line 443 is
    initialised by the first call that comes there: [None] before that. *)
Record vars := mkvars { v_param32 : Z; v_param64 : Z; v_item32 : option Z; v_item64 : Z }.
(** src/bin_xml.cpp:112, 133, 443, 470; a static variable without initialiser is zero. *)
Definition vars0 := mkvars (-1) (-1) None 0.

(** What a returned pointer points to: a place of an opened file, or one of the variables. *)
Inductive ptr := InFile32 (m : list Z) (p : Z) | InFile64 (m : list Z) (p : Z) | ToParam32 | ToParam64 | ToItem32 | ToItem64.

(** One call: the file, the attribute and the element, or the element. *)
Inductive call :=
| ParamInt32Ptr (m : list Z) (q x : option Z) (int_type : Z)
| ParamInt64Ptr (m : list Z) (q x : option Z)
| ItemIntPtr (m : list Z) (x : option Z)
| ItemInt64Ptr (m : list Z) (x : option Z).

(** src/bin_xml.cpp:113-126 (and 128-131, with the type INT32) *)
Definition fetch_param32 m q x int_type st : outcome (option ptr * vars) :=
  match q, x with
  | Some q, Some x =>
      obind (pd_type m q) (fun ty =>
      if ty =? int_type then obind (pd_data m q) (fun _ => Ok (Some (InFile32 m (q + 4)), st))
      else if ty =? XBT_STRING then
        obind (pd_data m q) (fun d => obind (rd_str m (x + d)) (fun s =>
        Ok (Some ToParam32, mkvars (atoi s) (v_param64 st) (v_item32 st) (v_item64 st))))
      else Ok (None, st))
  | _, _ => Ok (None, st)
  end.

(** src/bin_xml.cpp:134-147; src/utils.cpp:318-334: a text that is no number leaves the variable alone. *)
Definition fetch_param64 m q x st : outcome (option ptr * vars) :=
  match q, x with
  | Some q, Some x =>
      obind (pd_type m q) (fun ty =>
      if ty =? XBT_INT64 then obind (rd m (q + 4) 8) (fun _ => Ok (Some (InFile64 m (q + 4)), st))
      else if ty =? XBT_STRING then
        obind (pd_data m q) (fun d => obind (rd_str m (x + d)) (fun s =>
        match ScanInt64 s with
        | Ok (v, _) => Ok (Some ToParam64, mkvars (v_param32 st) v (v_item32 st) (v_item64 st))
        | Fail => Ok (None, st)
        | Ub => Ub
        end))
      else Ok (None, st))
  | _, _ => Ok (None, st)
  end.

(** src/bin_xml.cpp:423-447 *)
Definition fetch_item32 m x st : outcome (option ptr * vars) :=
  match x with
  | None => Ok (None, st)
  | Some x => obind (value_type m x) (fun '(t, p) =>
      if t =? XBT_INT32 then obind (rd_s32 m (align_up 4 p)) (fun _ => Ok (Some (InFile32 m (align_up 4 p)), st))
      else if t =? XBT_STRING then
        match v_item32 st with
        | Some _ => Ok (Some ToItem32, st)
        | None => obind (rd_str m p) (fun s => Ok (Some ToItem32, mkvars (v_param32 st) (v_param64 st) (Some (atoi s)) (v_item64 st)))
        end
      else Ok (None, st))
  end.

(** src/bin_xml.cpp:449-474 *)
Definition fetch_item64 m x st : outcome (option ptr * vars) :=
  match x with
  | None => Ok (None, st)
  | Some x => obind (value_type m x) (fun '(t, p) =>
      if t =? XBT_INT64 then obind (rd m (align_up 8 p) 8) (fun _ => Ok (Some (InFile64 m (align_up 8 p)), st))
      else if t =? XBT_STRING then
        obind (rd_str m p) (fun s =>
        match ScanInt64 s with
        | Ok (v, _) => Ok (Some ToItem64, mkvars (v_param32 st) (v_param64 st) (v_item32 st) v)
        | Fail => Ok (None, st)
        | Ub => Ub
        end)
      else Ok (None, st))
  end.

(** The four getters above; the reads of a place in the file at the time of the call stand for the pointer
    being a place of the file. *)
Definition fetch st c : outcome (option ptr * vars) :=
  match c with
  | ParamInt32Ptr m q x ty => fetch_param32 m q x ty st
  | ParamInt64Ptr m q x => fetch_param64 m q x st
  | ItemIntPtr m x => fetch_item32 m x st
  | ItemInt64Ptr m x => fetch_item64 m x st
  end.

(** A program that makes these calls one after the other. *)
Fixpoint fetch_all st (cs : list call) : outcome vars :=
  match cs with
  | [] => Ok st
  | c :: cs => obind (fetch st c) (fun '(_, st) => fetch_all st cs)
  end.

(** [*p], the number read through a pointer.  An opened file is mapped for reading
    (src/bin_xml.cpp:787-799); that nobody else writes to it meanwhile is a simplification. *)
Definition deref st p : outcome Z :=
  match p with
  | InFile32 m p => rd_s32 m p
  | InFile64 m p => obind (rd m p 8) (fun b => Ok (s64 (unle b)))
  | ToParam32 => Ok (v_param32 st)
  | ToParam64 => Ok (v_param64 st)
  | ToItem32 => match v_item32 st with Some v => Ok v | None => Ub end
  | ToItem64 => Ok (v_item64 st)
  end.
