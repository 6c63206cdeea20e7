(** Model of text helpers in src/utils.cpp and of the file names chosen in src/bin_xml_packer.cpp. *)
From Verif Require Import Base.

(** ** Masks, src/utils.cpp:730-759 *)

Definition STAR : Z := 42.
Definition QUESTION : Z := 63.

(** src/utils.cpp:745 *)
Fixpoint skip_wild (mask : list Z) : list Z :=
  match mask with c :: r => if (c =? STAR) || (c =? QUESTION) then skip_wild r else mask | [] => [] end.

(** The texts are given up to their NUL, so the end of the list is the NUL. *)
Fixpoint AdvEqual_ (mask value : list Z) {struct value} : bool :=
  match mask, value with
  | [], [] => true
  | [], _ :: _ => false
  | _ :: _, [] => false
  | m :: mask', v :: value' =>
      if (m =? v) || (m =? QUESTION) then AdvEqual_ mask' value'
      else if (m =? STAR) && (match mask' with [] => true | _ => false end) then true
      else if m =? STAR then
        let mask1 := skip_wild mask' in
        (fix find (value : list Z) : bool :=
           match value with
           | [] => match mask1 with [] => true | _ => false end (* the loop ends, line 758 *)
           | v :: value' => if (cur mask1 =? v) && AdvEqual_ (tl mask1) value' then true else find value'
           end) value
      else false
  end.
(** A null mask matches all, src/utils.cpp:732 *)
Definition AdvEqual (mask : option (list Z)) (value : list Z) : bool :=
  match mask with None => true | Some m => AdvEqual_ m value end.

(** ** Identifiers, src/utils.cpp:1103-1168 *)

Definition toupper (c : Z) : Z := if is_lower c then c - 32 else c.
Definition has_char (c : Z) (s : list Z) : bool := existsb (Z.eqb c) s.
(** strstr(style,"U!") != nullptr *)
Fixpoint has_pair (a b : Z) (s : list Z) : bool :=
  match s with x :: r => ((x =? a) && (cur r =? b) && (negb (b =? 0))) || has_pair a b r | [] => false end.

Fixpoint skip_dashes (p : list Z) : list Z :=
  match p with c :: r => if is_space c || (c =? ch "-") then skip_dashes r else p | [] => [] end.

(** The loop, src/utils.cpp:1123-1152; [out] is the buffer up to [d], so [len] is its length. *)
Fixpoint ident_loop (fuel : nat) (underscore uppercase all : bool) (need : bool) (src out : list Z) : option (list Z) :=
  match fuel with
  | O => None
  | S k =>
      if negb (zlen out <? 64 - 1) then Some out
      else
        match src with
        | [] => Some out
        | c :: r =>
            if is_lower c || is_upper c || ((0 <? zlen out) && is_digit c) || (c =? ch "_") then
              if need || all then ident_loop k underscore uppercase all false r (out ++ [toupper c])
              else ident_loop k underscore uppercase all need r (out ++ [c])
            else if is_space c || (c =? ch "-") then
              if underscore || (c =? ch "-") then ident_loop k underscore uppercase all need (skip_dashes src) (out ++ [ch "_"])
              else if uppercase then ident_loop k underscore uppercase all true (skip_dashes src) out
              else ident_loop k underscore uppercase all need (skip_dashes src) out
            else ident_loop k underscore uppercase all need r out
        end
  end.

(** What MakeIdent leaves in its 64 byte buffer before the NUL. *)
Definition MakeIdent (src style : list Z) : option (list Z) :=
  let '(src, out) := match src with c :: r => if is_digit c then (r, [ch "_"; c]) else (src, []) | [] => (src, []) end in
  ident_loop (S (List.length src)) (has_char (ch "_") style) (has_char (ch "U") style) (has_pair (ch "U") (ch "!") style)
    (has_char (ch "U") style) src out.

(** src/utils.cpp:1157-1168 *)
Fixpoint ident_rest (p : list Z) : Z :=
  match p with c :: r => if is_alnum c || (c =? ch "_") then 1 + ident_rest r else 0 | [] => 0 end.
Definition GetIdentLen (p : list Z) : Z :=
  match p with c :: r => if negb (is_alpha c) && negb (c =? ch "_") then 0 else 1 + ident_rest r | [] => 0 end.

(** ** File names *)

Definition PATH_MAX : Z := 4096.
Definition DOT : Z := 46.
Definition SLASH : Z := 47.

(** strrchr: the position of the last [c]. *)
Fixpoint strrchr (c : Z) (s : list Z) : option Z :=
  match s with
  | [] => None
  | x :: r => match strrchr c r with Some i => Some (i + 1) | None => if x =? c then Some 0 else None end
  end.

(** src/utils.cpp:216-217 *)
Fixpoint strip_dots (f : list Z) : list Z :=
  match f with
  | a :: (b :: r) as f' => if (a =? DOT) && (b =? SLASH) then strip_dots r else f
  | _ => f
  end.

(** src/utils.cpp:205-251; STRCPY is macros.h:86.  The copy behind an over-long directory gets a
    negative size: undefined. *)
Definition AllocFilenameChangeExt (filename : list Z) (extension target_dir : option (list Z)) : outcome (list Z) :=
  let filename := strip_dots filename in
  obind (match target_dir with
         | Some dir =>
             let filename := match filename with c :: r => if c =? SLASH then r else filename | [] => [] end in
             let dir := ztake (PATH_MAX - 1) dir in
             let len := zlen dir + 1 in
             if PATH_MAX - len - 1 <? 0 then Ub else Ok (dir ++ [SLASH] ++ ztake (PATH_MAX - len - 1) filename)
         | None => Ok (ztake (PATH_MAX - 1) filename)
         end) (fun filepath =>
  match extension with
  | None => Ok filepath
  | Some ext =>
      let len := match strrchr DOT filepath with Some i => i | None => zlen filepath end in
      Ok (ztake len filepath ++ ext)
  end).

(** Which file the creator writes: src/bin_xml_creator.cpp:265-268 *)
Definition xb_written (dst : list Z) : outcome (list Z) := AllocFilenameChangeExt dst (Some (lit ".xb")) None.

Definition same_text (a b : list Z) : bool := if list_eq_dec Z.eq_dec a b then true else false.

(** The name Bin_xml_packer::GetXB reports, src/bin_xml_packer.cpp:350-373 *)
Definition GetXB_name (xml_filename : list Z) : outcome (list Z) :=
  match strrchr DOT xml_filename with
  | None => Fail
  | Some i =>
      let dot := zskip i xml_filename in
      let finish len :=
        let xb := ztake (len - 1) xml_filename in Ok (ztake (len - 2) xb ++ [98]) in
      if same_text dot (lit ".wsdl") then finish (zlen xml_filename - 1)
      else if negb (same_text dot (lit ".xml")) && negb (same_text dot (lit ".xsd")) then Fail
      else finish (zlen xml_filename)
  end.

(** ** Fields, src/utils.cpp:675-706 *)

(** The copy of one field: characters until [stop]; at most value_size - 1 are stored. *)
Fixpoint field (stop : Z -> bool) (p : list Z) (value_size : Z) (d : list Z) : list Z * list Z :=
  match p with
  | [] => (p, d)
  | c :: r => if stop c then (p, d) else if 1 <? value_size then field stop r (value_size - 1) (d ++ [c]) else field stop r value_size d
  end.
(** Result: the rest of the text, what was stored before the NUL, the returned flag. *)
Definition ScanStr (p : list Z) (separator : Z) (value_size : Z) : list Z * list Z * bool :=
  let p := skip_spaces p in
  if separator =? 32 then
    let '(p, d) := field is_space p value_size [] in
    (match p with [] => [] | _ :: r => r end, d, negb (zlen d =? 0))
  else
    let '(p, d) := field (Z.eqb separator) p value_size [] in
    (match p with c :: r => if c =? separator then r else p | [] => [] end, d, negb (zlen d =? 0)).

(** src/utils.cpp:253-262 *)
Definition EatEnd (p end_ : list Z) : option (list Z) :=
  if zlen p <? zlen end_ then None
  else if negb (same_text (zskip (zlen p - zlen end_) p) end_) then None
  else Some (ztake (zlen p - zlen end_) p).

(** src/utils.cpp:708-728 *)
Fixpoint SkipLine (p : list Z) : option (list Z) :=
  match p with [] => None | c :: r => if c =? 10 then Some r else SkipLine r end.
Fixpoint Go (p : list Z) (separator : Z) : option (list Z) :=
  match p with [] => None | c :: r => if c =? separator then Some r else Go r separator end.
