(** Printing an element as XML: XML_Item::write, src/bin_xml.cpp:524-592, and the stream operator of the reader,
    src/bin_xml.cpp:866-873.  The stream is the list of the bytes written.  Left out: the trace that goes to the error
    stream when the reader's verbosity is set (527-531). *)
From Verif Require Import Base Types Sort Xb.

(** src/bin_xml.cpp:533: TAB *)
Definition tabs (deep : Z) : list Z := zrepeat 9 deep.

(** src/bin_xml.cpp:541-547, 571-577: ask for the next chunk until there is none; [os << buffer] shows what stands before the
    first NUL in the buffer, not the [len] bytes that were announced.  The buffer of 4097 bytes is not initialised: [dst] are its
    contents, whatever they are. *)
Fixpoint print_chunks (get : Z -> list Z -> outcome chunk) (steps : nat) (offset : Z) (dst : list Z) : run (list Z) :=
  match steps with
  | O => None
  | S k => rbind (Some (get offset dst)) (fun c => if ck_ret c =? 0 then rret [] else rbind (print_chunks get k (ck_offset c) (ck_dst c)) (fun r => rret (cstr (ck_dst c) ++ r)))
  end.

(** src/bin_xml.cpp:535-554: the attributes [i], [i + 1], ..., each with a new buffer of the same unknown contents (a
    simplification: they may differ). *)
Fixpoint write_params (n steps : nat) fl m (R : reader) x i buf : run (list Z) :=
  match n with
  | O => rret []
  | S k =>
      rbind (Some (getParamByIndex m (Some x) i)) (fun q =>
      match q with
      | None => rub
      | Some p =>
          rbind (Some (obind (pd_name m p) (fun id => getSymbol m (rd_params R) id))) (fun name =>
          rbind (print_chunks (param_getStringChunk fl m q (Some x)) steps 0 buf) (fun v =>
          rbind (write_params k steps fl m R x (i + 1) buf) (fun r => rret ([32] ++ name ++ [61; 34] ++ v ++ [34] ++ r))))
      end)
  end.

(** src/bin_xml.cpp:524-592.  [fuel] bounds the depth, [steps] the rounds of each loop over children or chunks. *)
Fixpoint write (fuel steps : nat) fl m (R : reader) x deep buf : run (list Z) :=
  match fuel with
  | O => None
  | S k =>
      rbind (Some (obind (it_name m x) (fun id => getSymbol m (rd_tags R) id))) (fun name =>
      rbind (Some (it_paramcount m x)) (fun pc => rbind (Some (it_childcount m x)) (fun cc =>
      rbind (write_params (Z.to_nat pc) steps fl m R x 0 buf) (fun attrs =>
      if 0 <? cc then
        rbind ((fix children (n : nat) (i : Z) : run (list Z) :=
          match n with
          | O => None
          | S n' =>
              rbind (Some (getNextChild m (Some x) i)) (fun '(c, i) =>
              match c with
              | None => rret []
              | Some y => rbind (write k steps fl m R y (deep + 1) buf) (fun s => rbind (children n' i) (fun r => rret (s ++ r)))
              end)
          end) steps 0) (fun kids =>
        rbind (print_chunks (getStringChunk fl m (Some x)) steps 0 buf) (fun v =>
        rret (tabs deep ++ [60] ++ name ++ attrs ++ [62; 10] ++ kids ++ tabs deep ++ v ++ [10] ++ tabs deep ++ [60; 47] ++ name ++ [62; 10])))
      else
        rbind (Some (getStringChunk fl m (Some x) 0 buf)) (fun c =>
        if ck_ret c =? 0 then rret (tabs deep ++ [60] ++ name ++ attrs ++ [47; 62; 10])
        else rbind (print_chunks (getStringChunk fl m (Some x)) steps (ck_offset c) (ck_dst c)) (fun r =>
             rret (tabs deep ++ [60] ++ name ++ attrs ++ [62] ++ cstr (ck_dst c) ++ r ++ [60; 47] ++ name ++ [62; 10])))))))
  end.

(** operator<<, src/bin_xml.cpp:866-873: the first child of the payload (nothing if there is none, line 526). *)
Definition print_document (fuel steps : nat) fl m (R : reader) buf : run (list Z) :=
  match rd_root R with
  | None => rret []
  | Some x => write fuel steps fl m R x 0 buf
  end.
