(** Appending elements to a converted document (src/bin_xml_creator.cpp). *)
From Verif Require Import Base Types Sort Xb XbWrite.

(** src/bin_xml_creator.cpp:497-532 (Bin_xml_creator::Append).  [data] is the buffer of the creator with whatever it
    holds, [file] the destination file; the result is the buffer and the bytes handed to the single call of write().
    The element is a source element as in WriteNode (the text branch).  Opening and fstat succeed.  The buffer comes from malloc, its
    address is a multiple of 16, so AA acts on offsets. *)
Definition append_bytes fl cr (data : list Z) (file : list Z) (t : node) : outcome (list Z * list Z) :=
  let file_align := zlen file mod 16 in
  obind (WriteNode fl cr data (align_up 4 file_align) t) (fun '(data, wp, _) =>
  Ok (data, slice data file_align (wp - file_align))).
(** The file is opened with O_APPEND: what is written goes to its end. *)
Definition Append fl cr (data : list Z) (file : list Z) (t : node) : outcome (list Z * list Z) :=
  obind (append_bytes fl cr data file t) (fun '(data, bs) => Ok (data, file ++ bs)).

(** One append after another with the same creator, src/bin_write_plugin.cpp:2286-2306 (the loop of BW_plugin::Write). *)
Fixpoint Appends fl cr (data : list Z) (file : list Z) (l : list node) : outcome (list Z * list Z) :=
  match l with
  | [] => Ok (data, file)
  | t :: r => obind (Append fl cr data file t) (fun '(data, file) => Appends fl cr data file r)
  end.
