(** Model of the packer, src/bin_xml_packer.cpp: equal subtrees are stored once. *)
From Verif Require Import Base Types Sort Sha1 Symtab Xb XbWrite DocSpec.

(** include/binary_xml/bin_xml.h: codes the packer gives to nodes temporarily. *)
Definition XTNR_REFERENCE := -7.
Definition XTNR_PROCESSED := -8.

(** memcmp on blocks of equal length. *)
Fixpoint memcmp (a b : list Z) : Z :=
  match a, b with
  | [], [] => 0
  | [], _ => -1
  | _, [] => 1
  | x :: a', y :: b' => if x =? y then memcmp a' b' else x - y
  end.

(** src/bin_xml_packer.cpp:45-59 (_SortingNodes::compare).  The indices are in range (checked there by assertions). *)
Definition node_compare (links : list Z) (hashes : list (list Z)) (A B : Z) : Z :=
  let R := memcmp (nth (Z.to_nat A) hashes []) (nth (Z.to_nat B) hashes []) in
  if negb (R =? 0) then R
  else let a := znth links A in let b := znth links B in
  if a <? b then -1 else if b <? a then 1 else 0.

(** src/bin_xml_packer.cpp:138-149: the links of the [n] children of the node at [rel]; the pointers begin at [p]. *)
Fixpoint child_links (n : nat) data rel p : outcome (list Z) :=
  match n with
  | O => Ok []
  | S k =>
      obind (rd_s32 data p) (fun c =>
      if c <=? 0 then Ub (* assert(children[ch] > 0) *)
      else obind (child_links k data rel (p + 4)) (fun l => Ok (rel + c :: l)))
  end.

(** src/bin_xml_packer.cpp:117-156: the flat loop.  [links] are the filled ones, [done] counts the computed hashes; the arrays
    have [total] places, a store behind them is [Ub].  [W] is what the stack holds where SHA1 keeps its block. *)
Fixpoint fill_links (fuel : nat) W data total (links : list Z) (done : Z) (hashes : list (list Z)) : run (list Z * list (list Z)) :=
  match fuel with
  | O => None
  | S k =>
      if done <? zlen links then
        let my_rel := znth links done in
        rbind (Some (it_childcount data my_rel)) (fun cc =>
        rbind (Some (if 0 <? cc then obind (children_pos data my_rel) (fun p => child_links (Z.to_nat cc) data my_rel p) else Ok [])) (fun l =>
        if total <? zlen (links ++ l) then Some Ub else
        rbind (Some (it_length data my_rel)) (fun len => rbind (Some (rd data my_rel len)) (fun bs =>
        match SHA1 W bs with
        | None => None
        | Some h => fill_links k W data total (links ++ l) (done + 1) (hashes ++ [h ++ [0; 0; 0; 0]])
        end))))
      else rret (links, hashes)
  end.

(** src/bin_xml_packer.cpp:200-238: the nodes in the order of the index; [first] is the first one with the current hash. *)
Fixpoint mark links (hashes : list (list Z)) (first : Z) (index : list Z) data : outcome (list Z) :=
  match index with
  | [] => Ok data
  | i :: r =>
      if memcmp (nth (Z.to_nat i) hashes []) (nth (Z.to_nat first) hashes []) =? 0 then
        let actual := znth links i in
        let reference := znth links first - actual in
        obind (wr data actual (le 2 XTNR_REFERENCE)) (fun data =>
        obind (wr data (actual + 4) (le 4 reference)) (fun data =>
        if 0 <=? reference then Ub (* assert(R->reference < 0) *) else mark links hashes first r data))
      else mark links hashes i r data
  end.

(** src/bin_xml_packer.cpp:102-243.  Places of the arrays that are not filled hold zeros. *)
Definition MarkReferences W (total : Z) (scratch : list Z) data : run (list Z) :=
  rbind (fill_links (S (Z.to_nat total)) W data total [0] 0 []) (fun '(links, hashes) =>
  let links := links ++ zrepeat 0 (total - zlen links) in
  let hashes := hashes ++ repeat (zrepeat 0 24) (Z.to_nat total - List.length hashes) in
  let index := map Z.of_nat (seq 0 (Z.to_nat total)) in
  rbind (mergesort_r2 (node_compare links hashes) index scratch 4) (fun index =>
  match index with
  | [] => Some Ub
  | first :: r => Some (mark links hashes first r data)
  end)).

(** src/bin_xml_packer.cpp:245-310.  [wp] and the result are offsets in [data2], [x] is an offset in [data].  The number
    of children is read once (nobody changes it before the end of the loop). *)
Fixpoint PackNode (fuel : nat) data data2 wp x : run (list Z * list Z * Z * Z) :=
  match fuel with
  | O => None
  | S k =>
      let y := align_up 4 wp in
      rbind (Some (it_name data x)) (fun name =>
      if name =? XTNR_PROCESSED then Some Ub (* assert *)
      else if name =? XTNR_REFERENCE then
        rbind (Some (rd_s32 data (x + 4))) (fun ref =>
        rbind (Some (it_name data (x + ref))) (fun name2 =>
        if negb (name2 =? XTNR_PROCESSED) then Some Ub (* assert *)
        else rbind (Some (rd_s32 data (x + ref + 4))) (fun ref2 => rret (data, data2, y, ref2))))
      else
        rbind (Some (it_length data x)) (fun len => rbind (Some (rd data x len)) (fun bs => rbind (Some (wr data2 y bs)) (fun data2 =>
        rbind (Some (it_childcount data x)) (fun cc => rbind (Some (it_paramcount data x)) (fun pc =>
        rbind (if 0 <? cc then
          let p := 12 + 8 * pc in
          rbind (Some (rd_s32 data (x + p))) (fun first =>
          (fix children (n : nat) (p : Z) data data2 wp : run (list Z * list Z * Z) :=
             match n with
             | O => rret (data, data2, wp)
             | S n' =>
                 rbind (Some (rd_s32 data (x + p))) (fun c =>
                 rbind (PackNode k data data2 wp (x + c)) (fun '(data, data2, wp, y') =>
                 rbind (Some (wr data2 (y + p) (le 4 (y' - y)))) (fun data2 =>
                 if negb ((y' - y) mod 4 =? 0) then Some Ub (* assert *) else children n' (p + 4) data data2 wp)))
             end) (Z.to_nat cc) p data data2 (y + first))
        else rret (data, data2, y + len)) (fun '(data, data2, wp) =>
        rbind (Some (wr data x (le 2 XTNR_PROCESSED))) (fun data => rbind (Some (wr data (x + 4) (le 4 y))) (fun data =>
        rbind (Some (wr data2 (y + 8) (le 4 (wp - y)))) (fun data2 => rret (data, data2, wp, y))))))))))
        )
  end.

(** src/bin_xml_packer.cpp:87-101; [data2] is what new char[dst_file_size] delivers. *)
Definition Pack W total scratch (depth : nat) data data2 : run (list Z * Z) :=
  rbind (MarkReferences W total scratch data) (fun data =>
  rbind (PackNode depth data data2 0 0) (fun '(data, data2, _, y) =>
  rbind (Some (it_length data2 y)) (fun size => rbind (Some (rd data2 0 size)) (fun bs =>
  rbind (Some (wr data 0 bs)) (fun data => rret (data, size)))))).

(** Make_xb of the packer, src/bin_xml_creator.cpp:371-443: as in the plain converter, but Pack is the one above.  [heap] is the
    memory of data2 (its first AA(length) bytes are used), [scratch] and [W] are places on the stack. *)
Definition Make_packed W scratch heap (depth : nat) fl m filename modified root : run (list Z) :=
  rbind (MakeSymbolTable root) (fun cr =>
  rbind (Some (FillData fl cr m filename modified root)) (fun '(m, size) =>
  let dst_file_size := align_up 4 size in
  if zlen m <? dst_file_size then Some Ub else
  if zlen heap <? dst_file_size then Some Fail else
  rbind (Pack W (4 + zlen (elements root)) scratch depth m (ztake dst_file_size heap)) (fun '(m, size) =>
  rret (ztake (align_up 4 size) m)))).
