(** Model of the traversals of an open document: XML_Item::ForAllChildrenRecursively and its variants, src/bin_xml.cpp:291-335.

    What the client's function is called with is collected in the order of the calls.  The function is taken not to change the document.  A null
    function ends the process (ASSERT_NO_EXIT_1) and is not modelled. *)
From Verif Require Import Base Types Sort Xb.

(** [this + getChildren()[i]], 297-298, 312-313, 330-331 *)
Definition kid_at m x i : outcome Z := obind (children_pos m x) (fun c => obind (rd_s32 m (c + 4 * i)) (fun r => Ok (x + r))).
(** The loop over the children; [f] does what is done for one of them.  childcount is read once. *)
Fixpoint each_kid {A} (n : nat) (i : Z) m x (f : Z -> run (list A)) : run (list A) :=
  match n with
  | O => rret []
  | S n => rbind (Some (kid_at m x i)) (fun y => rbind (f y) (fun l => rbind (each_kid n (i + 1) m x f) (fun r => rret (l ++ r))))
  end.
(** ForAllChildrenRecursively, 291-304: the items and their depths *)
Fixpoint visit (fuel : nat) m x deep : run (list (Z * Z)) :=
  match fuel with
  | O => None
  | S k => rbind (Some (it_childcount m x)) (fun n => each_kid (Z.to_nat n) 0 m x (fun y =>
      rbind (int_ok (deep + 1)) (fun d => rbind (visit k m y d) (fun l => rret ((y, deep) :: l)))))
  end.
Definition ForAllChildrenRecursively fuel m (x : option Z) deep := match x with None => rret [] | Some x => visit fuel m x deep end.
(** ForAllChildrenRecursively_PostOrder, 306-318 *)
Fixpoint visit_post (fuel : nat) m x deep : run (list (Z * Z)) :=
  match fuel with
  | O => None
  | S k => rbind (Some (it_childcount m x)) (fun n => each_kid (Z.to_nat n) 0 m x (fun y =>
      rbind (int_ok (deep + 1)) (fun d => rbind (visit_post k m y d) (fun l => rret (l ++ [(y, deep)])))))
  end.
Definition ForAllChildrenRecursively_PostOrder fuel m (x : option Z) deep := match x with None => rret [] | Some x => visit_post fuel m x deep end.

(** include/binary_xml/bin_xml.h:27 *)
Definition XML_MAX_DEEP := 1024.
(** 325-326; [None] is the null pointer *)
Definition note (root : option (list Z)) deep x : run (option (list Z)) :=
  match root with
  | None => rret None
  | Some R => if deep <? XML_MAX_DEEP then rbind (put R deep x) (fun R => rret (Some R)) else rret (Some R)
  end.
(** The loop, with the array *)
Fixpoint each_kid_a {A} (n : nat) (i : Z) m x (f : option (list Z) -> Z -> run (list A * option (list Z))) root : run (list A * option (list Z)) :=
  match n with
  | O => rret ([], root)
  | S n => rbind (Some (kid_at m x i)) (fun y => rbind (f root y) (fun '(l, root) => rbind (each_kid_a n (i + 1) m x f root) (fun '(r, root) => rret (l ++ r, root))))
  end.
(** ForAllChildrenRecursively_PostOrderA, 320-335: the items, their depths and the array at the time of the call; the array in the end *)
Fixpoint visit_post_a (fuel : nat) m x deep root : run (list (Z * Z * option (list Z)) * option (list Z)) :=
  match fuel with
  | O => None
  | S k => rbind (note root deep x) (fun root => rbind (Some (it_childcount m x)) (fun n => each_kid_a (Z.to_nat n) 0 m x (fun root y =>
      rbind (int_ok (deep + 1)) (fun d => rbind (visit_post_a k m y d root) (fun '(l, root) => rret (l ++ [(y, deep, root)], root)))) root))
  end.
Definition ForAllChildrenRecursively_PostOrderA fuel m (x : option Z) deep root := match x with None => rret ([], root) | Some x => visit_post_a fuel m x deep root end.
