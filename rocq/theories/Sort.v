(** Model of the sorting functions, src/missings.cpp:17-110.
    An array of [nmemb] elements of [size] bytes is a list of elements; an access outside of it is
    [Ub], and so is an [int] overflow of an index or offset.  [None] = out of fuel. *)
From Verif Require Import Base.

Definition run (A : Type) := option (outcome A).
Definition rret {A} (x : A) : run A := Some (Ok x).
Definition rub {A} : run A := Some Ub.
Definition rbind {A B} (m : run A) (f : A -> run B) : run B :=
  match m with
  | None => None
  | Some Ub => Some Ub
  | Some Fail => Some Fail
  | Some (Ok x) => f x
  end.

(** Element [i] of an array; elements [i] and [j] overwritten. *)
Definition at_ {T} (l : list T) (i : Z) : run T :=
  if i <? 0 then rub else match nth_error l (Z.to_nat i) with Some x => rret x | None => rub end.
Definition put {T} (l : list T) (i : Z) (x : T) : run (list T) :=
  if (i <? 0) || (zlen l <=? i) then rub else rret (ztake i l ++ [x] ++ zskip (i + 1) l).
Definition int_ok (x : Z) : run Z := if int32b x then rret x else rub.

Section SORT.
Context {T : Type} (cmp : T -> T -> Z).

(** src/missings.cpp:70-99: the runs [A, AE) and [B, BE) of [src] are merged into [dst] at [D]. *)
Fixpoint merge_loop (fuel : nat) (src dst : list T) (A AE B BE D : Z) : run (list T * Z) :=
  match fuel with
  | O => None
  | S k =>
      if A <? AE then
        if B <? BE then
          rbind (at_ src A) (fun a => rbind (at_ src B) (fun b =>
          if cmp a b <=? 0
          then rbind (put dst D a) (fun dst' => merge_loop k src dst' (A + 1) AE B BE (D + 1))
          else rbind (put dst D b) (fun dst' => merge_loop k src dst' A AE (B + 1) BE (D + 1))))
        else rbind (at_ src A) (fun a => rbind (put dst D a) (fun dst' => merge_loop k src dst' (A + 1) AE B BE (D + 1)))
      else if B <? BE then
        rbind (at_ src B) (fun b => rbind (put dst D b) (fun dst' => merge_loop k src dst' A AE (B + 1) BE (D + 1)))
      else rret (dst, D)
  end.

(** src/missings.cpp:60-100: one pass over all pairs of runs. *)
Fixpoint pass_loop (fuel : nat) (nmemb merge_len : Z) (src dst : list T) (D start_idx : Z) : run (list T) :=
  match fuel with
  | O => None
  | S k =>
      if start_idx <? nmemb then
        let A := start_idx in
        rbind (int_ok (A + merge_len)) (fun ae0 =>
        let AE := if nmemb <? ae0 then nmemb else ae0 in
        let B := AE in
        rbind (int_ok (B + merge_len)) (fun be0 =>
        let BE := if nmemb <? be0 then nmemb else be0 in
        rbind (merge_loop (S (List.length src)) src dst A AE B BE D) (fun '(dst', D') =>
        rbind (int_ok (merge_len * 2)) (fun step =>
        rbind (int_ok (start_idx + step)) (fun next =>
        pass_loop k nmemb merge_len src dst' D' next)))))
      else rret dst
  end.

(** src/missings.cpp:57-105: the passes; [src_is_base] tells which buffer is the caller's. *)
Fixpoint passes (fuel : nat) (nmemb merge_len : Z) (src dst : list T) (src_is_base : bool) : run (list T * list T * bool) :=
  match fuel with
  | O => None
  | S k =>
      if merge_len <? nmemb then
        rbind (pass_loop (S (List.length src)) nmemb merge_len src dst 0 0) (fun dst' =>
        rbind (int_ok (merge_len * 2)) (fun len' =>
        passes k nmemb len' dst' src (negb src_is_base)))
      else rret (src, dst, src_is_base)
  end.

(** src/missings.cpp:49-110: the contents of [base] afterwards.  [scratch] is what the stack buffer
    holds at first. *)
Definition mergesort_r2 (base scratch : list T) (size : Z) : run (list T) :=
  let nmemb := zlen base in
  rbind (int_ok (size * nmemb)) (fun _ =>
  rbind (passes (S (List.length base)) nmemb 1 base scratch true) (fun '(src, dst, src_is_base) =>
  (* if (dst == base) memcpy(base,src,...) *)
  rret (if src_is_base then src else ztake nmemb src ++ zskip nmemb dst))).

(** src/missings.cpp:32-33: [while (compar(BASE(left),BASE(test)) < 0 && left < right) left++]. *)
Fixpoint scan_left (fuel : nat) (l : list T) (test left right : Z) : run Z :=
  match fuel with
  | O => None
  | S k =>
      rbind (at_ l left) (fun x => rbind (at_ l test) (fun t =>
      if (cmp x t <? 0) && (left <? right) then scan_left k l test (left + 1) right else rret left))
  end.
Fixpoint scan_right (fuel : nat) (l : list T) (test left right : Z) : run Z :=
  match fuel with
  | O => None
  | S k =>
      rbind (at_ l right) (fun x => rbind (at_ l test) (fun t =>
      if (0 <? cmp x t) && (left <? right) then scan_right k l test left (right - 1) else rret right))
  end.

(** src/missings.cpp:30-42: the partition loop, giving the array and [left]. *)
Fixpoint partition_loop (fuel : nat) (l : list T) (test left right : Z) : run (list T * Z) :=
  match fuel with
  | O => None
  | S k =>
      rbind (scan_left (S (List.length l)) l test left right) (fun left1 =>
      rbind (scan_right (S (List.length l)) l test left1 right) (fun right1 =>
      if right1 <=? left1 then rret (l, left1)
      else
        rbind (at_ l left1) (fun temp => rbind (at_ l right1) (fun r =>
        rbind (put l left1 r) (fun l1 => rbind (put l1 right1 temp) (fun l2 =>
        partition_loop k l2 test (left1 + 1) (right1 - 1)))))))
  end.

(** src/missings.cpp:17-47: the two recursive calls work on disjoint parts of the array. *)
Fixpoint qsort_r2 (fuel : nat) (l : list T) : run (list T) :=
  match fuel with
  | O => None
  | S k =>
      let nmemb := zlen l in
      if nmemb <? 2 then rret l
      else
        rbind (partition_loop (S (List.length l)) l (nmemb / 2) 0 (nmemb - 1)) (fun '(l1, left1) =>
        rbind (qsort_r2 k (ztake left1 l1)) (fun a =>
        rbind (qsort_r2 k (zskip left1 l1)) (fun b => rret (a ++ b))))
  end.

End SORT.
