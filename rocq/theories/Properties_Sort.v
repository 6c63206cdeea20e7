(** The claims about sorting (C19, C20). *)
From Verif Require Import Base BaseFacts Sort SortSpec SortProofs QsortProofs.
From Coq Require Import Permutation Sorted.

(** ** C19: merge sort *)

(** For every array of at most 2^30 elements that fits an int of bytes, whatever the scratch memory holds. *)
Theorem C19_mergesort : forall (T : Type) (cmp : T -> T -> Z), total_preorder cmp ->
  forall (base scratch : list T) (size : Z), 0 < size -> size * zlen base <= INT_MAX -> zlen base <= 2 ^ 30 -> zlen scratch = zlen base ->
  exists out, mergesort_r2 cmp base scratch size = rret out /\ stable_sort_of cmp base out.
Proof. exact @mergesort_ok. Qed.
Print Assumptions C19_mergesort.

Definition by_first (x y : Z * Z) : Z := fst x - fst y.
Example C19_met : total_preorder by_first /\ 16 * zlen [(2, 1); (1, 1); (2, 2); (1, 2); (0, 0)] <= INT_MAX /\
  mergesort_r2 by_first [(2, 1); (1, 1); (2, 2); (1, 2); (0, 0)] (repeat (7, 7) 5) 16 = rret [(0, 0); (1, 1); (1, 2); (2, 1); (2, 2)].
Proof. split; [split; unfold by_first; intros; lia|]. split; vm_compute; [discriminate|reflexivity]. Qed.

(** ** C20: quick sort *)

(** It ends, stays inside the array and permutes it - for every reflexive comparison. *)
Theorem C20_permutes_partial : forall (T : Type) (cmp : T -> T -> Z), (forall x, cmp x x = 0) ->
  forall fuel (l : list T), (List.length l < fuel)%nat -> exists out, qsort_r2 cmp fuel l = rret out /\ Permutation l out.
Proof. exact @qsort_perm. Qed.
Print Assumptions C20_permutes_partial.

(** An ordered array stays ordered.  Missing: an unordered array becomes ordered, which is false. *)
Theorem C20_keeps_order_partial : forall (T : Type) (cmp : T -> T -> Z), total_preorder cmp ->
  forall fuel (l : list T), (List.length l < fuel)%nat -> ordered cmp l ->
  exists out, qsort_r2 cmp fuel l = rret out /\ Permutation l out /\ ordered cmp out.
Proof. exact @qsort_ordered. Qed.
Print Assumptions C20_keeps_order_partial.

Example C20_met : total_preorder Z.sub /\ ordered Z.sub [1; 2; 2; 5] /\ qsort_r2 Z.sub 9 [3; 1; 2; 2] = rret [1; 2; 2; 3].
Proof. split; [exact sub_preorder|]. split; [|vm_compute; reflexivity]. repeat (constructor; try lia). Qed.

(** Five numbers it leaves out of order. *)
Theorem C20_refuted : exists l out, qsort_r2 Z.sub 10 l = rret out /\ ~ ordered Z.sub out /\ Permutation l out.
Proof. exact qsort_unsorted. Qed.
Print Assumptions C20_refuted.
