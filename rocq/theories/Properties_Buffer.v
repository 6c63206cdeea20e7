(** Theorems about the converter's output buffer (C39). *)
From Verif Require Import Base Types Sort XbWrite DocSpec BufferSpec BufferProofs DocExamples.

(** C39: eight bytes for every byte of the shortest source text, 1024 and the file name are always enough. *)
Theorem C39_bound_partial : forall fl m filename modified root img, (forall u, In u (elements root) -> name_of u <> []) ->
  Make_xb fl m filename modified root = rret img -> zlen img <= 1024 + zlen filename + 8 * zlen (source root).
Proof. exact image_size. Qed.
Print Assumptions C39_bound_partial.
Example C39_met : (forall u, In u (elements book) -> name_of u <> []) /\ zlen (source book) = 127 /\ source (xml "a" (Some "1"%string) [("b", "2")%string] [xml "c" None [] []]) = lit "<a b=""2"">1<c/></a>" /\
  forall fl, exists img, Make_xb fl (zrepeat 0 600) (lit "book.xml") 0 book = rret img.
Proof.
  split; [intros u Hu; cbn in Hu; repeat (destruct Hu as [<-|Hu]; [discriminate|]); contradiction|]. split; [vm_compute; reflexivity|]. split; [vm_compute; reflexivity|]. intros fl. eexists. vm_compute. reflexivity.
Qed.

(** The buffer of the converter is smaller: a source of 250 small elements is written past its end. *)
Definition wide (n : nat) : node := Node (lit "r") None [] (repeat (Node (lit "a") None [] []) n).
Theorem C39_refuted : forall fl, document_fits (wide 250) /\ (forall u, In u (elements (wide 250)) -> name_of u <> []) /\
  Make_xb fl (zrepeat 0 (buffer_size (wide 250))) (lit "f.xml") 0 (wide 250) = Some Ub /\
  exists img, Make_xb fl (zrepeat 0 6000) (lit "f.xml") 0 (wide 250) = rret img /\ buffer_size (wide 250) < zlen img.
Proof.
  intros fl. split; [apply document_fitsb_ok; vm_compute; reflexivity|]. split.
  - assert (G : forallb (fun u => match name_of u with [] => false | _ => true end) (elements (wide 250)) = true) by (vm_compute; reflexivity).
    rewrite forallb_forall in G. intros u Hu E. specialize (G u Hu). rewrite E in G. discriminate G.
  - split; [vm_compute; reflexivity|]. eexists. split; [vm_compute; reflexivity|]. vm_compute. reflexivity.
Qed.
Print Assumptions C39_refuted.
