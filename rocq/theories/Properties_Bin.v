(** Theorems about converting a source of binary values, a pool, to a document (C50). *)
From Verif Require Import Base Types Sort Xb XbWrite XbBin BinSpec BinFill.

(** C50: with enough room, a source whose text attributes are all empty is converted, the image opens, and a client that reads every element,
    every attribute and every value through getData gets the source back.  Missing: attributes with text (false, see below),
    times stored as UNIX_DATE, and IPv6 addresses as values of elements (false as well, see DESIGN.md). *)
Theorem C50_partial : forall m filename modified tags params root, bin_source_ok tags params root -> cstring filename -> zlen m <= INT_MAX ->
  convert_room filename tags params root <= zlen m ->
  exists img, BinMake_xb m filename modified tags params root = rret img /\
    forall k, (bheight root <= k)%nat -> exists R x, Initialize (S k) img = rret R /\ rd_root R = Some x /\ read_bin_node k img R x = rret (doc_of root).
Proof. exact convert_ok. Qed.
Print Assumptions C50_partial.

Definition src_tags := [(lit "r", XBT_INT32); (lit "c", XBT_STRING)].
Definition src_params := [(lit "a", XBT_UINT64); (lit "n", XBT_NULL); (lit "i", XBT_INT32)].
Definition src_root := BNode (lit "r") XBT_INT32 [7; 0; 0; 0] [(lit "a", XBT_UINT64, [1; 2; 3; 4; 5; 6; 7; 8]); (lit "n", XBT_NULL, []); (lit "i", XBT_INT32, [9; 0; 0; 0; 77])]
  [BNode (lit "c") XBT_STRING (lit "hi" ++ [0; 5]) [] []; BNode (lit "c") XBT_BLOB [2; 0; 0; 0; 200; 0] [(lit "i", XBT_INT32, [1; 0; 0; 0])] []].
Lemma known n ty l : In (n, ty) l -> ty <> XBT_UNKNOWN -> known_name n l.
Proof. intros; exists ty; split; assumption. Qed.
Lemma bytes_of l : forallb (fun b => (0 <=? b) && (b <? 256)) l = true -> bytes l.
Proof. intros H. unfold bytes. apply Forall_forall. intros b Hb. rewrite forallb_forall in H. specialize (H b Hb). apply andb_true_iff in H. destruct H as (A & B). apply Z.leb_le in A. apply Z.ltb_lt in B. split; assumption. Qed.
Example C50_met : bin_source_ok src_tags src_params src_root /\ convert_room (lit "p.xbw") src_tags src_params src_root <= 500 /\
  doc_of src_root = BNode (lit "r") XBT_INT32 [7; 0; 0; 0] [(lit "a", XBT_UINT64, [1; 2; 3; 4; 5; 6; 7; 8]); (lit "n", XBT_NULL, []); (lit "i", XBT_INT32, [9; 0; 0; 0])]
    [BNode (lit "c") XBT_STRING (lit "hi" ++ [0]) [] []; BNode (lit "c") XBT_BLOB [2; 0; 0; 0; 200; 0] [(lit "i", XBT_INT32, [1; 0; 0; 0])] []] /\
  exists img, BinMake_xb (zrepeat 0 500) (lit "p.xbw") 0 src_tags src_params src_root = rret img /\ zlen img = 328.
Proof.
  split.
  { unfold bin_source_ok, table_source, src_tags, src_params. split; [|split; [|split]].
    - split; [|vm_compute; congruence]. intros n ty H. cbn [In] in H. repeat destruct H as [H|H]; try contradiction; injection H as <- <-; (split; [repeat constructor; vm_compute; try congruence|vm_compute; split; congruence]).
    - split; [|vm_compute; congruence]. intros n ty H. cbn [In] in H. repeat destruct H as [H|H]; try contradiction; injection H as <- <-; (split; [repeat constructor; vm_compute; try congruence|vm_compute; split; congruence]).
    - intros u Hu. cbn in Hu. repeat destruct Hu as [<-|Hu]; try contradiction; (split; [|split; [intros a Ha; cbn [In] in Ha; repeat destruct Ha as [<-|Ha]; try contradiction|vm_compute; split; congruence]]).
      all: unfold bin_attr_ok, value_there, string_there; first
        [ left; split; [apply bytes_of; vm_compute; reflexivity|]; cbn [In]; vm_compute; intuition congruence
        | left; split; [split; [apply bytes_of; vm_compute; reflexivity|]; cbn [In]; vm_compute; intuition congruence|vm_compute; congruence]
        | right; split; [apply bytes_of; vm_compute; reflexivity|vm_compute; intuition congruence] ].
    - intros u Hu. cbn in Hu. repeat destruct Hu as [<-|Hu]; try contradiction; (split; [|intros a Ha; cbn in Ha; repeat destruct Ha as [<-|Ha]; try contradiction]);
        (eapply known; [cbn [In fst]; vm_compute; intuition|vm_compute; congruence]). }
  split; [vm_compute; congruence|]. split; [vm_compute; reflexivity|]. eexists. split; vm_compute; reflexivity.
Qed.

(** C50 fails for texts: an element with one attribute of at least three characters is converted without an error, but the text runs past the
    end of the image: reading it is a read outside the file. *)
Theorem C50_refuted : forall m filename modified tags params name a s r, table_source tags -> table_source params -> known_name name tags -> known_name a params ->
  cstring s -> 3 <= zlen s -> cstring filename -> zlen m <= INT_MAX -> convert_room filename tags params (BNode name XBT_NULL [] [(a, XBT_STRING, s ++ 0 :: r)] []) <= zlen m ->
  exists img, BinMake_xb m filename modified tags params (BNode name XBT_NULL [] [(a, XBT_STRING, s ++ 0 :: r)] []) = rret img /\
    forall k, exists R x, Initialize (S k) img = rret R /\ rd_root R = Some x /\ read_bin_attrs 1 img R x 0 = Ub.
Proof. exact cut_ok. Qed.
Print Assumptions C50_refuted.

(** Two texts: the second is written over the first. *)
Definition two_texts := BNode (lit "r") XBT_NULL [] [(lit "a", XBT_STRING, lit "one" ++ [0]); (lit "i", XBT_STRING, lit "t" ++ [0])] [].
Theorem C50_overwritten_refuted : exists img R x, BinMake_xb (zrepeat 0 400) (lit "p.xbw") 0 src_tags src_params two_texts = rret img /\
  Initialize 2 img = rret R /\ rd_root R = Some x /\
  read_bin_node 1 img R x = rret (BNode (lit "r") XBT_NULL [] [(lit "a", XBT_STRING, lit "ot" ++ [0]); (lit "i", XBT_STRING, lit "t" ++ [0])] []) /\ doc_of two_texts = two_texts.
Proof. do 3 eexists. split; [vm_compute; reflexivity|]. split; [vm_compute; reflexivity|]. split; [vm_compute; reflexivity|]. split; vm_compute; reflexivity. Qed.
Print Assumptions C50_overwritten_refuted.
