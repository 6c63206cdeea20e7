(** Documents used as examples. *)
From Verif Require Import Base NumSpec Types CalSpec RingProofs ShownProofs RoundtripProofs SymtabSpec Sort Xb XbWrite DocSpec ReadSpec.

Definition xml (name : string) (value : option string) (attrs : list (string * string)) (kids : list node) : node :=
  Node (lit name) (option_map lit value) (map (fun a => (lit (fst a), lit (snd a))) attrs) kids.
Definition book : node :=
  xml "library"%string None [("version", "1")%string]
    [xml "book"%string (Some "Dune"%string) [("id", "7"); ("lang", "en")]%string [];
     xml "book"%string None [("id", "-12"); ("lang", "")]%string [xml "price"%string (Some "12.50"%string) [] []; xml "et-tecera"%string None [] []]].

(** What comes back through the API from the image of a document. *)
Definition back fl buffer filename root : run node :=
  rbind (Make_xb fl buffer filename 0 root) (fun img => rbind (Initialize 3 img) (fun R =>
  match rd_root R with
  | None => Some Fail
  | Some x => rbind (read_node 10 fl img R x [] ring0) (fun '(t, _) => rret t)
  end)).

(** Checking the conditions by computation. *)
Definition cstringb (l : list Z) : bool := forallb (fun c => (1 <=? c) && (c <=? 255)) l.
Lemma cstringb_ok l : cstringb l = true -> cstring l.
Proof. unfold cstringb. rewrite forallb_forall. intros H. apply Forall_forall. intros c Hc. specialize (H c Hc). unfold is_cchar. lia. Qed.
Definition fitsb (t : node) : bool :=
  cstringb (name_of t) && match value_of t with Some v => cstringb v | None => true end &&
  forallb (fun a => cstringb (fst a) && cstringb (snd a)) (attrs_of t) && (zlen (attrs_of t) <=? 32767) && (zlen (kids_of t) <=? INT_MAX).
Lemma fitsb_ok t : fitsb t = true -> element_fits t.
Proof.
  unfold fitsb. rewrite !andb_true_iff. intros ((((A & B) & C) & D) & E). unfold element_fits. split; [apply cstringb_ok, A|]. split.
  { intros v Hv. rewrite Hv in B. apply cstringb_ok, B. }
  split; [|lia]. rewrite forallb_forall in C. intros n v Hv. specialize (C _ Hv). apply andb_true_iff in C. split; apply cstringb_ok; apply C.
Qed.
Definition document_fitsb (root : node) : bool :=
  forallb fitsb (elements root) && (different (map name_of (elements root)) <=? 32768) && (different (map fst (flat_map attrs_of (elements root))) <=? 32768).
Lemma document_fitsb_ok root : document_fitsb root = true -> document_fits root.
Proof.
  unfold document_fitsb. rewrite !andb_true_iff, forallb_forall. intros ((A & B) & C). split; [|lia]. intros u Hu. apply fitsb_ok, A, Hu.
Qed.

Lemma book_fits : document_fits book.
Proof. apply document_fitsb_ok. vm_compute. reflexivity. Qed.

Lemma steady_int n : int32 n -> XBT_Detect (sdec n) = XBT_INT32 -> steady_text (sdec n).
Proof. intros H E. split; [apply ex_int32, H|]. rewrite E. split; discriminate. Qed.
Lemma steady_str t : cstringb t = true -> XBT_Detect t = XBT_STRING -> steady_text t.
Proof. intros H E. split; [apply ex_string; [apply cstringb_ok, H|exact E]|]. rewrite E. split; discriminate. Qed.

Lemma book_steady : steady_document book.
Proof.
  assert (P : steady_text (lit "12.50")).
  { split; [|split; vm_compute; discriminate]. change (lit "12.50") with ((if false then [45] else []) ++ udec 12 ++ [46] ++ fmt0 2 50).
    apply ex_fraction; [cbn; tauto|lia|vm_compute; split; [discriminate|reflexivity]|discriminate|vm_compute; discriminate]. }
  assert (I1 : steady_text (lit "1")) by (apply (steady_int 1); [unfold int32; lia|reflexivity]).
  assert (I7 : steady_text (lit "7")) by (apply (steady_int 7); [unfold int32; lia|reflexivity]).
  assert (I12 : steady_text (lit "-12")) by (apply (steady_int (-12)); [unfold int32; lia|reflexivity]).
  assert (D : steady_text (lit "Dune")) by (apply steady_str; reflexivity).
  intros u Hu. cbn [elements book xml flat_map app In option_map map] in Hu.
  repeat (destruct Hu as [<-|Hu]; [|]); try contradiction.
  all: split; [intros v Hv; cbn in Hv; inversion Hv; subst; right; assumption|].
  all: split; [intros n v Hv; cbn in Hv; repeat (destruct Hv as [Hv|Hv]; [inversion Hv; subst; vm_compute; discriminate|]); contradiction|].
  all: intros a Ha; cbn [attrs_of In fst snd] in Ha; repeat (destruct Ha as [<-|Ha]; [|]); try contradiction.
  all: unfold steady_attr; cbv zeta; (split; [vm_compute; discriminate|]).
  all: cbn [fst snd].
  all: first [left; reflexivity | right; left; vm_compute; discriminate | right; right; (split; [vm_compute; reflexivity|split; [assumption|vm_compute; discriminate]])].
Qed.
