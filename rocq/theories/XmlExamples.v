(** Printed documents as examples. *)
From Verif Require Import Base NumSpec Types CalSpec RingProofs RoundtripProofs SymtabSpec Sort Xb XbWrite DocSpec ReadSpec DocExamples Append AppendSpec AppendExamples XmlOut XmlSpec XmlMore.

Definition novel : node :=
  DocExamples.xml "library"%string (Some "two shelves"%string) [("version", "1")%string]
    [DocExamples.xml "book"%string (Some "Dune > 1965"%string) [("id", "7"); ("lang", "en")]%string [];
     DocExamples.xml "book"%string None [("id", "-12"); ("lang", "")]%string [DocExamples.xml "price"%string (Some "12.50"%string) [] []; DocExamples.xml "sold"%string None [] []]].

Definition printableb (t : node) : bool :=
  let nameb n := match n with c :: _ => name_start c | [] => false end && forallb name_char n in
  nameb (name_of t) && negb (same_name (name_of t) (lit "et-tecera")) && (if list_eq_dec (list_eq_dec Z.eq_dec) (nodup (list_eq_dec Z.eq_dec) (map fst (attrs_of t))) (map fst (attrs_of t)) then true else false) &&
  forallb (fun a => nameb (fst a) && forallb (fun c => attr_char c && negb (c =? 38)) (snd a)) (attrs_of t) &&
  match value_of t with
  | Some v => forallb (fun c => text_char c && negb (c =? 38)) v && negb (has_cdata_end v) && negb (XBT_Detect v =? XBT_GUID) && same_name (trim v) v
  | None => true
  end.
Lemma printableb_ok t : printableb t = true -> printable t.
Proof.
  assert (Nm : forall n, match n with c :: _ => name_start c | [] => false end && forallb name_char n = true -> xml_name n).
  { intros n H. apply andb_true_iff in H. destruct H as (H1 & H2). split; [|exact H2]. destruct n as [|c n]; [discriminate H1|]. exists c, n. auto. }
  assert (Cs : forall p l, forallb (fun c => p c && negb (c =? 38)) l = true -> forall c, In c l -> p c = true /\ c <> 38).
  { intros p l H c Hc. rewrite forallb_forall in H. specialize (H c Hc). apply andb_true_iff in H. destruct H as (H1 & H2). split; [exact H1|]. intros ->. discriminate H2. }
  unfold printableb. cbv zeta. intros H. apply andb_true_iff in H. destruct H as (H & H5). apply andb_true_iff in H. destruct H as (H & H4). apply andb_true_iff in H. destruct H as (H & H3). apply andb_true_iff in H. destruct H as (H1 & H2).
  split; [apply Nm, H1|]. split; [unfold same_name in H2; destruct (list_eq_dec Z.eq_dec (name_of t) (lit "et-tecera")); [discriminate H2|assumption]|].
  split; [destruct (list_eq_dec (list_eq_dec Z.eq_dec) _ _) as [E|] in H3; [|discriminate H3]; rewrite <- E; apply NoDup_nodup|].
  split; [intros a Ha; rewrite forallb_forall in H4; specialize (H4 a Ha); apply andb_true_iff in H4; destruct H4 as (Q1 & Q2); split; [apply Nm, Q1|apply Cs, Q2]|].
  intros v Hv. rewrite Hv in H5. apply andb_true_iff in H5. destruct H5 as (H5 & P4). apply andb_true_iff in H5. destruct H5 as (H5 & P3). apply andb_true_iff in H5. destruct H5 as (P1 & P2).
  split; [apply Cs, P1|]. split; [destruct (has_cdata_end v); [discriminate P2|reflexivity]|]. split; [intros E; rewrite E in P3; discriminate P3|]. intros _. unfold same_name in P4. destruct (list_eq_dec Z.eq_dec (trim v) v); [assumption|discriminate P4].
Qed.
Lemma all_printable root : forallb printableb (elements root) = true -> forall u, In u (elements root) -> printable u.
Proof. rewrite forallb_forall. intros H u Hu. apply printableb_ok, H, Hu. Qed.

Lemma novel_steady : steady_document novel.
Proof.
  assert (P : steady_text (lit "12.50")).
  { split; [|split; vm_compute; discriminate]. change (lit "12.50") with ((if false then [45] else []) ++ udec 12 ++ [46] ++ fmt0 2 50).
    apply ex_fraction; [cbn; tauto|lia|vm_compute; split; [discriminate|reflexivity]|discriminate|vm_compute; discriminate]. }
  assert (I1 : steady_text (lit "1")) by (apply (steady_int 1); [unfold int32; lia|reflexivity]).
  assert (I7 : steady_text (lit "7")) by (apply (steady_int 7); [unfold int32; lia|reflexivity]).
  assert (I12 : steady_text (lit "-12")) by (apply (steady_int (-12)); [unfold int32; lia|reflexivity]).
  assert (D : steady_text (lit "Dune > 1965")) by (apply steady_str; reflexivity).
  assert (D2 : steady_text (lit "two shelves")) by (apply steady_str; reflexivity).
  intros u Hu. cbn [elements novel DocExamples.xml flat_map app In option_map map] in Hu.
  repeat (destruct Hu as [<-|Hu]; [|]); try contradiction.
  all: split; [intros v Hv; cbn in Hv; inversion Hv; subst; right; assumption|].
  all: split; [intros n v Hv; cbn in Hv; repeat (destruct Hv as [Hv|Hv]; [inversion Hv; subst; vm_compute; discriminate|]); contradiction|].
  all: intros a Ha; cbn [attrs_of In fst snd] in Ha; repeat (destruct Ha as [<-|Ha]; [|]); try contradiction.
  all: unfold steady_attr; cbv zeta; (split; [vm_compute; discriminate|]).
  all: cbn [fst snd].
  all: first [left; reflexivity | right; left; vm_compute; discriminate | right; right; (split; [vm_compute; reflexivity|split; [assumption|vm_compute; discriminate]])].
Qed.

(** A document converted and printed; the printer's buffer is full of old bytes (the program has 4097). *)
Definition old_bytes : list Z := zrepeat 65 300.
Definition print_of fl root : run (list Z) :=
  rbind (Make_xb fl (zrepeat 0 800) (lit "f") 0 root) (fun img => rbind (Initialize 3 img) (fun R => print_document 5 20 fl img R old_bytes)).
Definition leaf (value : string) : node := DocExamples.xml "r" (Some value) [] [].
