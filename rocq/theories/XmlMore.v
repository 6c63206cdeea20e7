(** Printing packed documents and documents that grew at their end. *)
From Verif Require Import Base BaseFacts ListFacts NumSpec Types CalSpec DetectProofs RingProofs RoundtripProofs Sort SortProofs Sha1Spec Sha1 Symtab SymtabSpec SymtabProofs
  Xb XbSpec XbFacts XbSymProofs XbWrite DocSpec ReadSpec NavSpec CheckSpec WriteProofs FillProofs InitProofs OpenProofs ReadProofs NavProofs Append AppendSpec AppendProofs Packer PackFacts MarkProofs PackProofs PackDoc PackRead PackSpec PackedProofs
  PackReadProofs XmlOut XmlSpec XmlFacts XmlLayout XmlProofs.

Lemma made_prints root cr : made root cr -> document_fits root -> steady_document root -> (forall u, In u (elements root) -> printable u) -> prints_well cr root root.
Proof. intros (_ & _ & _ & _ & A5 & _) F S P u Hu. destruct (S _ Hu) as (S1 & _ & S3). destruct (A5 _ Hu) as (M6 & M7). split; [apply (proj1 F _ Hu)|]. auto 6. Qed.

Lemma packed_prints fl m filename modified root img W scratch heap depth k buf fuel steps : bytes m -> zlen m <= INT_MAX -> cstring filename -> document_fits root -> steady_document root ->
  (forall u, In u (elements root) -> printable u) -> Make_xb fl m filename modified root = rret img -> sha1_separates img ->
  zlen W = 64 -> bytes heap -> zlen img <= zlen heap -> zlen scratch = 4 + zlen (elements root) -> (height root + 2 <= depth)%nat ->
  256 < zlen buf -> (height root <= fuel)%nat -> (need root <= steps)%nat ->
  exists img' R, Make_packed W scratch heap depth fl m filename modified root = rret img' /\ Initialize (S k) img' = rret R /\
    print_document fuel steps fl img' R buf = rret (layout 0 root).
Proof.
  intros Hb Hm Hf F S P H Sep HW Hh Hhl Hsc Hdp Hbuf Hfu Hst.
  assert (NH : no_hex root) by (intros u Hu; apply (S u Hu)).
  destruct (packs_doc fl m filename modified root img W scratch heap depth Hb Hm Hf F NH H Sep HW Hh Hhl Hsc Hdp) as (img' & Pm & cr & d & o & size & size' & U & Pl & J & x0 & y1 & e1 & y2 & e2 & y3 & z1 & f1 & z2 & f2 & z3 & z & M & Hg & Hd & Hz & Bi & D & Hs & Jx & L & Li & Sh & Shi & _ & Pk & Pf & Pp & Mv & HU & Hs' & Ds).
  pose proof M as (A1 & A2 & A3 & A4 & A5 & A6 & _). assert (Hi : int32 (zlen img')) by (pose proof (zlen_nonneg img'); unfold int32, INT_MIN, INT_MAX in *; lia).
  destruct (Initialize_shell cr img' size' filename z1 f1 z2 f2 z3 z Ds Hf Hs' Hi A1 A2 k) as (R' & E1' & E2' & T1 & T2).
  assert (Dg : dag_at fl cr img' z root).
  { eapply (packed_dag fl cr d o img' (zlen m) size' U Pl); try eassumption; try lia. intros u v Hu Hv. destruct (S u Hu) as (Sv & _). destruct (Sv v Hv) as [->|(_ & X)]; [split; vm_compute; discriminate|exact X]. }
  exists img', R'. split; [exact Pm|]. split; [exact E1'|]. unfold print_document. rewrite E2'. apply (dag_writes fl cr img' R' root buf); try assumption; [unfold INT_MAX in *; lia|]. apply made_prints; assumption.
Qed.

(** The document with the appended elements in the place of the last one. *)
Definition grown_root (root : node) (kids : list node) : node := Node (name_of root) (value_of root) (attrs_of root) kids.

Lemma grown_prints fl m filename modified root old img cr data ts data' f junk k buf fuel steps : bytes m -> bytes data -> bytes junk -> cstring filename ->
  document_fits root -> steady_document root -> open_ended root old -> Make_xb fl m filename modified root = rret img -> MakeSymbolTable root = rret cr ->
  Forall (belongs root) ts -> Appends fl cr data img ts = Ok (data', f) -> zlen (f ++ junk) + 16 <= INT_MAX -> no_more (f ++ junk) (zlen f) ->
  old ++ ts <> [] -> (forall u, In u (elements (grown_root root (old ++ ts))) -> printable u) ->
  256 < zlen buf -> (height (grown_root root (old ++ ts)) <= fuel)%nat -> (need (grown_root root (old ++ ts)) <= steps)%nat ->
  exists R, Initialize (S k) (f ++ junk) = rret R /\ print_document fuel steps fl (f ++ junk) R buf = rret (layout 0 (grown_root root (old ++ ts))).
Proof.
  intros Hb Hbd Hbj Hf F S O H Ecr Bl HA Hm Nm Hne P Hbuf Hh Hn.
  assert (Bl' : Forall (named_in root) ts) by (eapply Forall_impl; [|exact Bl]; intros t Ht u Hu; destruct (Ht u Hu) as (B1 & B2 & B3 & _ & B4); split; [exact B1|]; split; [exact B2|]; split; [exact B3|]; intros a Ha; apply (B4 a Ha)).
  destruct (grown_places _ _ _ _ _ _ _ _ _ _ _ _ _ Hb Hbd Hbj Hf F (fun u Hu => proj1 (proj2 (S u Hu))) O H Ecr Bl' HA Hm Nm k) as (R & x & ys & E1 & E2 & E3 & M & E4 & T1 & T2 & E5 & limit & id & e1 & e2 & N1 & N3 & N4 & N5 & N6 & N8 & N9).
  assert (Hk : incl old (kids_of root)) by (destruct O as (_ & last & _ & ->); intros u Hu; apply in_or_app; left; exact Hu).
  exists R. split; [exact E1|]. unfold print_document. rewrite E2. unfold grown_root in *. cbn [height need] in Hh, Hn. destruct fuel as [|fuel]; [lia|].
  assert (Hr : In root (elements root)) by (destruct root; left; reflexivity). pose proof M as (_ & _ & _ & _ & A5 & _). destruct (A5 _ Hr) as (M6 & M7). destruct (S _ Hr) as (S1 & _ & S3). destruct (proj1 F _ Hr) as (F1 & F2 & F3 & _ & _).
  destruct (P _ (or_introl eq_refl)) as (_ & _ & _ & _ & Pv). cbn [value_of] in Pv. pose proof (zlen_nonneg old).
  apply (element_writes fl cr (f ++ junk) R root buf) with (ys := ys) (cc := zlen old + 1) (limit := limit) (id := id) (e1 := e1) (e2 := e2); try assumption; try lia.
  - split; [intros _; exact Hne|lia].
  - intros t Ht. split; [apply S1; exact Ht|apply (Pv t Ht)].
  - intros [bn bv] Hin. split; [apply (M7 bn bv Hin)|]. split; [apply (F3 bn bv Hin)|apply S3, Hin].
  - intros _. apply E5. lia.
  - apply (Forall2_right _ _ _ _ E3). intros y t Ht (lim & e & N & He). apply (dag_writes fl cr (f ++ junk) R root buf); try assumption; [unfold INT_MAX in *; lia| |eapply node_dag; eassumption| |].
    + intros u Hu. destruct (named_tables root cr old ts M Bl' Hk F t Ht u Hu) as (Q1 & Q2 & Q3). split; [exact Q1|].
      assert (Q4 : steady_value u /\ forall a, In a (attrs_of u) -> steady_attr root a).
      { apply in_app_or in Ht. destruct Ht as [Ht|Ht].
        - assert (Hru : In u (elements root)) by (destruct root as [rn rv ra rk]; eapply elements_kids; [|exact Hu]; apply (Hk t Ht)). destruct (S _ Hru) as (Q5 & _ & Q6). auto.
        - rewrite Forall_forall in Bl. destruct (Bl t Ht u Hu) as (_ & _ & _ & B2 & B4). split; [exact B2|]. intros a Ha. apply (B4 a Ha). }
      destruct Q4 as (Q4 & Q5). split; [exact Q4|]. split; [exact Q5|]. split; [exact Q2|]. split; [exact Q3|]. apply P. eapply elements_kids; eassumption.
    + assert (Hmax : (height t <= fold_right Nat.max 0 (map height (old ++ ts)))%nat) by (clear - Ht; induction (old ++ ts) as [|y l IHk]; [destruct Ht|]; cbn [map fold_right]; destruct Ht as [->|Ht]; [lia|specialize (IHk Ht); lia]). lia.
    + assert (Hmax : (need t <= fold_right Nat.max 0 (map need (old ++ ts)))%nat) by (clear - Ht; induction (old ++ ts) as [|y l IHk]; [destruct Ht|]; cbn [map fold_right]; destruct Ht as [->|Ht]; [lia|specialize (IHk Ht); lia]). lia.
Qed.

(** What the printed texts say. *)
Lemma prints_says fl m filename modified root img k buf : bytes m -> zlen m <= INT_MAX -> cstring filename ->
  document_fits root -> steady_document root -> (forall u, In u (elements root) -> printable u) -> Make_xb fl m filename modified root = rret img -> 256 < zlen buf ->
  exists R bound text, Initialize (S k) img = rret R /\
    (forall fuel steps, (bound <= fuel)%nat -> (bound <= steps)%nat -> print_document fuel steps fl img R buf = rret text) /\ says text = Some (normal root).
Proof.
  intros Hb Hm Hf F S P H Hbuf.
  destruct (prints_back fl m filename modified root img k buf (height root) (need root) Hb Hm Hf F S P H Hbuf ltac:(lia) ltac:(lia)) as (R & E & _).
  exists R, (Nat.max (height root) (need root)), (layout 0 root). split; [exact E|]. split; [|apply layout_says, P]. intros fuel steps H1 H2.
  destruct (prints_back fl m filename modified root img k buf fuel steps Hb Hm Hf F S P H Hbuf ltac:(lia) ltac:(lia)) as (R' & E' & Q). rewrite E in E'. inversion E'; subst R'. exact Q.
Qed.
Lemma packed_says fl m filename modified root img W scratch heap depth k buf : bytes m -> zlen m <= INT_MAX -> cstring filename -> document_fits root -> steady_document root ->
  (forall u, In u (elements root) -> printable u) -> Make_xb fl m filename modified root = rret img -> sha1_separates img ->
  zlen W = 64 -> bytes heap -> zlen img <= zlen heap -> zlen scratch = 4 + zlen (elements root) -> (height root + 2 <= depth)%nat -> 256 < zlen buf ->
  exists img' R bound text, Make_packed W scratch heap depth fl m filename modified root = rret img' /\ Initialize (S k) img' = rret R /\
    (forall fuel steps, (bound <= fuel)%nat -> (bound <= steps)%nat -> print_document fuel steps fl img' R buf = rret text) /\ says text = Some (normal root).
Proof.
  intros Hb Hm Hf F S P H Sep HW Hh Hhl Hsc Hdp Hbuf.
  destruct (packed_prints fl m filename modified root img W scratch heap depth k buf (height root) (need root) Hb Hm Hf F S P H Sep HW Hh Hhl Hsc Hdp Hbuf ltac:(lia) ltac:(lia)) as (img' & R & E0 & E & _).
  exists img', R, (Nat.max (height root) (need root)), (layout 0 root). split; [exact E0|]. split; [exact E|]. split; [|apply layout_says, P]. intros fuel steps H1 H2.
  destruct (packed_prints fl m filename modified root img W scratch heap depth k buf fuel steps Hb Hm Hf F S P H Sep HW Hh Hhl Hsc Hdp Hbuf ltac:(lia) ltac:(lia)) as (img2 & R' & E0' & E' & Q). rewrite E0 in E0'. inversion E0'; subst img2. rewrite E in E'. inversion E'; subst R'. exact Q.
Qed.
Lemma grown_says fl m filename modified root old img cr data ts data' f k buf : bytes m -> bytes data -> cstring filename ->
  document_fits root -> steady_document root -> open_ended root old -> Make_xb fl m filename modified root = rret img -> MakeSymbolTable root = rret cr ->
  Forall (belongs root) ts -> Appends fl cr data img ts = Ok (data', f) -> zlen f + 16 <= INT_MAX ->
  old ++ ts <> [] -> (forall u, In u (elements (grown_root root (old ++ ts))) -> printable u) -> 256 < zlen buf ->
  exists R bound text, Initialize (S k) f = rret R /\
    (forall fuel steps, (bound <= fuel)%nat -> (bound <= steps)%nat -> print_document fuel steps fl f R buf = rret text) /\ says text = Some (normal (grown_root root (old ++ ts))).
Proof.
  intros Hb Hbd Hf F S O H Ecr Bl HA Hm Hne P Hbuf. set (t := grown_root root (old ++ ts)) in *.
  assert (G : forall fuel steps, (height t <= fuel)%nat -> (need t <= steps)%nat -> exists R, Initialize (Datatypes.S k) f = rret R /\ print_document fuel steps fl f R buf = rret (layout 0 t)).
  { intros fuel steps H1 H2. pose proof (grown_prints fl m filename modified root old img cr data ts data' f [] k buf fuel steps) as G. rewrite app_nil_r in G. apply G; try assumption; [constructor|apply appends_end]. }
  destruct (G (height t) (need t) ltac:(lia) ltac:(lia)) as (R & E & _).
  exists R, (Nat.max (height t) (need t)), (layout 0 t). split; [exact E|]. split; [|apply layout_says, P]. intros fuel steps H1 H2. destruct (G fuel steps ltac:(lia) ltac:(lia)) as (R' & E' & Q). rewrite E in E'. inversion E'; subst R'. exact Q.
Qed.
