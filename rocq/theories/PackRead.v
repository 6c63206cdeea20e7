(** Reading the packed image. *)
From Verif Require Import Base BaseFacts ListFacts NumSpec Types CalSpec RingProofs RoundtripProofs Sort SortProofs Sha1Spec Sha1 Symtab SymtabSpec SymtabProofs
  Xb XbSpec XbFacts XbSymProofs XbWrite DocSpec ReadSpec NavSpec WriteProofs FillProofs InitProofs OpenProofs ReadProofs NavProofs AppendProofs Packer PackFacts MarkProofs PackProofs PackDoc.

Lemma items_self J : In J (items J).
Proof. destruct (items_nonempty J) as (r & E). rewrite E. left. reflexivity. Qed.
Lemma items_kid x c e ks K J : In K ks -> In J (items K) -> In J (items (It x c e ks)).
Proof. intros A B. cbn [items]. right. apply in_flat_map. exists K. auto. Qed.

(** The way down in the tree of nodes. *)
Fixpoint item_sub (i : item) (path : list nat) : option item :=
  match path with [] => Some i | n :: r => match nth_error (ikids i) n with Some k => item_sub k r | None => None end end.
Lemma shape_nth fl cr d limit ks l i k : Forall2 (shape fl cr d limit) ks l -> nth_error l i = Some k -> exists K, nth_error ks i = Some K /\ shape fl cr d limit K k.
Proof. intros F. revert i. induction F as [|K t ks k' St F IH]; intros i E; [destruct i; discriminate E|]. destruct i as [|i]; cbn [nth_error] in *; [inversion E; subst; exists K; auto|apply IH, E]. Qed.
Lemma layout_links d x c e ks : layout d (It x c e ks) -> exists pc, it_paramcount d x = Ok pc /\ it_childcount d x = Ok (zlen ks) /\ forall i K, nth_error ks i = Some K -> rd_s32 d (x + 12 + 8 * pc + 4 * Z.of_nat i) = Ok (ix K - x).
Proof.
  cbn [layout]. intros (nm & pc & X1 & X2 & X3 & X4 & X5 & X6 & X7 & X8 & X9 & X10 & X11 & X12 & X13 & _ & X14). exists pc. split; [exact X11|]. split; [exact X12|].
  revert X14. generalize (x + 12 + 8 * pc) as q. generalize c as lo. clear. induction ks as [|t l IH]; intros lo q Kl i K HK; [destruct i; discriminate HK|]. cbn [kids_layout] in Kl. destruct Kl as (L1 & L2 & L3 & L4).
  destruct i as [|i]; cbn [nth_error] in HK; [inversion HK; subst t; replace (q + 4 * Z.of_nat 0) with q by lia; exact L2|]. replace (q + 4 * Z.of_nat (S i)) with (q + 4 + 4 * Z.of_nat i) by lia. eapply IH; eassumption.
Qed.
Lemma walk_item fl cr d limit path : forall t u J, layout d J -> shape fl cr d limit J t -> sub t path = Some u ->
  exists K, item_sub J path = Some K /\ walk d (ix J) path = Ok (Some (ix K)) /\ layout d K /\ shape fl cr d limit K u /\ In K (items J).
Proof.
  induction path as [|i r IH]; intros t u J L S Hs; cbn [sub] in Hs.
  - inversion Hs; subst u. exists J. cbn [walk item_sub]. pose proof (items_self J). auto 8.
  - destruct (nth_error (kids_of t) i) as [k|] eqn:E; [|discriminate Hs]. inversion S as [x c e ks n v a k' O F]; subst. cbn [kids_of ix] in *.
    destruct (layout_links _ _ _ _ _ L) as (pc & Ep & Ec & Q). destruct (shape_nth fl cr d limit ks k' i k F E) as (K & EK & SK).
    pose proof (layout_kids _ _ _ _ _ L K (nth_error_In _ _ EK)) as (_ & _ & LK). destruct (IH k u K LK SK Hs) as (K' & W1 & W2 & W3 & W4 & W5). exists K'. cbn [item_sub ikids]. rewrite EK.
    split; [exact W1|]. split; [|split; [exact W3|split; [exact W4|eapply items_kid; [eapply nth_error_In; exact EK|exact W5]]]].
    assert (Hi : (i < List.length ks)%nat) by (apply nth_error_Some; rewrite EK; discriminate).
    cbn [walk]. unfold getChildByIndex, children_pos. rewrite Ec, Ep. cbn [obind]. destruct (Z.ltb_spec (Z.of_nat i) 0); [lia|]. destruct (Z.leb_spec (zlen ks) (Z.of_nat i)); [unfold zlen in *; lia|]. cbn [orb].
    rewrite (Q i K EK). cbn [obind]. replace (x + (ix K - x)) with (ix K) by lia. exact W2.
Qed.

Section IMAGE.
Context (fl : floats) (cr : creator) (d o img : list Z) (limit size : Z) (U : Z -> Prop) (Pl : list Z -> Z -> Prop).
Context (Mv : moves o img 0 size) (HU : forall b, U b -> 0 <= b < size) (Hsz : size <= zlen img) (Hz : zlen img <= INT_MAX) (Hd : zlen d <= INT_MAX).

Lemma copy_shifts p q n : copy d p o q n -> q + n <= size -> shifts d img (q - p) p (p + n).
Proof using Mv HU Pl.
  intros C Iu r cs Hr A B. pose proof (copy_range _ _ _ _ _ C) as (C1 & C2 & C3 & C4 & C5). pose proof (zlen_nonneg cs).
  replace (r + (q - p)) with (q + (r - p)) by lia. apply Mv; [|lia|lia].
  apply (copy_has d p o q n (r - p) cs C); [replace (p + (r - p)) with r by lia; exact Hr|lia|lia].
Qed.

Lemma packed_size i y : layout d i -> packed d U Pl o i y -> 0 <= y /\ y mod 4 = 0 /\ y + (ic i - ix i) <= size.
Proof using Mv HU.
  intros L P. pose proof (layout_range _ _ L) as R. destruct i as [x c e k]. cbn [packed ix ic ie] in *. destruct P as (A & B & C & D & _). specialize (HU _ (D (y + (c - x) - 1) ltac:(lia))). lia.
Qed.

(** The own bytes of an element move by a multiple of four. *)
Lemma packed_own x c e ks t y : layout d (It x c e ks) -> packed d U Pl o (It x c e ks) y -> zlen ks = zlen (kids_of t) -> own fl cr d limit x c t ->
  (forall v, value_of t = Some v -> suits (y - x) (XBT_Detect v)) -> own fl cr img (limit + (y - x)) y (c + (y - x)) t.
Proof using Mv HU Hd.
  intros L P Zk O Sv. pose proof (packed_size _ _ L P) as (Y0 & Y4 & Ys). cbn [ix ic] in Ys. pose proof (layout_range _ _ L) as Rg. cbn [ix ic ie] in Rg.
  destruct t as [n v a k]. cbn [own value_of kids_of] in *. destruct O as (id & e1 & e2 & O1 & O2 & O3 & O4 & O5 & O6 & O7 & O8 & O9).
  cbn [packed] in P. destruct P as (_ & _ & _ & _ & E & _ & pc & G1 & G2 & G3 & _). pose proof (zlen_nonneg a). pose proof (zlen_nonneg k).
  pose proof (head_split _ _ _ _ _ O6) as (H1 & H2 & H3).
  assert (Epc : pc = zlen a). { assert (X : it_paramcount d x = Ok (zlen a)) by (apply has_s16; [lia|exact H2]). rewrite G1 in X. inversion X. reflexivity. }
  subst pc. rewrite Zk in G3. assert (V : x + 12 + 8 * zlen a + 4 * zlen k < e1) by apply O7. pose proof (attrs_mono _ _ _ _ _ _ _ _ _ O8) as Ma.
  assert (S1 := copy_shifts _ _ _ E ltac:(lia)). assert (S2 := copy_shifts _ _ _ G2 ltac:(lia)). assert (S3 := copy_shifts _ _ _ G3 ltac:(lia)).
  replace (y + 12 - (x + 12)) with (y - x) in S2 by lia.
  replace (y + 12 + 8 * zlen a + 4 * zlen k - (x + 12 + 8 * zlen a + 4 * zlen k)) with (y - x) in S3 by lia.
  replace (x + 12 + 8 * zlen a + 4 * zlen k + (c - (x + 12 + 8 * zlen a + 4 * zlen k))) with c in S3 by lia.
  assert (D4 : (y - x) mod 4 = 0) by (clear - Y4 Rg; lia).
  exists id, (e1 + (y - x)), (e2 + (y - x)). split; [exact O1|]. split; [exact Y4|]. split; [exact Y0|]. split; [exact O4|]. split; [exact O5|].
  split; [replace y with (x + (y - x)) at 1 by lia; apply S1; [exact O6|lia|rewrite !zlen_app, !le_zlen; lia]|].
  split; [replace (y + 12 + 8 * zlen a + 4 * zlen k) with (x + 12 + 8 * zlen a + 4 * zlen k + (y - x)) by lia; apply (value_shift fl d); [exact Sv|eapply shifts_in; [exact S3|lia|lia]|exact O7]|].
  split; [|lia]. replace (y + 12) with (x + 12 + (y - x)) by lia. replace y with (x + (y - x)) at 1 by lia. apply (attrs_shift fl cr d); [exact D4|exact S2|eapply shifts_in; [exact S3|lia|lia]|exact O8].
Qed.

(** The children of an element in both images. *)
Lemma packed_links x c e ks y : layout d (It x c e ks) -> packed d U Pl o (It x c e ks) y ->
  exists pc, it_paramcount d x = Ok pc /\ 0 <= pc /\ forall i K, nth_error ks i = Some K ->
    exists z, has img (y + 12 + 8 * pc + 4 * Z.of_nat i) (le 4 (z - y)) /\ 0 <= z < size /\ packed d U Pl o K z /\ Pl (bytes_of d K) z /\ rd_s32 d (x + 12 + 8 * pc + 4 * Z.of_nat i) = Ok (ix K - x) /\ layout d K.
Proof using Mv HU.
  intros L P. pose proof (packed_size _ _ L P) as (Y0 & Y4 & Ys). cbn [ix ic] in Ys. pose proof (layout_kids _ _ _ _ _ L) as LK. cbn [packed layout] in P, L. destruct P as (_ & _ & _ & _ & _ & _ & pc & G1 & _ & _ & G4).
  destruct L as (nm & pc' & X1 & X2 & X3 & X4 & X5 & X6 & X7 & X8 & X9 & X10 & X11 & X12 & X13 & _ & X14). rewrite G1 in X11. inversion X11; subst pc'. clear X11.
  exists pc. split; [exact G1|]. split; [exact X1|].
  assert (Q : forall l p q lo i K, incl l ks -> nth_error l i = Some K -> 0 <= p -> p + 4 * zlen l <= size -> kids_packed (fun k z => packed d U Pl o k z) d Pl o y p l -> kids_layout (fun k => layout d k) d x e q lo l ->
    exists z, has img (p + 4 * Z.of_nat i) (le 4 (z - y)) /\ packed d U Pl o K z /\ Pl (bytes_of d K) z /\ rd_s32 d (q + 4 * Z.of_nat i) = Ok (ix K - x)).
  { clear G4 X14 X4. induction l as [|t l IH]; intros p q lo i K Il HK Hp Hs Kp Kl; [destruct i; discriminate HK|]. rewrite zlen_cons in Hs. pose proof (zlen_nonneg l). cbn [kids_packed kids_layout] in Kp, Kl.
    destruct Kp as ((z & K1 & K2 & K3) & K4). destruct Kl as (L1 & L2 & L3 & L4). destruct i as [|i]; cbn [nth_error] in HK.
    - inversion HK; subst t. exists z. replace (p + 4 * Z.of_nat 0) with p by lia. replace (q + 4 * Z.of_nat 0) with q by lia. split; [apply Mv; [exact K1|lia|rewrite le_zlen; lia]|]. auto.
    - destruct (IH (p + 4) (q + 4) _ i K (fun u Hu => Il u (or_intror Hu)) HK ltac:(lia) ltac:(lia) K4 L4) as (z' & A & B & C & D). exists z'.
      replace (p + 4 * Z.of_nat (S i)) with (p + 4 + 4 * Z.of_nat i) by lia. replace (q + 4 * Z.of_nat (S i)) with (q + 4 + 4 * Z.of_nat i) by lia. auto. }
  intros i K HK. destruct (Q ks (y + 12 + 8 * pc) (x + 12 + 8 * pc) c i K (incl_refl _) HK ltac:(lia) ltac:(lia) G4 X14) as (z & A & B & C & D).
  destruct (LK K (nth_error_In _ _ HK)) as (_ & _ & LK'). pose proof (packed_size K z LK' B) as (Z0 & Z4 & Zs). pose proof (layout_range _ _ LK') as RK.
  exists z. split; [exact A|]. split; [lia|]. auto.
Qed.

Lemma packed_dag t : (forall u v, In u (elements t) -> value_of u = Some v -> XBT_Detect v <> XBT_INT64 /\ XBT_Detect v <> XBT_UINT64) ->
  forall J y, layout d J -> shape fl cr d limit J t -> packed d U Pl o J y -> dag_at fl cr img y t.
Proof using Mv HU Hd Hsz.
  induction t as [n v a k IH] using node_ind'. intros Sv J y L S P. inversion S as [x c e ks n' v' a' k' O F]; subst. pose proof (Forall2_zlen _ _ _ F) as Zk. pose proof (packed_size _ _ L P) as (Y0 & Y4 & Ys). pose proof (layout_range _ _ L) as Rg. cbn [ix ic ie] in Rg, Ys.
  assert (O' : own fl cr img (limit + (y - x)) y (c + (y - x)) (Node n v a k)).
  { eapply packed_own; [exact L|exact P|symmetry; exact Zk|exact O|]. intros w Hw. split; [clear - Y4 Rg; lia|right]. apply (Sv (Node n v a k)); [left; reflexivity|exact Hw]. }
  cbn [dag_at]. cbn [own] in O'. destruct O' as (id & e1 & e2 & O1 & O2 & O3 & O4 & O5 & O6 & O7 & O8 & O9).
  exists (limit + (y - x)), id, e1, e2. repeat (split; [assumption|]).
  destruct (packed_links x c e ks y L P) as (pc & Ep & Hp & Q).
  assert (Epc : pc = zlen a). { cbn [own] in O. destruct O as (id' & f1 & f2 & _ & _ & _ & Z4 & _ & O' & _). apply head_split in O'. destruct O' as (_ & H2 & _). assert (X : it_paramcount d x = Ok (zlen a)) by (apply has_s16; [pose proof (zlen_nonneg a); lia|exact H2]). rewrite Ep in X. inversion X. reflexivity. }
  subst pc. assert (G : forall l lk p, Forall2 (shape fl cr d limit) lk l -> (forall t, In t l -> In t k) -> (forall i K, nth_error lk i = Some K -> exists z, has img (p + 4 * Z.of_nat i) (le 4 (z - y)) /\ 0 <= z < size /\ packed d U Pl o K z /\ layout d K) ->
     links_at (fun z t => dag_at fl cr img z t) img y p l).
  { induction l as [|t l IHl]; intros lk p Fl Il Hl; [exact I|]. inversion Fl as [|j ? lk' ? Sj Fl']; subst. cbn [links_at]. split.
    - destruct (Hl 0%nat j eq_refl) as (z & A & B & C & D). replace (p + 4 * Z.of_nat 0) with p in A by lia. exists z. split; [exact A|]. split; [lia|]. rewrite Forall_forall in IH. apply (IH t (Il t (or_introl eq_refl))) with (J := j); try assumption.
      intros u w Hu. apply Sv. eapply elements_kids; [exact (Il t (or_introl eq_refl))|exact Hu].
    - apply (IHl lk'); [exact Fl'|intros; apply Il; right; assumption|]. intros i K HK. destruct (Hl (Datatypes.S i) K HK) as (z & A & B). exists z. split; [replace (p + 4 + 4 * Z.of_nat i) with (p + 4 * Z.of_nat (Datatypes.S i)) by lia; exact A|exact B]. }
  apply (G k ks); [exact F|auto|]. intros i K HK. destruct (Q i K HK) as (z & A & B & C & _ & _ & D). exists z. auto.
Qed.

(** The way down in the packed image. *)
Lemma packed_walk path : forall t u J y, layout d J -> shape fl cr d limit J t -> packed d U Pl o J y -> Pl (bytes_of d J) y -> sub t path = Some u ->
  exists K z, item_sub J path = Some K /\ walk img y path = Ok (Some z) /\ layout d K /\ shape fl cr d limit K u /\ packed d U Pl o K z /\ Pl (bytes_of d K) z.
Proof using Mv HU Hsz Hz Hd.
  induction path as [|i r IH]; intros t u J y L S P Pp Hs; cbn [sub] in Hs.
  - inversion Hs; subst u. exists J, y. cbn [walk item_sub]. auto 8.
  - destruct (nth_error (kids_of t) i) as [k|] eqn:E; [|discriminate Hs]. inversion S as [x c e ks n v a k' O F]; subst. cbn [kids_of ix] in *.
    destruct (packed_links x c e ks y L P) as (pc & Ep & Hp & Q). pose proof (packed_size _ _ L P) as (Y0 & Y4 & Ys). pose proof (layout_range _ _ L) as Rg. cbn [ix ic ie] in Rg, Ys.
    destruct (shape_nth fl cr d limit ks k' i k F E) as (K & EK & SK). destruct (Q i K EK) as (z & A & B & C & Cp & D & LK). destruct (IH k u K z LK SK C Cp Hs) as (K' & z' & W1 & W2 & R). exists K', z'. split; [|split; [|exact R]].
    + cbn [item_sub ikids]. rewrite EK. exact W1.
    + assert (Hd8 : copy d x o y 8) by (cbn [packed] in P; apply P). pose proof (copy_shifts _ _ _ Hd8 ltac:(lia)) as Sh.
      cbn [own] in O. destruct O as (id & f1 & f2 & _ & _ & _ & O4 & O5 & O6 & _). assert (O6' : has img y (le 2 id ++ le 2 (zlen a) ++ le 4 (zlen k'))) by (replace y with (x + (y - x)) by lia; apply Sh; [exact O6|lia|rewrite !zlen_app, !le_zlen; lia]).
      apply head_split in O6. destruct O6 as (_ & H2 & _). apply head_split in O6'. destruct O6' as (_ & H2' & H3'). pose proof (zlen_nonneg a). pose proof (zlen_nonneg k').
      assert (Cc : it_childcount img y = Ok (zlen k')) by (apply has_s32; [unfold int32, INT_MIN, INT_MAX in *; lia|exact H3']).
      assert (Cp' : it_paramcount img y = Ok (zlen a)) by (apply has_s16; [lia|exact H2']).
      assert (Cp0 : it_paramcount d x = Ok (zlen a)) by (apply has_s16; [lia|exact H2]). rewrite Ep in Cp0. inversion Cp0; subst pc.
      assert (Hi : (i < List.length k')%nat) by (apply nth_error_Some; rewrite E; discriminate).
      cbn [walk]. unfold getChildByIndex, children_pos. rewrite Cc, Cp'. cbn [obind]. destruct (Z.ltb_spec (Z.of_nat i) 0); [lia|]. destruct (Z.leb_spec (zlen k') (Z.of_nat i)); [unfold zlen in *; lia|]. cbn [orb].
      rewrite (has_s32 _ _ (z - y)) by (try exact A; unfold int32, INT_MIN, INT_MAX in *; lia). cbn [obind]. replace (y + (z - y)) with z by lia. exact W2.
Qed.
End IMAGE.
