(** The packed document as a whole. *)
From Verif Require Import Base BaseFacts ListFacts NumSpec Types CalSpec RingProofs RoundtripProofs Sort SortProofs Sha1Spec Sha1 Symtab SymtabSpec SymtabProofs
  Xb XbSpec XbFacts XbSymProofs XbWrite DocSpec ReadSpec NavSpec WriteProofs FillProofs InitProofs OpenProofs ReadProofs NavProofs AppendProofs
  CheckSpec Packer PackSpec PackFacts MarkProofs PackProofs PackDoc PackRead.
From Coq Require Import Relations.

(** ** Images that agree *)
Lemma moves_rd m m' lo hi p n b : moves m m' lo hi -> 0 <= n -> lo <= p -> p + n <= hi -> rd m p n = Ok b -> rd m' p n = Ok b.
Proof. intros M Hn Hl Hh H. apply rd_inv in H; [|exact Hn]. destruct H as (A & B & C & D). rewrite <- D. apply has_rd, M; [exact C|lia|lia]. Qed.
Lemma moves_s16 m m' lo hi p v : moves m m' lo hi -> lo <= p -> p + 2 <= hi -> rd_s16 m p = Ok v -> rd_s16 m' p = Ok v.
Proof. unfold rd_s16. intros M Hl Hh H. destruct (rd m p 2) as [b| |] eqn:E; [|discriminate H|discriminate H]. rewrite (moves_rd m m' lo hi p 2 b M ltac:(lia) Hl Hh E). exact H. Qed.
Lemma moves_s32 m m' lo hi p v : moves m m' lo hi -> lo <= p -> p + 4 <= hi -> rd_s32 m p = Ok v -> rd_s32 m' p = Ok v.
Proof. unfold rd_s32. intros M Hl Hh H. destruct (rd m p 4) as [b| |] eqn:E; [|discriminate H|discriminate H]. rewrite (moves_rd m m' lo hi p 4 b M ltac:(lia) Hl Hh E). exact H. Qed.

Lemma layout_frame d d' i : moves d d' (ix i) (ie i) -> ie i <= zlen d' -> layout d i -> layout d' i.
Proof.
  induction i as [x c e k IH] using item_ind'. intros M He L. pose proof (layout_range _ _ L) as R. pose proof (layout_kids _ _ _ _ _ L) as LK. cbn [ix ic ie layout] in *.
  destruct L as (nm & pc & X1 & X2 & X3 & X4 & X5 & X6 & X7 & X8 & X9 & X10 & X11 & X12 & X13 & X14 & X15). pose proof (zlen_nonneg k).
  exists nm, pc. repeat (split; [assumption|]). split; [eapply moves_s16; [exact M|lia|lia|exact X8]|]. split; [exact X9|]. split; [exact X10|].
  split; [eapply moves_s16; [exact M|lia|lia|exact X11]|]. split; [eapply moves_s32; [exact M|lia|lia|exact X12]|]. split; [eapply moves_s32; [exact M|lia|lia|exact X13]|]. split; [exact X14|].
  assert (Q : forall l p lo, incl l k -> x <= p -> p + 4 * zlen l <= e -> kids_layout (fun k => layout d k) d x e p lo l -> kids_layout (fun k => layout d' k) d' x e p lo l).
  { induction l as [|t l IHl]; intros p lo Il Hp Hpe K; cbn [kids_layout] in *; [exact K|]. rewrite zlen_cons in Hpe. pose proof (zlen_nonneg l). destruct K as (K1 & K2 & K3 & K4).
    split; [exact K1|]. split; [eapply moves_s32; [exact M|lia|lia|exact K2]|]. destruct (LK t (Il t (or_introl eq_refl))) as (T1 & T2 & T3).
    split; [rewrite Forall_forall in IH; apply IH; [apply Il; left; reflexivity|eapply moves_in; [exact M|lia|lia]|lia|exact K3]|]. apply IHl; [intros u Hu; apply Il; right; exact Hu|lia|lia|exact K4]. }
  apply Q; [apply incl_refl|lia|lia|exact X15].
Qed.
Lemma bytes_frame d d' i : layout d i -> moves d d' (ix i) (ie i) -> bytes_of d' i = bytes_of d i.
Proof.
  intros L M. pose proof (layout_range _ _ L) as R. unfold bytes_of. pose proof (slice_has d (ix i) (ie i - ix i) ltac:(lia) ltac:(lia) ltac:(lia)) as H. pose proof (zlen_slice d (ix i) (ie i - ix i) ltac:(lia) ltac:(lia) ltac:(lia)) as Z.
  pose proof (has_slice _ _ _ (M _ _ H ltac:(lia) ltac:(lia))) as E. rewrite Z in E. exact E.
Qed.
Lemma shape_frame fl cr d d' limit t : forall i, layout d i -> moves d d' (ix i) (ie i) -> shape fl cr d limit i t -> shape fl cr d' limit i t.
Proof.
  induction t as [n v a k IH] using node_ind'. intros i L M S. inversion S as [x c e ks n' v' a' k' O F]; subst. pose proof (layout_range _ _ L) as R. pose proof (layout_kids _ _ _ _ _ L) as LK. cbn [ix ic ie] in *. constructor.
  - cbn [own] in *. destruct O as (id & e1 & e2 & O1 & O2 & O3 & O4 & O5 & O6 & O7 & O8 & O9). pose proof (zlen_nonneg a). pose proof (zlen_nonneg k).
    assert (V : x + 12 + 8 * zlen a + 4 * zlen k < e1) by apply O7. pose proof (attrs_mono _ _ _ _ _ _ _ _ _ O8) as Ma.
    exists id, e1, e2. repeat (split; [assumption|]). split; [apply M; [exact O6|lia|rewrite !zlen_app, !le_zlen; lia]|].
    split; [eapply value_frame; [eapply moves_in; [exact M|lia|lia]|exact O7]|]. split; [|exact O9]. eapply attrs_frame; [eapply moves_in; [exact M|lia|lia]|eapply moves_in; [exact M|lia|lia]|exact O8].
  - clear O. assert (Q : forall j, In j ks -> layout d j /\ moves d d' (ix j) (ie j)).
    { intros j Hj. destruct (LK j Hj) as (A & B & C). split; [exact C|]. eapply moves_in; [exact M|lia|lia]. }
    clear L LK M R S. induction F as [|j t ks k Sj F IHF]; [constructor|]. inversion IH as [|? ? IH1 IH2]; subst. constructor; [apply IH1; [apply Q|apply Q|exact Sj]; left; reflexivity|]. apply IHF; [exact IH2|intros; apply Q; right; assumption].
Qed.

(** ** The nodes of an image are reached from its beginning *)
Lemma layout_child d x c e ks k : layout d (It x c e ks) -> In k ks -> child d x (ix k).
Proof.
  intros L Hk. cbn [layout] in L. destruct L as (nm & pc & X1 & X2 & X3 & X4 & X5 & X6 & X7 & X8 & X9 & X10 & X11 & X12 & X13 & X14 & X15).
  assert (Q : forall l p lo, In k l -> kids_layout (fun k => layout d k) d x e p lo l -> exists i, 0 <= i < zlen l /\ rd_s32 d (p + 4 * i) = Ok (ix k - x)).
  { clear. induction l as [|t l IH]; intros p lo Hk K; [destruct Hk|]. cbn [kids_layout] in K. destruct K as (K1 & K2 & K3 & K4). rewrite zlen_cons. pose proof (zlen_nonneg l). destruct Hk as [->|Hk].
    - exists 0. split; [lia|]. replace (p + 4 * 0) with p by lia. exact K2.
    - destruct (IH _ _ Hk K4) as (i & A & B). exists (i + 1). split; [lia|]. replace (p + 4 * (i + 1)) with (p + 4 + 4 * i) by lia. exact B. }
  destruct (Q ks _ _ Hk X15) as (i & A & B). exists i. unfold getChildByIndex, children_pos. rewrite X12, X11. cbn [obind]. destruct (Z.ltb_spec i 0); [lia|]. destruct (Z.leb_spec (zlen ks) i); [lia|]. cbn [orb].
  rewrite B. cbn [obind]. do 2 f_equal. lia.
Qed.
Lemma layout_reach d i : layout d i -> forall j, In j (items i) -> reach d (ix i) (ix j).
Proof.
  induction i as [x c e k IH] using item_ind'. intros L j [<-|H]; [constructor|]. apply in_flat_map in H. destruct H as (t & Ht & Hj). rewrite Forall_forall in IH.
  eapply Relation_Operators.rt1n_trans; [exact (layout_child _ _ _ _ _ _ L Ht)|]. apply IH; [exact Ht|apply (layout_kids _ _ _ _ _ L t Ht)|exact Hj].
Qed.
Lemma layout_stored d i : layout d i -> stored_as d (ix i) (bytes_of d i).
Proof.
  intros L. pose proof (layout_range _ _ L) as R. exists (ie i - ix i). split; [apply layout_length, L|]. unfold bytes_of.
  pose proof (has_rd _ _ _ (slice_has d (ix i) (ie i - ix i) ltac:(lia) ltac:(lia) ltac:(lia))) as H. rewrite zlen_slice in H by lia. exact H.
Qed.
Lemma separates d i : sha1_separates d -> layout d i -> ix i = 0 -> separated d (items i).
Proof.
  intros S L E a b Ha Hb H. apply (S (ix a) (ix b)); [rewrite <- E; apply layout_reach; assumption|rewrite <- E; apply layout_reach; assumption| | |exact H]; apply layout_stored, (items_range _ _ L _); assumption.
Qed.

(** ** Nodes without children are copied as they are *)
Lemma leaf_copy d U Pl o x e y : layout d (It x e e []) -> has d (x + 8) (le 4 (e - x)) -> packed d U Pl o (It x e e []) y -> copy d x o y (e - x).
Proof.
  intros L H P. pose proof (layout_range _ _ L) as R. cbn [ix ic ie] in R. cbn [packed] in P. destruct P as (A & B & C & D & E & (len & F1 & F2 & F3 & F4) & pc & G1 & G2 & G3 & _).
  rewrite (F4 eq_refl) in F1. change (zlen (@nil item)) with 0 in G3.
  assert (Hp : 0 <= pc) by (apply copy_range in G2; lia).
  assert (C2 : copy d (x + 8) o (y + 8) 4). { split; [lia|]. split; [lia|]. pose proof (has_range _ _ _ H) as Hr. rewrite le_zlen in Hr. split; [lia|]. pose proof (has_slice _ _ _ H) as E1. rewrite le_zlen in E1. change (Z.of_nat 4) with 4 in E1. rewrite E1. exact F1. }
  assert (C3 : copy d x o y 12) by (apply (copy_join d x o y 8 4); assumption).
  assert (C4 : copy d x o y (12 + 8 * pc)) by (apply copy_join; assumption).
  replace (e - x) with (12 + 8 * pc + (e - (x + 12 + 8 * pc + 4 * 0))) by lia. apply copy_join; [exact C4|]. replace (x + (12 + 8 * pc)) with (x + 12 + 8 * pc + 4 * 0) by lia. replace (y + (12 + 8 * pc)) with (y + 12 + 8 * pc + 4 * 0) by lia. exact G3.
Qed.
Lemma has_untake m n q cs : has (ztake n m) q cs -> has m q cs.
Proof. intros H. rewrite <- (ztake_zskip n m). apply has_before, H. Qed.

(** ** The document *)
Section DOCUMENT.
Context (fl : floats) (cr : creator) (d o img : list Z) (limit size size' : Z) (filename : list Z) (root : node) (y1 e1 y2 e2 y3 x : Z) (J : item).
Context (D : doc_at fl cr d limit size filename root y1 e1 y2 e2 y3 x) (Hs : size <= zlen d) (Hd : zlen d <= INT_MAX).
Let I0 := It 0 y1 size [It y1 e1 e1 []; It y2 e2 e2 []; It y3 x size [J]].
Context (EJ : ix J = x) (LJ : layout d I0).
Context (U : Z -> Prop) (Pl : list Z -> Z -> Prop) (P : packed d U Pl o I0 0) (H8 : has o 8 (le 4 size')) (HU : forall b, U b -> 0 <= b < size').
Context (Mv : moves o img 0 size') (Hsz : size' <= zlen img) (Hz : zlen img <= INT_MAX).

Lemma packed_doc : exists z1 z2 z3 z, doc_shell cr img size' filename z1 (z1 + (e1 - y1)) z2 (z2 + (e2 - y2)) z3 z /\ packed d U Pl o J z /\ Pl (bytes_of d J) z /\ layout d J.
Proof using All.
  assert (Hi : int32 (zlen d)) by (pose proof (zlen_nonneg d); unfold int32, INT_MIN, INT_MAX in *; lia).
  pose proof (doc_order fl cr d limit size filename root y1 e1 y2 e2 y3 x D Hs Hi) as O. pose proof (zlen_nonneg filename) as Zf.
  destruct (doc_head fl cr d limit size filename root y1 e1 y2 e2 y3 x D Hs Hi) as (DH1 & DH2 & DH3 & DH4).
  destruct D as (A1 & A2 & A3 & A4 & B1 & B2 & B3 & B4 & B5 & B6 & B7 & B8 & B9 & B10 & B11 & T1 & T2 & Py).
  destruct Py as (P1 & P2 & P3 & P4 & P5 & P6 & P7 & P8 & _ & _).
  pose proof (layout_kids _ _ _ _ _ LJ) as LK.
  assert (L1 : layout d (It y1 e1 e1 [])) by (apply LK; left; reflexivity). assert (L2 : layout d (It y2 e2 e2 [])) by (apply LK; right; left; reflexivity).
  assert (L3 : layout d (It y3 x size [J])) by (apply LK; right; right; left; reflexivity). assert (L4 : layout d J) by (apply (layout_kids _ _ _ _ _ L3); left; reflexivity).
  pose proof (packed_size d o img size' U Pl Mv HU _ _ LJ P) as (_ & _ & S0). cbn [ic ix I0] in S0.
  unfold I0 in P. cbn [packed] in P. destruct P as (_ & _ & _ & _ & E & _ & pc & G1 & G2 & G3 & G4). rewrite DH2 in G1. inversion G1; subst pc. clear G1. cbn [kids_packed] in G4.
  destruct G4 as ((z1 & K1 & _ & K2) & (z2 & K3 & _ & K4) & (z3 & K5 & _ & K6) & _). change (0 + 12 + 8 * 4 + 4 + 4) with 52 in *. change (0 + 12 + 8 * 4 + 4) with 48 in *. change (0 + 12 + 8 * 4) with 44 in *. rewrite Z.sub_0_r in K1, K3, K5.
  assert (Q1 := K2). change (packed d U Pl o (It y1 e1 e1 []) z1) in Q1. assert (Q2 := K4). change (packed d U Pl o (It y2 e2 e2 []) z2) in Q2. assert (Q3 := K6). change (packed d U Pl o (It y3 x size [J]) z3) in Q3. clear K2 K4 K6.
  pose proof (packed_size d o img size' U Pl Mv HU _ _ L1 Q1) as (R1 & R1' & R1''). pose proof (packed_size d o img size' U Pl Mv HU _ _ L2 Q2) as (R2 & R2' & R2''). pose proof (packed_size d o img size' U Pl Mv HU _ _ L3 Q3) as (R3 & R3' & R3''). cbn [ix ic] in R1'', R2'', R3''.
  assert (V1 : has d (y1 + 8) (le 4 (e1 - y1))) by apply T1. assert (V2 : has d (y2 + 8) (le 4 (e2 - y2))) by apply T2.
  pose proof (leaf_copy _ _ _ _ _ _ _ L1 V1 Q1) as C1. pose proof (leaf_copy _ _ _ _ _ _ _ L2 V2 Q2) as C2.
  pose proof (copy_shifts d o img size' U Pl Mv HU _ _ _ C1 ltac:(lia)) as Sh1. pose proof (copy_shifts d o img size' U Pl Mv HU _ _ _ C2 ltac:(lia)) as Sh2.
  replace (y1 + (e1 - y1)) with e1 in Sh1 by lia. replace (y2 + (e2 - y2)) with e2 in Sh2 by lia.
  pose proof (packed_links d o img size' U Pl Mv HU _ _ _ _ _ L3 Q3) as (pc & Ep & Hp & Lk). 
  assert (pc = 0). { apply head_split in P5. destruct P5 as (_ & H2 & _). assert (X : it_paramcount d y3 = Ok 0) by (apply has_s16; [lia|exact H2]). rewrite Ep in X. inversion X. reflexivity. } subst pc.
  destruct (Lk 0%nat J eq_refl) as (z & K7 & K8 & K9 & K10 & _). replace (z3 + 12 + 8 * 0 + 4 * Z.of_nat 0) with (z3 + 12) in K7 by lia.
  exists z1, z2, z3, z. split; [|split; [exact K9|split; [exact K10|exact L4]]].
  assert (Sa : shifts d img (0 - 0) 0 (0 + 8)) by (apply (copy_shifts d o img size' U Pl Mv HU); [exact E|lia]).
  assert (Sb : shifts d img (12 - 12) 12 (12 + 32)) by (apply (copy_shifts d o img size' U Pl Mv HU); [exact G2|lia]).
  assert (Sc : shifts d img (56 - 56) 56 (56 + (y1 - 56))) by (apply (copy_shifts d o img size' U Pl Mv HU); [exact G3|lia]).
  assert (S3 : copy d y3 o z3 8) by (cbn [packed] in Q3; apply Q3). assert (Sd : shifts d img (z3 - y3) y3 (y3 + 8)) by (apply (copy_shifts d o img size' U Pl Mv HU); [exact S3|lia]).
  assert (Sx : forall lo hi q cs, shifts d img (lo - lo) lo hi -> has d q cs -> lo <= q -> q + zlen cs <= hi -> has img q cs) by (intros lo hi q cs S H X Y; pose proof (S q cs H X Y) as Z; replace (q + (lo - lo)) with q in Z by lia; exact Z).
  unfold doc_shell. split; [lia|]. split; [lia|]. split; [lia|]. split; [lia|]. split; [lia|]. split; [lia|]. split; [lia|].
  split; [apply (Sx _ _ _ _ Sa); [exact B1|lia|len; lia]|]. split; [apply Mv; [exact H8|lia|len; lia]|].
  split; [apply (Sx _ _ _ _ Sb); [exact B3|lia|len; lia]|]. split; [apply (Sx _ _ _ _ Sb); [exact B4|lia|len; lia]|]. split; [apply (Sx _ _ _ _ Sb); [exact B5|lia|len; lia]|]. split; [apply (Sx _ _ _ _ Sb); [exact B6|lia|len; lia]|].
  split; [apply (Sx _ _ _ _ Sc); [exact B7|lia|len; lia]|].
  split; [apply Mv; [exact K1|lia|len; lia]|]. split; [apply Mv; [exact K3|lia|len; lia]|]. split; [apply Mv; [exact K5|lia|len; lia]|].
  split; [replace z1 with (y1 + (z1 - y1)) at 1 by lia; replace (z1 + (e1 - y1)) with (e1 + (z1 - y1)) by lia; apply (table_shift d); [exact Sh1| |lia|exact T1]; destruct T1 as (T4 & _); clear - R1' T4; lia|].
  split; [replace z2 with (y2 + (z2 - y2)) at 1 by lia; replace (z2 + (e2 - y2)) with (e2 + (z2 - y2)) by lia; apply (table_shift d); [exact Sh2| |lia|exact T2]; destruct T2 as (T4 & _); clear - R2' T4; lia|].
  split; [|exact K7]. replace z3 with (y3 + (z3 - y3)) by lia. apply Sd; [exact P5|lia|len; lia].
Qed.
End DOCUMENT.

Lemma height_pos t : (1 <= height t)%nat.
Proof. destruct t. cbn [height]. lia. Qed.

(** The image [img] of [root] and what the packer makes of it. *)
Definition packs_to fl limit filename root img img' : Prop :=
  exists cr d o size size' U Pl J x y1 e1 y2 e2 y3 z1 f1 z2 f2 z3 z,
    made root cr /\ good_source cr root /\ zlen d <= INT_MAX /\ zlen img' <= zlen img <= zlen d /\ bytes img' /\
    doc_at fl cr img limit size filename root y1 e1 y2 e2 y3 x /\ size <= zlen img /\ ix J = x /\
    layout d J /\ layout img J /\ shape fl cr d limit J root /\ shape fl cr img limit J root /\ (forall K, In K (items J) -> bytes_of img K = bytes_of d K) /\
    packed d U Pl o J z /\ (forall b p q, Pl b p -> Pl b q -> p = q) /\ Pl (bytes_of d J) z /\
    moves o img' 0 size' /\ (forall b, U b -> 0 <= b < size') /\ size' <= zlen img' /\
    doc_shell cr img' size' filename z1 f1 z2 f2 z3 z.

Lemma packs_doc fl m filename modified root img W scratch heap depth : bytes m -> zlen m <= INT_MAX -> cstring filename -> document_fits root -> no_hex root ->
  Make_xb fl m filename modified root = rret img -> sha1_separates img -> zlen W = 64 -> bytes heap -> zlen img <= zlen heap -> zlen scratch = 4 + zlen (elements root) ->
  (height root + 2 <= depth)%nat ->
  exists img', Make_packed W scratch heap depth fl m filename modified root = rret img' /\ packs_to fl (zlen m) filename root img img'.
Proof.
  intros Hb Hm Hf F NH H Sep HW Hh Hhl Hsc Hdp. destruct (MakeSymbolTable_ok root F) as (cr & E & M). unfold Make_packed. unfold Make_xb in H. rewrite E in H |- *. rewrite rbind_ret in H |- *.
  destruct (FillData fl cr m filename modified root) as [[d size]| |] eqn:EF; [|discriminate H|discriminate H].
  pose proof M as (A1 & A2 & A3 & A4 & A5 & A6 & _). destruct (FillData_ok fl cr m filename modified root d size A3 A4 Hf (proj1 F) EF) as (L & B & y1 & e1 & y2 & e2 & y3 & x & D).
  change (Some (Ok (d, size))) with (rret (d, size)) in H |- *. rewrite rbind_ret in H |- *. cbv zeta in H |- *. destruct (Z.ltb_spec (zlen d) (align_up 4 size)) as [?|Ld]; [discriminate H|].
  assert (Ei : img = ztake (align_up 4 size) d) by (apply (f_equal (fun o => match o with Some (Ok p) => p | _ => img end)) in H; symmetry; exact H). clear H.
  assert (Hs0 : 0 <= size /\ size <= zlen m) by (assert (Q : size <= zlen m /\ 57 + zlen filename + 1 <= y1 /\ y1 + 36 <= e1 /\ e1 <= y2 /\ y2 + 36 <= e2 /\ e2 <= y3 /\ y3 + 17 <= x /\ x + 12 < size) by (repeat split; apply D); pose proof (zlen_nonneg filename); lia).
  pose proof (align_up_ge 4 size ltac:(lia)) as Sg. assert (Zi : zlen img = align_up 4 size) by (rewrite Ei, zlen_take by lia; lia).
  destruct (Z.ltb_spec (zlen heap) (align_up 4 size)); [lia|].
  assert (Hd : zlen d <= INT_MAX) by lia. specialize (B Hb).
  assert (Hg : good_source cr root) by (split; [apply A6; exact NH|exact NH]).
  assert (Kn : known cr root) by (intros u Hu; apply (A5 u Hu)).
  assert (Mi : moves d img 0 size) by (rewrite Ei; eapply moves_in; [apply take_moves|lia|lia]).
  pose proof (doc_frame _ _ _ img _ _ _ _ _ _ _ _ _ _ Mi D) as Di.
  destruct (doc_items fl cr d (zlen m) size filename root y1 e1 y2 e2 y3 x A1 Hd Kn ltac:(lia) Hg D) as (J & J1 & J2 & J3 & J4 & J5 & J6).
  set (I0 := It 0 y1 size [It y1 e1 e1 []; It y2 e2 e2 []; It y3 x size [J]]) in *.
  assert (Li : layout img I0) by (apply (layout_frame d); [exact Mi|cbn [ie I0]; lia|exact J6]).
  assert (Tot : zlen (items I0) = 4 + zlen (elements root)) by (unfold I0; change (zlen (It 0 y1 size [It y1 e1 e1 []; It y2 e2 e2 []; It y3 x size [J]] :: It y1 e1 e1 [] :: It y2 e2 e2 [] :: It y3 x size [J] :: (items J ++ []) ++ []) = 4 + zlen (elements root)); rewrite !zlen_cons, !app_nil_r, J5; lia).
  assert (In0 : forall K, In K (items I0) -> bytes_of img K = bytes_of d K).
  { intros K HK. destruct (items_range _ _ J6 K HK) as (LK & K1 & K2 & _). cbn [ix ie I0] in K1, K2. apply bytes_frame; [exact LK|]. eapply moves_in; [exact Mi|lia|lia]. }
  assert (InJ : forall K, In K (items J) -> In K (items I0)).
  { intros K HK. change (In K (I0 :: It y1 e1 e1 [] :: It y2 e2 e2 [] :: It y3 x size [J] :: (items J ++ []) ++ [])). do 4 right. rewrite !app_nil_r. exact HK. }
  assert (Sd : separated d (items I0)).
  { intros a b Ha Hb' Hab. rewrite <- !In0 in * by assumption. apply (separates img I0 Sep Li eq_refl a b); assumption. }
  assert (Dp : (deep I0 <= depth)%nat) by (unfold I0; cbn [deep map fold_right]; rewrite J4; pose proof (height_pos root); lia).
  assert (Zh : zlen (ztake (align_up 4 size) heap) = align_up 4 size) by (rewrite zlen_take by lia; lia).
  destruct (Pack_ok W d I0 scratch depth (ztake (align_up 4 size) heap) HW B (bytes_take _ _ Hh) Hd J6 eq_refl Sd ltac:(lia) Dp ltac:(rewrite Zh; cbn [ie I0]; lia)) as (data' & o & size' & P1 & P2 & P3 & P4 & P5 & P6 & P7 & U & Pl & P8 & P9 & P10 & P11 & P12).
  rewrite Tot in P1. rewrite P1, rbind_ret. exists (ztake (align_up 4 size') data'). split; [reflexivity|]. cbn [ie I0] in P2.
  pose proof (align_up_ge 4 size' ltac:(lia)) as Sg'. assert (Al : align_up 4 size' <= align_up 4 size) by (unfold align_up; lia).
  assert (Zi' : zlen (ztake (align_up 4 size') data') = align_up 4 size') by (rewrite zlen_take by lia; lia).
  assert (Mo : moves o (ztake (align_up 4 size') data') 0 size').
  { intros q cs Hq _ Hn. apply has_take; [|lia]. apply (has_untake _ size'). rewrite P7. apply has_take; assumption. }
  destruct (packed_doc fl cr d o (ztake (align_up 4 size') data') (zlen m) size size' filename root y1 e1 y2 e2 y3 x J D ltac:(lia) Hd J1 J6 U Pl P8 P11 P12 Mo ltac:(lia) ltac:(lia)) as (z1 & z2 & z3 & z & Sh & Pz & PJ & LJ).
  pose proof (layout_kids _ _ _ _ _ Li) as LK. assert (L3 : layout img (It y3 x size [J])) by (apply LK; right; right; left; reflexivity). assert (L4 : layout img J) by (apply (layout_kids _ _ _ _ _ L3); left; reflexivity).
  pose proof (layout_range _ _ LJ) as RJ.
  exists cr, d, o, size, size', U, Pl, J, x, y1, e1, y2, e2, y3, z1, (z1 + (e1 - y1)), z2, (z2 + (e2 - y2)), z3, z.
  split; [exact M|]. split; [exact Hg|]. split; [exact Hd|]. split; [lia|]. split; [apply bytes_take, P4|]. split; [exact Di|]. split; [lia|]. split; [exact J1|]. split; [exact LJ|]. split; [exact L4|]. split; [exact J3|].
  split; [apply (shape_frame fl cr d); [exact LJ|eapply moves_in; [exact Mi|lia|lia]|exact J3]|]. split; [intros K HK; apply In0, InJ, HK|]. split; [exact Pz|]. split; [exact P10|]. split; [exact PJ|]. split; [exact Mo|]. split; [exact P12|]. split; [lia|exact Sh].
Qed.
