(** Finding equal nodes: every node that has an equal one in front of it becomes a reference to the first such node. *)
From Verif Require Import Base BaseFacts ListFacts Types Sort SortSpec SortProofs Sha1Spec Sha1 Sha1StreamProofs Xb XbSpec XbFacts XbWrite WriteProofs OpenProofs Packer PackFacts.
From Coq Require Import Sorted Permutation.

Lemma rbind_ok {A B} (v : A) (f : A -> run B) : rbind (Some (Ok v)) f = f v.
Proof. reflexivity. Qed.

(** ** memcmp *)
Lemma memcmp_sgn a : forall b, Z.sgn (memcmp b a) = - Z.sgn (memcmp a b).
Proof.
  induction a as [|x a IH]; intros [|y b]; try reflexivity. cbn [memcmp]. rewrite (Z.eqb_sym y x). destruct (Z.eqb_spec x y); [apply IH|]. lia.
Qed.
Lemma memcmp_eq a : forall b, memcmp a b = 0 -> a = b.
Proof.
  induction a as [|x a IH]; intros [|y b] H; cbn [memcmp] in H; try lia; [reflexivity|]. destruct (Z.eqb_spec x y) as [->|]; [|lia]. f_equal. apply IH, H.
Qed.
Lemma memcmp_refl a : memcmp a a = 0.
Proof. induction a as [|x a IH]; [reflexivity|]. cbn [memcmp]. rewrite Z.eqb_refl. exact IH. Qed.
Lemma memcmp_trans a : forall b c, memcmp a b <= 0 -> memcmp b c <= 0 -> memcmp a c <= 0.
Proof.
  induction a as [|x a IH]; intros [|y b] [|z c] H H'; cbn [memcmp] in *; try lia.
  destruct (Z.eqb_spec x y) as [->|]; [destruct (Z.eqb_spec y z) as [->|]; [eapply IH; eassumption|lia]|].
  destruct (Z.eqb_spec y z) as [->|]; [destruct (Z.eqb_spec x z); lia|]. destruct (Z.eqb_spec x z); lia.
Qed.
Lemma memcmp_neg a b : memcmp a b <= 0 -> memcmp b a <= 0 -> a = b.
Proof. intros H H'. apply memcmp_eq. pose proof (memcmp_sgn a b). lia. Qed.

Lemma node_compare_order links hashes : total_preorder (node_compare links hashes).
Proof.
  unfold node_compare. split.
  - intros A B. cbv zeta. pose proof (memcmp_sgn (nth (Z.to_nat A) hashes []) (nth (Z.to_nat B) hashes [])) as S.
    destruct (Z.eqb_spec (memcmp (nth (Z.to_nat A) hashes []) (nth (Z.to_nat B) hashes [])) 0) as [E|E]; cbn [negb].
    + destruct (Z.eqb_spec (memcmp (nth (Z.to_nat B) hashes []) (nth (Z.to_nat A) hashes [])) 0) as [E'|E']; [|lia]. cbn [negb].
      destruct (Z.ltb_spec (znth links A) (znth links B)); destruct (Z.ltb_spec (znth links B) (znth links A)); try reflexivity; lia.
    + destruct (Z.eqb_spec (memcmp (nth (Z.to_nat B) hashes []) (nth (Z.to_nat A) hashes [])) 0) as [E'|E']; [lia|]. cbn [negb]. exact S.
  - intros A B C. cbv zeta. set (a := nth (Z.to_nat A) hashes []). set (b := nth (Z.to_nat B) hashes []). set (c := nth (Z.to_nat C) hashes []). intros H1 H2.
    assert (T : memcmp a b <= 0 -> memcmp b c <= 0 -> memcmp a c <= 0) by apply memcmp_trans.
    destruct (Z.eqb_spec (memcmp a b) 0) as [E1|E1]; cbn [negb] in H1; destruct (Z.eqb_spec (memcmp b c) 0) as [E2|E2]; cbn [negb] in H2.
    + apply memcmp_eq in E1. apply memcmp_eq in E2. rewrite E1, E2, memcmp_refl. change (0 =? 0) with true. cbn [negb].
      destruct (Z.ltb_spec (znth links A) (znth links B)); [|destruct (Z.ltb_spec (znth links B) (znth links A)); [lia|]]; (destruct (Z.ltb_spec (znth links B) (znth links C)); [|destruct (Z.ltb_spec (znth links C) (znth links B)); [lia|]]);
        (destruct (Z.ltb_spec (znth links A) (znth links C)); [lia|destruct (Z.ltb_spec (znth links C) (znth links A)); lia]).
    + apply memcmp_eq in E1. rewrite E1. destruct (Z.eqb_spec (memcmp b c) 0); [lia|]. cbn [negb]. exact H2.
    + apply memcmp_eq in E2. rewrite <- E2. destruct (Z.eqb_spec (memcmp a b) 0); [lia|]. cbn [negb]. exact H1.
    + specialize (T H1 H2). destruct (Z.eqb_spec (memcmp a c) 0) as [E|E]; cbn [negb]; [|exact T]. apply memcmp_eq in E. rewrite <- E in H2, E2. pose proof (memcmp_sgn a b). lia.
Qed.

(** ** The flat list of the nodes *)
Definition hash_of d i : list Z := sha1 (bytes_of d i) ++ [0; 0; 0; 0].

Lemma child_links_ok d x e l : forall p lo, x < lo -> kids_layout (fun k => layout d k) d x e p lo l -> child_links (List.length l) d x p = Ok (map ix l).
Proof.
  induction l as [|k l IH]; intros p lo Hlo H; [reflexivity|]. cbn [kids_layout] in H. destruct H as (A & B & C & D). cbn [List.length child_links map]. rewrite B. cbn [obind].
  destruct (Z.leb_spec (ix k - x) 0); [lia|]. pose proof (layout_range _ _ C). rewrite (IH _ (ie k)) by (try assumption; lia). cbn [obind]. replace (x + (ix k - x)) with (ix k) by lia. reflexivity.
Qed.

Lemma flat_items_len l : zlen l <= zlen (flat_map items l).
Proof. induction l as [|[x c e k] l IH]; [reflexivity|]. cbn [flat_map items]. rewrite zlen_cons, zlen_app, zlen_cons. pose proof (zlen_nonneg (flat_map items k)). lia. Qed.

Lemma layout_bytes d i : bytes d -> layout d i -> rd d (ix i) (ie i - ix i) = Ok (bytes_of d i) /\ bytes (bytes_of d i).
Proof.
  intros B L. pose proof (layout_range _ _ L). pose proof (slice_has d (ix i) (ie i - ix i) ltac:(lia) ltac:(lia) ltac:(lia)) as H1. pose proof (has_rd _ _ _ H1) as H2. rewrite zlen_slice in H2 by lia.
  split; [exact H2|]. unfold bytes_of, slice. apply bytes_take, bytes_skip, B.
Qed.

Lemma perm_zlen {A} (l l' : list A) : Permutation l l' -> zlen l = zlen l'.
Proof. intros P. unfold zlen. rewrite (Permutation_length P). reflexivity. Qed.

Lemma fill_links_ok W d L : zlen W = 64 -> bytes d -> zlen d < 2 ^ 61 -> forall fuel D Q, Forall (layout d) Q -> Permutation (D ++ flat_map items Q) L ->
  (List.length (flat_map items Q) < fuel)%nat ->
  exists D', fill_links fuel W d (zlen L) (map ix (D ++ Q)) (zlen D) (map (hash_of d) D) = rret (map ix D', map (hash_of d) D') /\ Permutation D' L.
Proof.
  intros HW Hb Hd. induction fuel as [|fuel IH]; intros D Q F P Hf; [lia|]. cbn [fill_links]. rewrite zlen_map, zlen_app. destruct Q as [|q Q].
  - change (zlen (@nil item)) with 0. destruct (Z.ltb_spec (zlen D) (zlen D + 0)); [lia|]. cbn [flat_map] in P. rewrite app_nil_r in P. exists D. rewrite app_nil_r. split; [reflexivity|exact P].
  - inversion F as [|? ? Lq FQ]; subst. rewrite zlen_cons. pose proof (zlen_nonneg Q). destruct (Z.ltb_spec (zlen D) (zlen D + (1 + zlen Q))); [|lia].
    assert (Ex : znth (map ix (D ++ q :: Q)) (zlen D) = ix q).
    { unfold znth, zlen. destruct (Z.ltb_spec (Z.of_nat (List.length D)) 0); [lia|]. rewrite Nat2Z.id, map_app, app_nth2 by (rewrite map_length; lia). rewrite map_length, Nat.sub_diag. reflexivity. }
    cbv zeta. rewrite Ex. destruct (layout_bytes _ _ Hb Lq) as (R1 & R2). pose proof (layout_length _ _ Lq) as R3. pose proof (layout_range _ _ Lq) as R4.
    assert (S : exists l, ikids q = l /\ it_childcount d (ix q) = Ok (zlen l) /\ (if 0 <? zlen l then obind (children_pos d (ix q)) (fun p => child_links (Z.to_nat (zlen l)) d (ix q) p) else Ok []) = Ok (map ix l) /\ Forall (layout d) l).
    { exists (ikids q). split; [reflexivity|]. destruct q as [x c e l]. cbn [ix ikids] in *. pose proof (layout_kids _ _ _ _ _ Lq) as LK. cbn [layout] in Lq. destruct Lq as (nm & pc & A1 & A2 & A3 & A4 & A5 & A6 & A7 & A8 & A9 & A10 & A11 & A12 & A13 & A14 & A15).
      split; [exact A12|]. split; [|apply Forall_forall; intros t Ht; apply LK, Ht]. destruct l as [|k l]; [reflexivity|]. destruct (Z.ltb_spec 0 (zlen (k :: l))); [|rewrite zlen_cons in *; pose proof (zlen_nonneg l); lia].
      unfold children_pos. rewrite A11. cbn [obind]. unfold zlen at 1. rewrite Nat2Z.id. apply (child_links_ok _ _ e _ _ c); [|exact A15]. pose proof (zlen_nonneg (k :: l)). lia. }
    destruct S as (l & El & S1 & S2 & S3). rewrite S1. rewrite rbind_ok. rewrite S2. rewrite rbind_ok.
    replace (map ix (D ++ q :: Q) ++ map ix l) with (map ix ((D ++ [q]) ++ Q ++ l)) by (rewrite !map_app; cbn [map]; rewrite <- !app_assoc; reflexivity).
    assert (P' : Permutation ((D ++ [q]) ++ flat_map items (Q ++ l)) L).
    { etransitivity; [|exact P]. rewrite flat_map_app, <- app_assoc. apply Permutation_app_head. cbn [app flat_map]. destruct q as [x c e k]. cbn [ikids] in El. subst l. cbn [items app]. apply perm_skip. apply Permutation_app_comm. }
    pose proof (perm_zlen _ _ P') as PL. rewrite zlen_app in PL. pose proof (flat_items_len (Q ++ l)).
    rewrite zlen_map. rewrite zlen_app. destruct (Z.ltb_spec (zlen L) (zlen (D ++ [q]) + zlen (Q ++ l))); [lia|].
    rewrite R3. rewrite rbind_ok. rewrite R1. rewrite rbind_ok.
    assert (zlen (bytes_of d q) < 2 ^ 61) by (unfold bytes_of; rewrite zlen_slice; lia). rewrite (SHA1_ok W _ HW R2) by assumption.
    replace (map (hash_of d) D ++ [sha1 (bytes_of d q) ++ [0; 0; 0; 0]]) with (map (hash_of d) (D ++ [q])) by (rewrite map_app; reflexivity).
    replace (zlen D + 1) with (zlen (D ++ [q])) by (rewrite zlen_app; reflexivity).
    apply IH; [apply Forall_app; split; assumption|exact P'|].
    destruct q as [x c e k]. cbn [ikids] in El. subst l. cbn [flat_map items] in Hf. cbn [app List.length] in Hf. rewrite app_length in Hf. rewrite flat_map_app, app_length. lia.
Qed.

Lemma map_nth_seq {A} (l : list A) e : map (fun n => nth n l e) (seq 0 (List.length l)) = l.
Proof. induction l as [|a l IH]; [reflexivity|]. cbn [List.length seq map nth]. f_equal. rewrite <- seq_shift, map_map. exact IH. Qed.

(** ** Marking *)
(** [F] is the first of the nodes in [L] that are equal to [J]. *)
Definition leads d (L : list item) F J : Prop := In F L /\ bytes_of d F = bytes_of d J /\ forall K, In K L -> bytes_of d K = bytes_of d J -> ix F <= ix K.
Definition plain d data J : Prop := copy d (ix J) data (ix J) (ic J - ix J).
Definition refers data J F : Prop := has data (ix J) (le 2 XTNR_REFERENCE) /\ has data (ix J + 4) (le 4 (ix F - ix J)).
Definition marked d data L J : Prop := (leads d L J J /\ plain d data J) \/ exists F, leads d L F J /\ ix F < ix J /\ refers data J F.
(** SHA-1 separates the different nodes. *)
Definition separated d (L : list item) : Prop := forall a b, In a L -> In b L -> sha1 (bytes_of d a) = sha1 (bytes_of d b) -> bytes_of d a = bytes_of d b.

Definition before_item d a b : Prop := memcmp (hash_of d a) (hash_of d b) < 0 \/ (hash_of d a = hash_of d b /\ ix a <= ix b).
Definition apart (L : list item) : Prop := forall a b, In a L -> In b L -> a = b \/ ic a <= ix b \/ ic b <= ix a.

Lemma hash_same d L a b : separated d L -> In a L -> In b L -> hash_of d a = hash_of d b -> bytes_of d a = bytes_of d b.
Proof. intros S Ha Hb E. apply S; try assumption. apply app_inv_tail in E. exact E. Qed.

Lemma wr_put m p bs : 0 <= p -> p + zlen bs <= zlen m -> bytes bs -> exists m', wr m p bs = Ok m' /\ has m' p bs /\ zlen m' = zlen m /\ (bytes m -> bytes m') /\ forall q cs, has m q cs -> q + zlen cs <= p \/ p + zlen bs <= q -> has m' q cs.
Proof.
  intros Hp Hm Hb. assert (E : wr m p bs = Ok (bput m p bs)) by (unfold wr; destruct (Z.leb_spec 0 p); [|lia]; destruct (Z.leb_spec (p + zlen bs) (zlen m)); [|lia]; reflexivity).
  exists (bput m p bs). split; [exact E|]. destruct (wr_ok _ _ _ _ Hb E) as (_ & _ & A & B). destruct (B p p) as (B1 & B2 & B3). split; [exact A|]. split; [exact B1|]. split; [exact B2|].
  intros q cs Hq Ho. pose proof (zlen_nonneg bs). pose proof (zlen_nonneg cs). apply B3; [exact Hq|exact Ho|lia].
Qed.

Definition sane d (L : list item) : Prop := apart L /\ NoDup L /\ separated d L /\ zlen d <= INT_MAX /\ forall J, In J L -> layout d J.
Definition linked (d links : list Z) (hashes : list (list Z)) i J : Prop := znth links i = ix J /\ nth (Z.to_nat i) hashes [] = hash_of d J.

(** Writing in the own bytes of another node. *)
Definition off data data' lo hi : Prop := zlen data' = zlen data /\ (bytes data -> bytes data') /\ forall q cs, has data q cs -> q + zlen cs <= lo \/ hi <= q -> has data' q cs.
Lemma off_trans a b c lo hi : off a b lo hi -> off b c lo hi -> off a c lo hi.
Proof. intros (A & B & C) (A' & B' & C'). split; [congruence|]. split; [auto|]. intros q cs H O. apply C'; [apply C; assumption|exact O]. Qed.
Lemma off_wider a b lo hi lo' hi' : off a b lo hi -> lo' <= lo -> hi <= hi' -> off a b lo' hi'.
Proof. intros (A & B & C) L H. split; [exact A|]. split; [exact B|]. intros q cs Hq O. apply C; [exact Hq|lia]. Qed.
Lemma wr_off m p bs : 0 <= p -> p + zlen bs <= zlen m -> bytes bs -> exists m', wr m p bs = Ok m' /\ has m' p bs /\ off m m' p (p + zlen bs).
Proof. intros A B C. destruct (wr_put m p bs A B C) as (m' & E & F & G & H & I). exists m'. repeat split; assumption. Qed.

Lemma plain_off d data data' L i J : sane d L -> In J L -> In i L -> J <> i -> off data data' (ix i) (ic i) -> plain d data J -> plain d data' J.
Proof.
  intros (S1 & _ & _ & _ & S2) HJ Hi N (_ & _ & O) (A & B & C & D). repeat split; try assumption. apply O; [exact D|]. rewrite zlen_slice by lia. destruct (S1 J i HJ Hi) as [E|[E|E]]; [congruence| |]; lia.
Qed.
Lemma refers_off d data data' L i J F : sane d L -> In J L -> In i L -> J <> i -> off data data' (ix i) (ic i) -> refers data J F -> refers data' J F.
Proof.
  intros (S1 & _ & _ & _ & S2) HJ Hi N (_ & _ & O) (A & B). pose proof (layout_range _ _ (S2 J HJ)). pose proof (layout_range _ _ (S2 i Hi)). split; apply O; try assumption; rewrite le_zlen; destruct (S1 J i HJ Hi) as [E|[E|E]]; try congruence; lia.
Qed.
Lemma marked_off d data data' L i J : sane d L -> In J L -> In i L -> J <> i -> off data data' (ix i) (ic i) -> marked d data L J -> marked d data' L J.
Proof.
  intros S HJ Hi N O [(A & B)|(F & A & B & C)]; [left; split; [exact A|eapply plain_off; eassumption]|right; exists F; split; [exact A|split; [exact B|eapply refers_off; eassumption]]].
Qed.

Lemma ix_inj d L a b : sane d L -> In a L -> In b L -> ix a = ix b -> a = b.
Proof. intros (S1 & _ & _ & _ & S2) Ha Hb E. pose proof (layout_range _ _ (S2 a Ha)). pose proof (layout_range _ _ (S2 b Hb)). destruct (S1 a b Ha Hb) as [A|A]; [exact A|lia]. Qed.

Lemma mark_ok d L links hashes : sane d L -> forall r index P F first data, Permutation (P ++ r) L -> StronglySorted (before_item d) (P ++ r) -> In F P -> leads d L F F ->
  (forall K, In K P -> memcmp (hash_of d K) (hash_of d F) <= 0) -> zlen data = zlen d -> (forall J, In J P -> marked d data L J) -> (forall J, In J r -> plain d data J) ->
  linked d links hashes first F -> Forall2 (linked d links hashes) index r ->
  exists data', mark links hashes first index data = Ok data' /\ zlen data' = zlen d /\ (bytes data -> bytes data') /\ forall J, In J L -> marked d data' L J.
Proof.
  intros S. induction r as [|i r IH]; intros index P F first data PL SS HF LF HP Hz MP Mr KF KI; inversion KI as [|i0 ? index' ? K0 K1]; subst.
  - exists data. split; [reflexivity|]. split; [exact Hz|]. split; [auto|]. intros J HJ. rewrite app_nil_r in PL. apply MP. apply (Permutation_in _ (Permutation_sym PL)), HJ.
  - cbn [mark]. destruct KF as (KF1 & KF2). destruct K0 as (K01 & K02). rewrite KF2, K02, KF1, K01.
    assert (PL' : Permutation ((P ++ [i]) ++ r) L) by (rewrite <- app_assoc; exact PL). assert (SS' : StronglySorted (before_item d) ((P ++ [i]) ++ r)) by (rewrite <- app_assoc; exact SS).
    assert (InL : forall K, In K P \/ K = i \/ In K r -> In K L) by (intros K HK; apply (Permutation_in _ PL), in_or_app; cbn [In]; intuition auto).
    assert (Ord : forall K, In K P -> before_item d K i).
    { intros K HK. clear - SS HK. induction P as [|p P IHP]; [destruct HK|]. cbn [app] in SS. inversion SS as [|? ? SS1 SS2]; subst. destruct HK as [<-|HK]; [|apply IHP; assumption]. rewrite Forall_forall in SS2. apply SS2, in_or_app. right. left. reflexivity. }
    assert (Ord2 : forall K, In K r -> before_item d i K).
    { intros K HK. clear - SS HK. induction P as [|p P IHP]; cbn [app] in SS; inversion SS as [|? ? SS1 SS2]; subst; [rewrite Forall_forall in SS2; apply SS2, HK|apply IHP; assumption]. }
    assert (ND : NoDup (P ++ i :: r)) by (apply (Permutation_NoDup (Permutation_sym PL)); apply S).
    assert (Ni : forall K, In K P \/ In K r -> K <> i).
    { intros K HK ->. apply NoDup_remove_2 in ND. apply ND, in_or_app. exact HK. }
    assert (Hi : In i L) by auto. pose proof (layout_range _ _ (proj2 (proj2 (proj2 (proj2 S))) i Hi)) as Ri.
    destruct (Z.eqb_spec (memcmp (hash_of d i) (hash_of d F)) 0) as [E|E].
    + apply memcmp_eq in E. assert (EB : bytes_of d F = bytes_of d i) by (eapply hash_same; [apply S|auto|exact Hi|congruence]).
      assert (Lt : ix F < ix i).
      { destruct (Ord F HF) as [O|(O1 & O2)]; [rewrite E, memcmp_refl in O; lia|]. destruct (Z.eq_dec (ix F) (ix i)) as [X|X]; [|lia]. exfalso. apply (Ni F (or_introl HF)). eapply ix_inj; eauto. }
      destruct (wr_off data (ix i) (le 2 XTNR_REFERENCE)) as (d1 & E1 & H1 & O1); [lia|rewrite le_zlen; lia|apply le_bytes|]. rewrite E1. cbn [obind].
      destruct (wr_off d1 (ix i + 4) (le 4 (ix F - ix i))) as (d2 & E2 & H2 & O2); [lia|rewrite le_zlen; destruct O1; lia|apply le_bytes|]. rewrite E2. cbn [obind].
      destruct (Z.leb_spec 0 (ix F - ix i)); [lia|].
      assert (O : off data d2 (ix i) (ic i)) by (eapply off_trans; [apply (off_wider _ _ _ _ _ _ O1); rewrite ?le_zlen; lia|apply (off_wider _ _ _ _ _ _ O2); rewrite ?le_zlen; lia]).
      destruct (IH index' (P ++ [i]) F first d2 PL' SS') as (data' & I1 & I2 & I3 & I4).
      * apply in_or_app. auto.
      * exact LF.
      * intros K HK. apply in_app_or in HK. destruct HK as [HK|[<-|[]]]; [apply HP, HK|]. rewrite E, memcmp_refl. lia.
      * destruct O; lia.
      * intros J HJ. apply in_app_or in HJ. destruct HJ as [HJ|[<-|[]]]; [eapply marked_off; eauto|]. right. exists F. split; [destruct LF as (L1 & L2 & L3); split; [exact L1|]; split; [exact EB|intros K HK EK; apply L3; [exact HK|congruence]]|].
        split; [exact Lt|]. split; [|exact H2]. destruct O2 as (_ & _ & O2). apply O2; [exact H1|rewrite !le_zlen; lia].
      * intros J HJ. eapply plain_off; eauto. apply Mr. right. exact HJ.
      * split; assumption.
      * exact K1.
      * exists data'. split; [exact I1|]. split; [exact I2|]. split; [destruct O as (_ & O & _); auto|exact I4].
    + assert (Lt : memcmp (hash_of d F) (hash_of d i) < 0).
      { destruct (Ord F HF) as [O|(O1 & O2)]; [exact O|]. exfalso. apply E. rewrite O1. apply memcmp_refl. }
      assert (Lead : leads d L i i).
      { split; [exact Hi|]. split; [reflexivity|]. intros K HK EK. assert (EH : hash_of d K = hash_of d i) by (unfold hash_of; rewrite EK; reflexivity).
        apply (Permutation_in _ (Permutation_sym PL)) in HK. apply in_app_or in HK. destruct HK as [HK|[<-|HK]]; [|lia|].
        - pose proof (HP K HK) as X. rewrite EH in X. pose proof (memcmp_sgn (hash_of d F) (hash_of d i)). lia.
        - destruct (Ord2 K HK) as [O|(O1 & O2)]; [rewrite EH, memcmp_refl in O; lia|exact O2]. }
      destruct (IH index' (P ++ [i]) i i0 data PL' SS') as (data' & I1 & I2 & I3 & I4).
      * apply in_or_app. right. left. reflexivity.
      * exact Lead.
      * intros K HK. apply in_app_or in HK. destruct HK as [HK|[<-|[]]]; [|rewrite memcmp_refl; lia]. eapply memcmp_trans; [apply HP, HK|lia].
      * exact Hz.
      * intros J HJ. apply in_app_or in HJ. destruct HJ as [HJ|[<-|[]]]; [apply MP, HJ|]. left. split; [exact Lead|]. apply Mr. left. reflexivity.
      * intros J HJ. apply Mr. right. exact HJ.
      * split; assumption.
      * exact K1.
      * exists data'. auto.
Qed.

Lemma items_nodup d i : layout d i -> NoDup (items i).
Proof.
  intros L. pose proof (items_sorted _ _ L) as S. assert (F : Forall (layout d) (items i)) by (apply Forall_forall; intros j Hj; apply (items_range _ _ L j Hj)). revert S F. generalize (items i) as l. clear.
  induction l as [|a l IH]; intros S F; constructor; inversion S as [|? ? S1 S2]; inversion F as [|? ? F1 F2]; subst; [|apply IH; assumption]. intros H. rewrite Forall_forall in S2. specialize (S2 a H). cbv beta in S2. pose proof (layout_range _ _ F1). lia.
Qed.
Lemma items_sane d i : layout d i -> zlen d <= INT_MAX -> separated d (items i) -> sane d (items i).
Proof.
  intros L Hz S. split; [intros a b; apply (items_apart _ _ _ _ L)|]. split; [eapply items_nodup, L|]. split; [exact S|]. split; [exact Hz|]. intros J HJ. apply (items_range _ _ L J HJ).
Qed.
Lemma items_many d i : layout d i -> 12 * zlen (items i) <= zlen d.
Proof.
  intros L. pose proof (items_sorted _ _ L) as S. assert (F : Forall (layout d) (items i)) by (apply Forall_forall; intros j Hj; apply (items_range _ _ L j Hj)).
  assert (H : forall l lo, Forall (fun a => lo <= ix a) l -> 0 <= lo <= zlen d -> StronglySorted (fun j k => ic j <= ix k) l -> Forall (layout d) l -> lo + 12 * zlen l <= zlen d).
  { clear. induction l as [|a l IH]; intros lo Hl H0 S F; [change (zlen (@nil item)) with 0; lia|]. inversion S as [|? ? S1 S2]; inversion F as [|? ? F1 F2]; inversion Hl as [|? ? Hl1 Hl2]; subst. pose proof (layout_range _ _ F1). specialize (IH (ic a) S2 ltac:(lia) S1 F2). rewrite zlen_cons. lia. }
  pose proof (zlen_nonneg d). specialize (H (items i) 0). assert (Forall (fun a => 0 <= ix a) (items i)) by (apply Forall_forall; intros a Ha; rewrite Forall_forall in F; apply (layout_range _ _ (F a Ha))). specialize (H H1 ltac:(lia) S F). lia.
Qed.

Lemma items_nonempty i : exists r, items i = i :: r.
Proof. destruct i as [x c e k]. eexists. reflexivity. Qed.

Lemma MarkReferences_ok W d I0 scratch : zlen W = 64 -> bytes d -> zlen d <= INT_MAX -> layout d I0 -> ix I0 = 0 -> separated d (items I0) -> zlen scratch = zlen (items I0) ->
  exists data', MarkReferences W (zlen (items I0)) scratch d = rret data' /\ zlen data' = zlen d /\ bytes data' /\ forall J, In J (items I0) -> marked d data' (items I0) J.
Proof.
  intros HW Hb Hz L E0 Sep Hs. set (L0 := items I0). pose proof (items_sane _ _ L Hz Sep) as S. pose proof (items_many _ _ L) as Many. fold L0 in S, Many, Sep.
  unfold MarkReferences. unfold INT_MAX in Hz.
  destruct (fill_links_ok W d L0 HW Hb ltac:(lia) (Datatypes.S (Z.to_nat (zlen L0))) [] [I0]) as (D & ED & PD).
  { constructor; [exact L|constructor]. } { cbn [app flat_map]. rewrite app_nil_r. reflexivity. } { cbn [flat_map]. rewrite app_nil_r. unfold zlen. rewrite Nat2Z.id. fold L0. lia. }
  cbn [app map] in ED. rewrite E0 in ED. change (zlen (@nil item)) with 0 in ED. rewrite ED. unfold rret at 1. rewrite rbind_ok. cbv beta iota zeta.
  pose proof (perm_zlen _ _ PD) as ZD. rewrite zlen_map, ZD, Z.sub_diag. change (zrepeat 0 0) with (@nil Z). rewrite app_nil_r, map_length.
  replace (Z.to_nat (zlen L0) - Datatypes.length D)%nat with 0%nat by (rewrite <- ZD; unfold zlen; rewrite Nat2Z.id; lia). cbn [repeat]. rewrite app_nil_r.
  set (links := map ix D). set (hashes := map (hash_of d) D). set (index := map Z.of_nat (seq 0 (Z.to_nat (zlen L0)))).
  assert (Zi : zlen index = zlen L0) by (unfold index; rewrite zlen_map; unfold zlen; rewrite seq_length, Nat2Z.id; reflexivity).
  destruct (mergesort_ok (node_compare links hashes) (node_compare_order links hashes) index scratch 4) as (out & Eo & So & Po & _); [lia|rewrite Zi; unfold INT_MAX; lia|rewrite Zi; lia|rewrite Zi; exact Hs|].
  rewrite Eo. unfold rret at 1. rewrite rbind_ok. cbv beta.
  assert (Len : List.length D = Z.to_nat (zlen L0)) by (rewrite <- ZD; unfold zlen; rewrite Nat2Z.id; reflexivity).
  assert (HI : forall i, In i out -> 0 <= i /\ (Z.to_nat i < List.length D)%nat).
  { intros i Hi. apply (Permutation_in _ (Permutation_sym Po)) in Hi. unfold index in Hi. apply in_map_iff in Hi. destruct Hi as (n & <- & Hn). apply in_seq in Hn. lia. }
  set (item_of := fun i => nth (Z.to_nat i) D I0).
  assert (Link : forall i, In i out -> linked d links hashes i (item_of i)).
  { intros i Hi. destruct (HI i Hi) as (H1 & H2). unfold linked, links, hashes, item_of, znth. destruct (Z.ltb_spec i 0); [lia|]. split.
    - rewrite (nth_indep _ 0 (ix I0)) by (rewrite map_length; exact H2). apply map_nth.
    - rewrite (nth_indep _ [] (hash_of d I0)) by (rewrite map_length; exact H2). apply map_nth. }
  set (R := map item_of out).
  assert (PR : Permutation R L0).
  { etransitivity; [|exact PD]. unfold R. etransitivity; [apply Permutation_map, Permutation_sym, Po|]. unfold index. rewrite map_map, <- Len. unfold item_of.
    replace (map (fun x => nth (Z.to_nat (Z.of_nat x)) D I0) (seq 0 (List.length D))) with D; [reflexivity|]. symmetry. erewrite map_ext; [|intros a; rewrite Nat2Z.id; reflexivity]. apply (map_nth_seq D I0). }
  assert (SR : StronglySorted (before_item d) R).
  { unfold R. clear - So Link. induction So as [|i l S1 IH F]; cbn [map]; constructor; [apply IH; intros; apply Link; right; assumption|]. apply Forall_forall. intros J HJ. apply in_map_iff in HJ. destruct HJ as (j & <- & Hj). rewrite Forall_forall in F.
    specialize (F j Hj). destruct (Link i (or_introl eq_refl)) as (A1 & A2). destruct (Link j (or_intror Hj)) as (B1 & B2). unfold node_compare in F. cbv zeta in F. rewrite A2, B2, A1, B1 in F. unfold before_item.
    destruct (Z.eqb_spec (memcmp (hash_of d (item_of i)) (hash_of d (item_of j))) 0) as [E|E]; cbn [negb] in F; [right|left; lia]. split; [apply memcmp_eq, E|].
    destruct (Z.ltb_spec (ix (item_of i)) (ix (item_of j))); [lia|]. destruct (Z.ltb_spec (ix (item_of j)) (ix (item_of i))); lia. }
  assert (LR : Forall2 (linked d links hashes) out R).
  { unfold R. clear - Link. induction out as [|i l IH]; cbn [map]; constructor; [apply Link; left; reflexivity|apply IH; intros; apply Link; right; assumption]. }
  destruct out as [|i0 out]; [exfalso; subst R; cbn [map] in PR; destruct (items_nonempty I0) as (r & Er); unfold L0 in PR; rewrite Er in PR; apply Permutation_nil in PR; discriminate|].
  cbn [map] in R. set (R' := map item_of out) in R. inversion LR as [|? ? ? ? L1 L2]; subst.
  assert (Pl : forall J, In J L0 -> plain d d J).
  { intros J HJ. destruct S as (_ & _ & _ & _ & S). pose proof (layout_range _ _ (S J HJ)). apply copy_refl; lia. }
  assert (Lead : leads d L0 (item_of i0) (item_of i0)).
  { split; [apply (Permutation_in _ PR); left; reflexivity|]. split; [reflexivity|]. intros K HK EK. apply (Permutation_in _ (Permutation_sym PR)) in HK. destruct HK as [<-|HK]; [lia|].
    inversion SR as [|? ? S1 S2]; subst. rewrite Forall_forall in S2. destruct (S2 K HK) as [O|(O1 & O2)]; [|exact O2]. unfold hash_of in O. rewrite EK, memcmp_refl in O. lia. }
  destruct (mark_ok d L0 links hashes S R' out [item_of i0] (item_of i0) i0 d PR SR) as (data' & M1 & M2 & M3 & M4).
  - left. reflexivity.
  - exact Lead.
  - intros K [<-|[]]. rewrite memcmp_refl. lia.
  - reflexivity.
  - intros J [<-|[]]. left. split; [exact Lead|]. apply Pl. apply (Permutation_in _ PR). left. reflexivity.
  - intros J HJ. apply Pl. apply (Permutation_in _ PR). right. exact HJ.
  - exact L1.
  - exact L2.
  - exists data'. rewrite M1. split; [reflexivity|]. split; [exact M2|]. split; [apply M3, Hb|exact M4].
Qed.
