(** What readers see of a packed document. *)
From Verif Require Import Base BaseFacts ListFacts NumSpec Types CalSpec DetectProofs RingProofs RoundtripProofs Sort SortProofs Sha1Spec Sha1 Symtab SymtabSpec SymtabProofs
  Xb XbSpec XbFacts XbSymProofs XbWrite DocSpec ReadSpec NavSpec CheckSpec WriteProofs FillProofs InitProofs OpenProofs ReadProofs NavProofs AppendProofs Packer PackFacts MarkProofs PackProofs PackDoc PackRead PackSpec PackedProofs.

(** A 64-bit integer as the value of an element. *)
Lemma detect_int64 n : int64 n -> ~ -2147483648 <= n <= 4294967295 -> XBT_Detect (sdec n) = XBT_INT64.
Proof.
  intros Hn Hr. unfold int64 in Hn. rewrite detect_sdec by (change (10 ^ 19) with 10000000000000000000; lia). unfold int_class. destruct (Z.ltb_spec n 0).
  - destruct (Z.leb_spec (Z.abs n) 2147483648); [lia|reflexivity].
  - destruct (Z.leb_spec (Z.abs n) 2147483647); [lia|]. destruct (Z.leb_spec (Z.abs n) 4294967295); [lia|]. destruct (Z.leb_spec (Z.abs n) 9223372036854775807); [reflexivity|lia].
Qed.
Lemma int64_value fl m limit x p n e : value_pos m x = Ok p -> 0 <= p -> value_at fl m p (Some (sdec n)) limit e -> int64 n -> n <> INT64_MIN -> ~ -2147483648 <= n <= 4294967295 ->
  getInt64 m (Some x) = Ok (Some n).
Proof.
  intros Hp Hp0 (_ & (A & _) & st & B & (C & _) & _) Hn Hm Hr. rewrite (detect_int64 n Hn Hr) in *.
  destruct (stores_int64 fl n (p + 1) limit Hn Hm ltac:(lia)) as (sv & E & Eb & _ & _ & Ep). rewrite B in E. inversion E; subst sv. rewrite Eb, Ep in C. change (align_to (if XBT_INT64 =? XBT_UNIX_TIME64_MSEC then 4 else XBT_Align XBT_INT64) (p + 1)) with (align_up 8 (p + 1)) in C.
  unfold getInt64, value_type. rewrite Hp. cbn [obind]. rewrite (has_u8 _ _ XBT_INT64 ltac:(unfold XBT_INT64; lia) A). cbn [obind]. change (s8 XBT_INT64 =? XBT_INT64) with true. cbv iota.
  pose proof (has_rd _ _ _ C) as Rd. rewrite le_zlen in Rd. change (Z.of_nat 8) with 8 in Rd. rewrite Rd. cbn [obind]. rewrite (unle_le 8). change (256 ^ Z.of_nat 8) with 18446744073709551616. do 2 f_equal. unfold s64, int64 in *. lia.
Qed.
Lemma own_value_pos fl cr d limit x c t : own fl cr d limit x c t -> 0 <= x /\ value_pos d x = Ok (x + 12 + 8 * zlen (attrs_of t) + 4 * zlen (kids_of t)) /\ exists e, value_at fl d (x + 12 + 8 * zlen (attrs_of t) + 4 * zlen (kids_of t)) (value_of t) limit e.
Proof.
  destruct t as [n v a k]. cbn [own attrs_of kids_of value_of]. intros (id & e1 & e2 & O1 & O2 & O3 & O4 & O5 & O6 & O7 & _). split; [exact O3|]. apply head_split in O6. destruct O6 as (_ & H2 & H3).
  pose proof (zlen_nonneg a). pose proof (zlen_nonneg k). split; [|exists e1; exact O7]. unfold value_pos.
  assert (Cp : it_paramcount d x = Ok (zlen a)) by (apply has_s16; [lia|exact H2]). assert (Cc : it_childcount d x = Ok (zlen k)) by (apply has_s32; [unfold int32, INT_MIN, INT_MAX in *; lia|exact H3]).
  rewrite Cp, Cc. reflexivity.
Qed.

Section PACKED.
Context (fl : floats) (m filename : list Z) (modified : Z) (root : node) (img W scratch heap : list Z) (depth : nat).
Context (Hb : bytes m) (Hm : zlen m <= INT_MAX) (Hf : cstring filename) (F : document_fits root) (NH : no_hex root) (H : Make_xb fl m filename modified root = rret img).
Context (Sep : sha1_separates img) (HW : zlen W = 64) (Hh : bytes heap) (Hhl : zlen img <= zlen heap) (Hsc : zlen scratch = 4 + zlen (elements root)) (Hdp : (height root + 2 <= depth)%nat).

Lemma packed_reads k out st fuel : floats_ok fl -> steady_document root -> ring_ok st -> (height root <= fuel)%nat ->
  exists img' R x st' R' x' st'', Make_packed W scratch heap depth fl m filename modified root = rret img' /\
    Initialize (S k) img = rret R /\ rd_root R = Some x /\ read_node fuel fl img R x out st = rret (normal root, st') /\
    Initialize (S k) img' = rret R' /\ rd_root R' = Some x' /\ read_node fuel fl img' R' x' out st = rret (normal root, st'').
Proof using Hb Hm Hf F NH H Sep HW Hh Hhl Hsc Hdp.
  intros Hfl S Ho Hh'. destruct (reads_back fl m filename modified root img k out st fuel Hfl Hb Hm Hf F S H Ho Hh') as (R & x & st' & E1 & E2 & E3).
  destruct (packs_doc fl m filename modified root img W scratch heap depth Hb Hm Hf F NH H Sep HW Hh Hhl Hsc Hdp) as (img' & P & cr & d & o & size & size' & U & Pl & J & x0 & y1 & e1 & y2 & e2 & y3 & z1 & f1 & z2 & f2 & z3 & z & M & Hg & Hd & Hz & Bi & D & Hs & Jx & L & Li & Sh & Shi & _ & Pk & Pf & Pp & Mv & HU & Hs' & Ds).
  pose proof M as (A1 & A2 & A3 & A4 & A5 & A6 & _). assert (Hi : int32 (zlen img')) by (pose proof (zlen_nonneg img'); unfold int32, INT_MIN, INT_MAX in *; lia).
  destruct (Initialize_shell cr img' size' filename z1 f1 z2 f2 z3 z Ds Hf Hs' Hi A1 A2 k) as (R' & E1' & E2' & T1 & T2).
  assert (Dg : dag_at fl cr img' z root).
  { eapply (packed_dag fl cr d o img' (zlen m) size' U Pl); try eassumption; try lia. intros u v Hu Hv. destruct (S u Hu) as (Sv & _). destruct (Sv v Hv) as [->|(_ & X)]; [split; vm_compute; discriminate|exact X]. }
  destruct (dag_reads fl cr img' R' root out Hfl Bi ltac:(unfold INT_MAX in *; lia) M T1 T2 root) with (x := z) (fuel := fuel) (st := st) as (st'' & E3' & _); try assumption.
  { intros u Hu. destruct (S u Hu) as (Sv & Sh' & Sa). split; [apply F, Hu|]. split; [exact Sv|]. split; [exact Sa|]. apply A5, Hu. }
  exists img', R, x, st', R', z, st''. auto 12.
Qed.

Lemma packed_shares k : exists img', Make_packed W scratch heap depth fl m filename modified root = rret img' /\ zlen img' <= zlen img /\
  exists R x R' x', Initialize (S k) img = rret R /\ rd_root R = Some x /\ Initialize (S k) img' = rret R' /\ rd_root R' = Some x' /\
  forall path u path' u', sub root path = Some u -> sub root path' = Some u' ->
  exists y z y' z', walk img x path = Ok (Some y) /\ walk img' x' path = Ok (Some z) /\ walk img x path' = Ok (Some y') /\ walk img' x' path' = Ok (Some z') /\
    forall bs, stored_as img y bs -> stored_as img y' bs -> z = z'.
Proof using Hb Hm Hf F NH H Sep HW Hh Hhl Hsc Hdp.
  destruct (packs_doc fl m filename modified root img W scratch heap depth Hb Hm Hf F NH H Sep HW Hh Hhl Hsc Hdp) as (img' & P & cr & d & o & size & size' & U & Pl & J & x0 & y1 & e1 & y2 & e2 & y3 & z1 & f1 & z2 & f2 & z3 & z & M & Hg & Hd & Hz & Bi & D & Hs & Jx & L & Li & Sh & Shi & Be & Pk & Pf & Pp & Mv & HU & Hs' & Ds).
  pose proof M as (A1 & A2 & A3 & A4 & A5 & A6 & _). assert (Hi : int32 (zlen img') /\ int32 (zlen img)) by (pose proof (zlen_nonneg img'); unfold int32, INT_MIN, INT_MAX in *; lia).
  destruct (Initialize_shell cr img' size' filename z1 f1 z2 f2 z3 z Ds Hf Hs' (proj1 Hi) A1 A2 k) as (R' & E1' & E2' & _).
  destruct (Initialize_doc fl cr img (zlen m) size filename root y1 e1 y2 e2 y3 x0 D Hf ltac:(lia) (proj2 Hi) A1 A2 k) as (R & E1 & E2 & _).
  exists img'. split; [exact P|]. split; [lia|]. exists R, x0, R', z. do 4 (split; [assumption|]). rewrite <- Jx.
  intros path u path' u' S1 S2.
  destruct (walk_item _ _ _ _ path _ _ _ Li Shi S1) as (K & K1 & K2 & K3 & _ & K5). destruct (walk_item _ _ _ _ path' _ _ _ Li Shi S2) as (K' & K1' & K2' & K3' & _ & K5').
  destruct (packed_walk fl cr d o img' (zlen m) size' U Pl Mv HU ltac:(lia) ltac:(lia) ltac:(lia) path root u J z L Sh Pk Pp S1) as (Q & q & Q1 & Q2 & _ & _ & _ & Q6). rewrite K1 in Q1. inversion Q1; subst Q.
  destruct (packed_walk fl cr d o img' (zlen m) size' U Pl Mv HU ltac:(lia) ltac:(lia) ltac:(lia) path' root u' J z L Sh Pk Pp S2) as (Q' & q' & Q1' & Q2' & _ & _ & _ & Q6'). rewrite K1' in Q1'. inversion Q1'; subst Q'.
  exists (ix K), q, (ix K'), q'. do 4 (split; [assumption|]). intros bs (n & N1 & N2) (n' & N1' & N2').
  destruct (layout_stored _ _ K3) as (l & V1 & V2). destruct (layout_stored _ _ K3') as (l' & V1' & V2'). rewrite V1 in N1. inversion N1; subst n. rewrite V1' in N1'. inversion N1'; subst n'.
  rewrite V2 in N2. inversion N2 as [X]. rewrite V2' in N2'. inversion N2' as [X']. rewrite <- (Be K K5) in Q6. rewrite <- (Be K' K5') in Q6'. rewrite X in Q6. rewrite X' in Q6'. eapply Pf; eassumption.
Qed.

Lemma packed_int64 k path u n : sub root path = Some u -> value_of u = Some (sdec n) -> int64 n -> n <> INT64_MIN -> ~ -2147483648 <= n <= 4294967295 ->
  exists img' R x R' x' y z, Make_packed W scratch heap depth fl m filename modified root = rret img' /\
  Initialize (S k) img = rret R /\ rd_root R = Some x /\ Initialize (S k) img' = rret R' /\ rd_root R' = Some x' /\
  walk img x path = Ok (Some y) /\ walk img' x' path = Ok (Some z) /\ getInt64 img (Some y) = Ok (Some n) /\ ((z - y) mod 8 = 0 -> getInt64 img' (Some z) = Ok (Some n)).
Proof using Hb Hm Hf F NH H Sep HW Hh Hhl Hsc Hdp.
  intros Hs0 Hv N1 N2 N3. destruct (packs_doc fl m filename modified root img W scratch heap depth Hb Hm Hf F NH H Sep HW Hh Hhl Hsc Hdp) as (img' & P & cr & d & o & size & size' & U & Pl & J & x0 & y1 & e1 & y2 & e2 & y3 & z1 & f1 & z2 & f2 & z3 & z & M & Hg & Hd & Hz & Bi & D & Hs & Jx & L & Li & Sh & Shi & Be & Pk & Pf & Pp & Mv & HU & Hs' & Ds).
  pose proof M as (A1 & A2 & A3 & A4 & A5 & A6 & _). assert (Hi : int32 (zlen img') /\ int32 (zlen img)) by (pose proof (zlen_nonneg img'); unfold int32, INT_MIN, INT_MAX in *; lia).
  destruct (Initialize_shell cr img' size' filename z1 f1 z2 f2 z3 z Ds Hf Hs' (proj1 Hi) A1 A2 k) as (R' & E1' & E2' & _).
  destruct (Initialize_doc fl cr img (zlen m) size filename root y1 e1 y2 e2 y3 x0 D Hf ltac:(lia) (proj2 Hi) A1 A2 k) as (R & E1 & E2 & _).
  destruct (walk_item _ _ _ _ path _ _ _ Li Shi Hs0) as (K & K1 & K2 & K3 & K4 & K5).
  destruct (packed_walk fl cr d o img' (zlen m) size' U Pl Mv HU ltac:(lia) ltac:(lia) ltac:(lia) path root u J z L Sh Pk Pp Hs0) as (Q & q & Q1 & Q2 & Q3 & Q4 & Q5 & Q6). rewrite K1 in Q1. inversion Q1; subst Q. rewrite <- Jx in *.
  exists img', R, (ix J), R', z, (ix K), q. do 7 (split; [assumption|]). inversion K4 as [x c e ks nm v a kk O Fk]; subst. cbn [value_of] in Hv. subst v. split.
  - destruct (own_value_pos _ _ _ _ _ _ _ O) as (X0 & V & e' & Va). cbn [attrs_of kids_of value_of ix] in *. pose proof (zlen_nonneg a). pose proof (zlen_nonneg kk). eapply int64_value; try eassumption. lia.
  - intros Ha. inversion Q4 as [x' c' e' ks' nm' v' a' kk' O' Fk']; subst. pose proof (Forall2_zlen _ _ _ Fk') as Zk. cbn [ix] in *. pose proof (packed_size _ _ _ _ _ _ Mv HU _ _ Q3 Q5) as (Y0 & Y4 & Ys). pose proof (layout_range _ _ Q3) as Rg. cbn [ix] in Rg.
    assert (O2 : own fl cr img' (zlen m + (q - x)) q (c + (q - x)) (Node nm (Some (sdec n)) a kk)).
    { eapply (packed_own fl cr d o img' (zlen m) size' U Pl Mv HU); try eassumption; [symmetry; exact Zk|]. intros w Hw. split; [lia|left; exact Ha]. }
    destruct (own_value_pos _ _ _ _ _ _ _ O2) as (X0 & V & e'' & Va). cbn [attrs_of kids_of value_of] in *. pose proof (zlen_nonneg a). pose proof (zlen_nonneg kk). eapply int64_value; try eassumption. lia.
Qed.
End PACKED.
