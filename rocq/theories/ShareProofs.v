From Verif Require Import Base BaseFacts Share ShareSpec.

Lemma at_page a i : a mod 4096 = 0 -> (a + i) / 4096 = a / 4096 + i / 4096 /\ (a + i) mod 4096 = i mod 4096.
Proof. intros E. apply Z.mod_divide in E as [q ->]; [|lia]. rewrite Z.add_comm, Z.div_add, Z.mod_add, Z.div_mul by lia. split; lia. Qed.
Lemma page_in i n : 0 <= i < n -> 0 <= i / 4096 < page_count n.
Proof. intros H. unfold page_count. split; [apply Z.div_pos; lia|]. pose proof (Z.div_mod i 4096). pose proof (Z.mod_pos_bound i 4096). pose proof (Z.div_mod (n + 4095) 4096). pose proof (Z.mod_pos_bound (n + 4095) 4096). lia. Qed.
Lemma page_of i n : 0 <= i -> (i / 4096 <? page_count n) = (i <? page_count n * 4096).
Proof. intros H. pose proof (Z.div_mod i 4096). pose proof (Z.mod_pos_bound i 4096). destruct (Z.ltb_spec (i / 4096) (page_count n)), (Z.ltb_spec i (page_count n * 4096)); try reflexivity; lia. Qed.
Lemma in_range a n k : (a <=? k) && (k <? a + n) = true <-> a <= k < a + n.
Proof. rewrite andb_true_iff, Z.leb_le, Z.ltb_lt. lia. Qed.
Lemma out_range a n k : (a <=? k) && (k <? a + n) = false <-> ~ a <= k < a + n.
Proof. rewrite <- in_range. destruct (_ && _); split; congruence. Qed.
Lemma same_name_refl n : same_name n n = true.
Proof. unfold same_name. destruct (list_eq_dec _ n n); congruence. Qed.

(** ** Which answers the functions give *)
Lemma shared_inv s n create w want len opened mapped a d s' : s_ShareFile s n create w want len opened mapped = (Some a, d, s') ->
  exists e, opened = Some e /\ mapped = Some a /\ d = (if want then Some e else None) /\ pages s' = pages (mmap s n len w a) /\
  (forall x, descr s' x = if x =? e then (if want then Some n else None) else descr s x) /\ files s' = files (open_ s n create e).
Proof.
  unfold s_ShareFile. destruct opened as [e|]; [|discriminate]. destruct mapped as [b|]; [|discriminate]. intros E. exists e.
  assert (P : pages (open_ s n create e) = pages s /\ forall x, descr (open_ s n create e) x = if x =? e then Some n else descr s x).
  { unfold open_. destruct (files s n); [|destruct create]; split; reflexivity. } destruct P as [P D].
  destruct want; inversion E; subst; repeat (split; [reflexivity|]); cbn -[open_ Z.div]; rewrite ?P.
  - split; [reflexivity|]. split; [exact D|reflexivity].
  - split; [reflexivity|]. split; [|reflexivity]. intros x. destruct (x =? e) eqn:X; [reflexivity|]. rewrite D, X. reflexivity.
Qed.
Lemma failed_inv s n create w want len opened mapped d s' : (forall e, opened = Some e -> can_open s n create e) -> s_ShareFile s n create w want len opened mapped = (None, d, s') ->
  d = None /\ (forall x, descr s' x = descr s x) /\ pages s' = pages s /\ (forall x, files s' x = files s x \/ create = true /\ x = n /\ files s x = None /\ files s' x = Some []).
Proof.
  intros CO. unfold s_ShareFile. destruct opened as [e|]; [|intros E; inversion E; subst; auto]. destruct mapped as [b|]; [destruct want; discriminate|]. intros E. inversion E; subst; clear E. destruct (CO e eq_refl) as (_ & DN & _).
  split; [reflexivity|]. split; [|split].
  - intros x. cbn. destruct (Z.eqb_spec x e) as [->|NE]; [auto|]. unfold open_. destruct (files s n); [|destruct create]; cbn; destruct (Z.eqb_spec x e); congruence.
  - unfold open_. destruct (files s n); [|destruct create]; reflexivity.
  - intros x. unfold open_. destruct (files s n) eqn:FN; [left; reflexivity|]. destruct create; [|left; reflexivity]. cbn. unfold same_name. destruct (list_eq_dec Z.eq_dec x n) as [->|]; [right|left]; auto.
Qed.

(** ** Histories *)
Definition far (h g : shared) : Prop := (forall d, fd h = Some d -> fd g <> Some d) /\ (forall k, covers h k -> ~ covers g k).
Lemma far_sym h g : far h g -> far g h.
Proof. intros [A B]. split; [intros d E F; exact (A d F E)|intros k E F; exact (B k F E)]. Qed.
Fixpoint apart (L : list shared) : Prop := match L with [] => True | h :: L => (forall g, In g L -> far h g) /\ apart L end.
Lemma apart_out L1 h L2 : apart (L1 ++ h :: L2) -> apart (L1 ++ L2) /\ forall g, In g (L1 ++ L2) -> far h g.
Proof.
  induction L1 as [|x L1 IH]; cbn [app apart]; [tauto|]. intros [F A]. destruct (IH A) as [A' F']. split; [split; [|exact A']|].
  - intros g G. apply F. apply in_app_iff in G as [G|G]; apply in_app_iff; [left|right; right]; exact G.
  - intros g [<-|G]; [apply far_sym, F, in_elt|apply F', G].
Qed.
Definition kept (s0 : os) (L : list shared) : Prop :=
  apart L /\ (forall h d, In h L -> fd h = Some d -> 0 < d /\ descr s0 d = None) /\ (forall h k, In h L -> covers h k -> pages s0 k = None) /\
  (forall h, In h L -> 0 < at_ h /\ at_ h mod 4096 = 0 /\ 0 < size h).
Lemma in_cut {A} (x : A) L1 h L2 : In x (L1 ++ L2) -> In x (L1 ++ h :: L2).
Proof. rewrite !in_app_iff. cbn. tauto. Qed.

Lemma covers_dec (h : shared) k : {covers h k} + {~ covers h k}.
Proof. destruct ((at_ h / 4096 <=? k) && (k <? at_ h / 4096 + page_count (size h))) eqn:E; [left; apply in_range; exact E|right; apply out_range; exact E]. Qed.
Lemma uses_balanced s0 L s : descr s0 0 <> None -> uses s0 L s -> balanced s0 L s /\ kept s0 L.
Proof.
  intros D0 U. induction U as [|L s n create w want len opened mapped a d s' U [(B1 & B2 & B3 & B4) (K1 & K2 & K3 & K4)] CO CM E|L s n create w want len opened mapped d s' U [(B1 & B2 & B3 & B4) K] CO CM E|L1 h L2 s U [(B1 & B2 & B3 & B4) (K1 & K2 & K3 & K4)]|L s a v s' U [(B1 & B2 & B3 & B4) K] E|L s f U [B K]].
  - split; [repeat split; cbn; try (intros; contradiction)|repeat split; cbn; intros; contradiction].
  - apply shared_inv in E as (e & -> & -> & -> & P & D & _). destruct (CO e eq_refl) as (E0 & EN & _). destruct (CM a eq_refl) as (A0 & AM & LP & AN).
    assert (NE : forall h, In h L -> fd h <> Some e) by (intros h I F; rewrite (B1 h e I F) in EN; discriminate).
    assert (EP : 0 < e). { destruct (Z.eq_dec e 0) as [->|]; [|lia]. rewrite (B2 0 NE) in EN. contradiction. }
    assert (NC : forall h k, In h L -> covers h k -> ~ covers (Shared a len (if want then Some e else None) n w) k).
    { intros h k I C [C1 C2]. cbn in C1, C2. specialize (AN k (conj C1 C2)). rewrite (B3 h k I C) in AN. discriminate. }
    split; [split; [|split; [|split]]|split; [|split; [|split]]].
    + intros h x [<-|I] F; cbn [fd name] in *; rewrite D.
      * destruct want; [|discriminate]. injection F as ->. rewrite Z.eqb_refl. reflexivity.
      * destruct (Z.eqb_spec x e) as [->|]; [exfalso; exact (NE h I F)|]. exact (B1 h x I F).
    + intros x NX. rewrite D. assert (NX' : forall h, In h L -> fd h <> Some x) by (intros h I; apply NX; right; exact I).
      destruct (Z.eqb_spec x e) as [->|]; [|exact (B2 x NX')]. destruct want; [exfalso; apply (NX _ (or_introl eq_refl)); reflexivity|]. rewrite <- (B2 e NE). symmetry. exact EN.
    + intros h k [<-|I] C; rewrite P; cbn [mmap pages].
      * destruct C as [C1 C2]. cbn in C1, C2. rewrite (proj2 (in_range _ _ _)) by lia. reflexivity.
      * rewrite (proj2 (out_range _ _ _)); [exact (B3 h k I C)|exact (NC h k I C)].
    + intros k NK. rewrite P. cbn [mmap pages]. rewrite (proj2 (out_range _ _ _)) by exact (NK _ (or_introl eq_refl)). apply B4. intros h I. apply NK. right. exact I.
    + split; [|exact K1]. intros g I. apply far_sym. split; [|intros k C; exact (NC g k I C)]. intros x F. cbn. destruct want; [|discriminate]. intros X. injection X as ->. exact (NE g I F).
    + intros h x [<-|I] F; [|exact (K2 h x I F)]. cbn in F. destruct want; [|discriminate]. injection F as <-. split; [exact EP|]. rewrite <- (B2 e NE). exact EN.
    + intros h k [<-|I] C; [|exact (K3 h k I C)]. rewrite <- B4; [apply AN; exact C|]. intros h I C'. exact (NC h k I C' C).
    + intros h [<-|I]; [cbn; auto|exact (K4 h I)].
  - apply failed_inv in E as (_ & D & P & _); [|exact CO]. split; [|exact K]. rewrite <- P in B3, B4. repeat split; intros; rewrite ?D; eauto.
  - destruct (apart_out _ _ _ K1) as [A F]. assert (IH : In h (L1 ++ h :: L2)) by apply in_elt. destruct (K4 h IH) as (A0 & _ & _).
    assert (DD : forall x, descr (CloseSharedFile s (at_ h) (size h) (match fd h with Some d => d | None => -1 end)) x = match fd h with Some d => if x =? d then None else descr s x | None => descr s x end).
    { intros x. unfold CloseSharedFile. rewrite (proj2 (Z.eqb_neq (at_ h) 0)) by lia. destruct (fd h) as [d|] eqn:FD; [|reflexivity]. destruct (K2 h d IH FD) as [DP _]. rewrite (proj2 (Z.ltb_lt 0 d)) by lia. reflexivity. }
    assert (PP : forall k, (covers h k -> pages (CloseSharedFile s (at_ h) (size h) (match fd h with Some d => d | None => -1 end)) k = None) /\
      (~ covers h k -> pages (CloseSharedFile s (at_ h) (size h) (match fd h with Some d => d | None => -1 end)) k = pages s k)).
    { intros k. unfold CloseSharedFile. rewrite (proj2 (Z.eqb_neq (at_ h) 0)) by lia. cbn [munmap pages]. split; intros Q.
      - rewrite (proj2 (in_range _ _ _)) by exact Q. reflexivity.
      - rewrite (proj2 (out_range _ _ _)) by exact Q. destruct (0 <? _); reflexivity. }
    split.
    + split; [|split; [|split]].
      * intros g x I FX. rewrite DD. rewrite <- (B1 g x (in_cut _ _ _ _ I) FX). destruct (fd h) as [d|] eqn:FD; [|reflexivity]. destruct (Z.eqb_spec x d) as [->|]; [|reflexivity]. exfalso. exact (proj1 (F g I) d FD FX).
      * intros x NX. rewrite DD. destruct (fd h) as [d|] eqn:FD.
        -- destruct (Z.eqb_spec x d) as [->|NE]; [symmetry; exact (proj2 (K2 h d IH FD))|]. apply B2. intros g I. apply in_app_iff in I as [I|[<-|I]]; [apply NX, in_app_iff; auto|congruence|apply NX, in_app_iff; auto].
        -- apply B2. intros g I. apply in_app_iff in I as [I|[<-|I]]; [apply NX, in_app_iff; auto|congruence|apply NX, in_app_iff; auto].
      * intros g k I C. rewrite (proj2 (PP k)) by (intros Q; exact (proj2 (F g I) k Q C)). exact (B3 g k (in_cut _ _ _ _ I) C).
      * intros k NK. destruct (covers_dec h k) as [Q|Q]; [rewrite (proj1 (PP k)) by exact Q; symmetry; exact (K3 h k IH Q)|]. rewrite (proj2 (PP k)) by exact Q. apply B4. intros g I. apply in_app_iff in I as [I|[<-|I]]; [apply NK, in_app_iff; auto|exact Q|apply NK, in_app_iff; auto].
    + split; [exact A|]. split; [|split].
      * intros g d I. exact (K2 g d (in_cut _ _ _ _ I)).
      * intros g k I. exact (K3 g k (in_cut _ _ _ _ I)).
      * intros g I. exact (K4 g (in_cut _ _ _ _ I)).
  - unfold store in E. destruct (pages s (a / 4096)) as [g|]; [|discriminate]. destruct (negb (p_write g)); [discriminate|]. destruct (_ <? _); [injection E as <-; split; [repeat split; assumption|exact K]|]. destruct (_ <? _); [injection E as <-; split; [repeat split; assumption|exact K]|discriminate].
  - split; [exact B|exact K].
Qed.

(** ** What the memory shows *)
Lemma shows s h k0 : 0 < at_ h -> at_ h mod 4096 = 0 -> (forall k, covers h k -> pages s k = Some (Page (name h) (k - at_ h / 4096) (writable h))) -> 0 <= k0 < size h ->
  pages s ((at_ h + k0) / 4096) = Some (Page (name h) (k0 / 4096) (writable h)) /\ k0 / 4096 * 4096 + (at_ h + k0) mod 4096 = k0.
Proof.
  intros A0 AM P I. destruct (at_page (at_ h) k0 AM) as [Q M]. rewrite Q, M. rewrite P.
  - split; [do 2 f_equal; lia|]. pose proof (Z.div_mod k0 4096). lia.
  - unfold covers. pose proof (page_in k0 (size h) I). lia.
Qed.
Lemma reads_file s0 L s h c i : descr s0 0 <> None -> uses s0 L s -> In h L -> files s (name h) = Some c -> 0 <= i < size h ->
  load s (at_ h + i) = (if i <? zlen c then Byte (znth c i) else if i <? page_count (zlen c) * 4096 then Tail else Signal).
Proof.
  intros D0 U I C IR. destruct (uses_balanced _ _ _ D0 U) as [(_ & _ & B3 & _) (_ & _ & _ & K4)]. destruct (K4 h I) as (A0 & AM & _).
  destruct (shows s h i A0 AM (fun k => B3 h k I) IR) as [P M]. unfold load. rewrite P. cbn [p_at p_file]. rewrite C, M, page_of by lia. reflexivity.
Qed.
Lemma writes_file s0 L s h c i v : descr s0 0 <> None -> uses s0 L s -> In h L -> files s (name h) = Some c -> 0 <= i < size h -> i < zlen c ->
  if writable h then exists s', store s (at_ h + i) v = Some s' /\ files s' (name h) = Some (ztake i c ++ v :: zskip (i + 1) c) /\ (forall n, n <> name h -> files s' n = files s n)
  else store s (at_ h + i) v = None.
Proof.
  intros D0 U I C IR IC. destruct (uses_balanced _ _ _ D0 U) as [(_ & _ & B3 & _) (_ & _ & _ & K4)]. destruct (K4 h I) as (A0 & AM & _).
  destruct (shows s h i A0 AM (fun k => B3 h k I) IR) as [P M]. unfold store. rewrite P. cbn [p_at p_file p_write]. rewrite C, M, (proj2 (Z.ltb_lt _ _) IC). destruct (writable h); [|reflexivity]. cbn [negb].
  eexists. split; [reflexivity|]. cbn. rewrite same_name_refl. split; [reflexivity|]. intros n NE. unfold same_name. destruct (list_eq_dec Z.eq_dec n (name h)); congruence.
Qed.
Lemma balanced_only s0 L s : descr s0 0 <> None -> uses s0 L s -> balanced s0 L s.
Proof. intros D U. apply uses_balanced; assumption. Qed.
Lemma nothing_left s0 s : descr s0 0 <> None -> uses s0 [] s -> (forall d, descr s d = descr s0 d) /\ (forall k, pages s k = pages s0 k).
Proof. intros D U. destruct (uses_balanced _ _ _ D U) as [(_ & B2 & _ & B4) _]. split; intros; [apply B2|apply B4]; intros h []. Qed.

(** The descriptor 0 is not closed. *)
Lemma zero_left s n create w len a s' : can_open s n create 0 -> can_map s len a -> s_ShareFile s n create w true len (Some 0) (Some a) = (Some a, Some 0, s') ->
  descr s 0 = None /\ descr (CloseSharedFile s' a len 0) 0 = Some n.
Proof.
  intros (_ & D & _) (A0 & _) E. split; [exact D|]. apply shared_inv in E as (e & X & _ & _ & _ & DD & _). injection X as <-. unfold CloseSharedFile. rewrite (proj2 (Z.eqb_neq a 0)) by lia. cbn. rewrite DD. reflexivity.
Qed.
(** A file that had to be made is empty: no byte of it can be touched. *)
Lemma new_file s n w want len d a s' i v : files s n = None -> can_open s n true d -> can_map s len a -> s_ShareFile s n true w want len (Some d) (Some a) = (Some a, if want then Some d else None, s') -> 0 <= i < len ->
  files s' n = Some [] /\ load s' (a + i) = Signal /\ store s' (a + i) v = None.
Proof.
  intros FN CO CM E I. pose proof CM as (A0 & AM & L0 & AN). apply shared_inv in E as (e & X & _ & _ & P & _ & FF). injection X as <-.
  assert (F : files s' n = Some []). { rewrite FF. unfold open_. rewrite FN. cbn. rewrite same_name_refl. reflexivity. }
  split; [exact F|]. destruct (shows s' (Shared a len None n w) i A0 AM) as [Q M].
  - intros k C. rewrite P. cbn [mmap pages]. rewrite (proj2 (in_range _ _ _)) by exact C. reflexivity.
  - exact I.
  - cbn [at_ name writable] in *. unfold load, store. rewrite Q. cbn [p_at p_file p_write]. rewrite F, M. change (zlen []) with 0. change (page_count 0) with 0.
    pose proof (Z.div_pos i 4096). rewrite (proj2 (Z.ltb_ge i 0)), (proj2 (Z.ltb_ge (i / 4096) 0)) by lia. destruct w; split; reflexivity.
Qed.
Lemma failed_share s n create w want len opened mapped d s' : (forall e, opened = Some e -> can_open s n create e) -> s_ShareFile s n create w want len opened mapped = (None, d, s') ->
  d = None /\ (forall x, descr s' x = descr s x) /\ (forall k, pages s' k = pages s k) /\ (forall x, files s' x = files s x \/ create = true /\ x = n /\ files s x = None /\ files s' x = Some []).
Proof. intros CO E. destruct (failed_inv _ _ _ _ _ _ _ _ _ _ CO E) as (A & B & C & D). rewrite C. auto. Qed.

(** ** WriteToFile *)
Lemma open_descr s n c d x : descr (open_ s n c d) x = if x =? d then Some n else descr s x.
Proof. unfold open_. destruct (files s n); [|destruct c]; reflexivity. Qed.
Lemma open_files s n c d x : x <> n -> files (open_ s n c d) x = files s x.
Proof. intros NE. unfold open_. destruct (files s n); [reflexivity|]. destruct c; [|reflexivity]. cbn. unfold same_name. destruct (list_eq_dec Z.eq_dec x n); congruence. Qed.
Lemma open_pages s n c d : pages (open_ s n c d) = pages s.
Proof. unfold open_. destruct (files s n); [|destruct c]; reflexivity. Qed.
Lemma written_file s n text opened printed closed k s' : (forall d, opened = Some d -> can_open s n true d) -> WriteToFile s n text opened printed closed k = (true, s') ->
  files s' n = Some text /\ (forall x, x <> n -> files s' x = files s x) /\ (forall d, descr s' d = descr s d) /\ (forall p, pages s' p = pages s p).
Proof.
  intros CO. unfold WriteToFile. destruct opened as [d|]; [|discriminate]. destruct printed; [|discriminate]. cbn [negb]. intros E. inversion E; subst; clear E. destruct (CO d eq_refl) as (_ & DN & _).
  cbn -[open_]. rewrite same_name_refl, open_pages. split; [reflexivity|]. split; [|split; [|reflexivity]].
  - intros x NE. unfold same_name. destruct (list_eq_dec Z.eq_dec x n); [congruence|]. apply open_files, NE.
  - intros x. rewrite open_descr. destruct (Z.eqb_spec x d) as [->|]; auto.
Qed.
Lemma print_fails s n text d closed k : can_open s n true d -> exists s', WriteToFile s n text (Some d) false closed k = (false, s') /\ descr s d = None /\ descr s' d = Some n /\ files s' n = Some (ztake k text).
Proof. intros (_ & DN & _). unfold WriteToFile. cbn [negb]. eexists. split; [reflexivity|]. cbn -[open_]. rewrite open_descr, Z.eqb_refl, same_name_refl. auto. Qed.

(** Files that are shared for reading, or that must exist, are not made. *)
Lemma no_file_made s n w want len opened mapped a d s' : (forall e, opened = Some e -> can_open s n false e) -> s_ShareFile s n false w want len opened mapped = (a, d, s') -> forall x, files s' x = files s x.
Proof.
  intros CO E x. destruct a as [a|].
  - apply shared_inv in E as (e & OE & _ & _ & _ & _ & FS). rewrite FS. unfold open_. destruct (files s n) eqn:FN; [reflexivity|]. destruct (CO e OE) as (_ & _ & NN). destruct (NN eq_refl FN).
  - destruct (failed_inv _ _ _ _ _ _ _ _ _ _ CO E) as (_ & _ & _ & FS). destruct (FS x) as [Q|(Q & _)]; [exact Q|discriminate].
Qed.
Lemma read_shared s n want len opened mapped a d s' : (forall e, opened = Some e -> can_open s n false e) -> (forall b, mapped = Some b -> can_map s len b) -> ShareFileRO s n want len opened mapped = (a, d, s') ->
  (forall x, files s' x = files s x) /\ forall b i v, a = Some b -> 0 <= i < len -> store s' (b + i) v = None.
Proof.
  intros CO CM E. split; [eapply no_file_made; eauto|]. intros b i v -> I. apply shared_inv in E as (e & _ & MA & _ & PG & _). destruct (CM b MA) as (B0 & BM & _).
  unfold store. rewrite PG. cbn [pages mmap]. assert (Q : (b / 4096 <=? (b + i) / 4096) && ((b + i) / 4096 <? b / 4096 + page_count len) = true).
  { unfold page_count. apply andb_true_intro. split; [apply Z.leb_le, Z.div_le_mono; lia|]. apply Z.ltb_lt. rewrite (Z.div_mod b 4096) at 1 by lia. rewrite BM, Z.add_0_r. replace (4096 * (b / 4096) + i) with (i + b / 4096 * 4096) by lia.
    rewrite Z.div_add by lia. enough (i / 4096 < (len + 4095) / 4096) by lia. apply Z.div_lt_upper_bound; [lia|]. pose proof (Z.div_mod (len + 4095) 4096 ltac:(lia)). pose proof (Z.mod_pos_bound (len + 4095) 4096 ltac:(lia)). lia. }
  rewrite Q. reflexivity.
Qed.
Lemma existing_shared s n want len opened mapped a d s' : (forall e, opened = Some e -> can_open s n false e) -> ShareFileRW s n true want len opened mapped = (a, d, s') -> forall x, files s' x = files s x.
Proof. intros CO E. eapply no_file_made; eauto. Qed.
