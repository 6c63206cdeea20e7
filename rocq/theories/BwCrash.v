(** Pools whose program is killed while it links elements *)
From Verif Require Import Base BaseFacts Types ListFacts Sort Symtab Xb XbSpec XbFacts XbWrite WriteProofs Bw BwFacts BwRing BwSpec BwHist BwAlloc BwProofs BwRead BwTop BwSym BwFile BwReg BwFileSpec BwFileProofs BwNamesSpec BwNamesFacts BwNamesInv BwNamesReg BwNamesOps BwLifeSpec BwLife BwTitle BwSet BwOpenSpec BwOpenProofs.

(** ** The memories after every store *)
Lemma remove_steps E m h x t f : rep E m h -> In x E -> In t E -> el_flags m t = Ok f -> In (h t 8) E -> In (h t 12) E ->
  let k := field_of (is_element f) in h x k <> 0 -> int32 (h x k) ->
  let h0 := if h x k =? t then upd h x k (if (h t 8 =? t) && (h t 12 =? t) then 0 else h t 8) else h in
  let h1 := upd h0 (h t 12) 8 (h t 8) in let h2 := upd h1 (h t 8) 12 (h t 12) in
  let h3 := upd h2 t 12 t in let h4 := upd h3 t 8 t in
  exists tr m1 m2 m3 m4 m5, remove m x t = Ok (true, tr ++ [m1; m2; m3; m4; m5]) /\ (if h x k =? t then exists m0, tr = [m0] /\ rep E m0 h0 /\ framed E m m0 else tr = []) /\
    rep E m1 h1 /\ rep E m2 h2 /\ rep E m3 h3 /\ rep E m4 h4 /\ rep E m5 h4 /\ framed E m m1 /\ framed E m m2 /\ framed E m m3 /\ framed E m m4 /\ wr m4 (t + 6) [Z.lor f BIN_DELETED] = Ok m5.
Proof.
  intros R Ix It Ef In8 In12 k NZ IK h0 h1 h2 h3 h4. assert (LK : link k) by apply link_field. destruct (field_not (is_element f)) as [K8 K12]. fold k in K8, K12.
  assert (S0 : exists tr, (if h x k =? t then n <- el_next m t ;; p <- el_prev m t ;;
                     m1 <- wr32 m (x + k) (if (n =? t) && (p =? t) then 0 else n) ;; Ok [m1] else Ok []) = Ok tr /\ rep E (final m tr) h0 /\ framed E m (final m tr) /\ (if h x k =? t then exists m0, tr = [m0] /\ rep E m0 h0 /\ framed E m m0 else tr = [])).
  { unfold h0. destruct (h x k =? t).
    - rewrite (rep_next _ _ _ t R It), (rep_prev _ _ _ t R It). cbn [obind].
      destruct (rep_store E m h x k (if (h t 8 =? t) && (h t 12 =? t) then 0 else h t 8)) as (m1 & W & R1 & F1); [auto|auto|auto| |].
      { destruct ((h t 8 =? t) && (h t 12 =? t)); [unfold int32; lia|eapply rep_int; eauto]. }
      rewrite W. cbn [obind]. exists [m1]. split; [reflexivity|]. split; [exact R1|]. split; [exact F1|]. exists m1. auto.
    - exists []. split; [reflexivity|]. split; [exact R|]. split; [apply framed_refl|reflexivity]. }
  destruct S0 as (tr & T & R0 & F0 & SH). set (m0 := final m tr) in *.
  assert (E8 : h0 t 8 = h t 8) by (unfold h0; destruct (h x k =? t); [apply upd_other; auto|auto]).
  assert (E12 : h0 t 12 = h t 12) by (unfold h0; destruct (h x k =? t); [apply upd_other; auto|auto]).
  destruct (rep_store E m0 h0 (h t 12) 8 (h t 8)) as (m1 & W1 & R1 & F1); [auto|auto|lnk|eapply rep_int; eauto|]. fold h1 in R1.
  assert (E81 : h1 t 8 = h t 8). { unfold h1. destruct (Z.eq_dec t (h t 12)) as [E'|N]; [rewrite <- E'; apply upd_same|rewrite upd_other by auto; exact E8]. }
  assert (E121 : h1 t 12 = h t 12) by (unfold h1; rewrite upd_other by lia; exact E12).
  destruct (rep_store E m1 h1 (h t 8) 12 (h t 12)) as (m2 & W2 & R2 & F2); [auto|auto|lnk|eapply rep_int; eauto|]. fold h2 in R2.
  destruct (rep_store E m2 h2 t 12 t) as (m3 & W3 & R3 & F3); [auto|auto|lnk|eapply rep_int; eauto|]. fold h3 in R3.
  destruct (rep_store E m3 h3 t 8 t) as (m4 & W4 & R4 & F4); [auto|auto|lnk|eapply rep_int; eauto|]. fold h4 in R4.
  assert (FF : framed E m m4) by eauto using framed_trans.
  destruct (rep_in _ _ _ R4 t It) as [P4 B4].
  destruct (wr_some m4 (t + 6) [Z.lor f BIN_DELETED]) as [m5 W5]; [lia|change (zlen [Z.lor f BIN_DELETED]) with 1; lia|].
  destruct (wr_kept _ _ _ _ W5) as (_ & _ & K5 & _). change (zlen [Z.lor f BIN_DELETED]) with 1 in K5.
  assert (R5 : rep E m5 h4). { apply (rep_keep E m4 m5 h4 (t + 6) 1); auto. intros e I. destruct (Z.eq_dec e t) as [->|N]; [lia|]. destruct (rep_apart _ _ _ R e t I It N); lia. }
  exists tr, m1, m2, m3, m4, m5. split; [|do 10 (split; [eauto using framed_trans|]); exact W5].
  - unfold remove. rewrite Ef. cbn [obind]. rewrite list_field_of. fold k. rewrite (rep_link _ _ _ R x k Ix LK). cbn [obind].
    replace (h x k =? 0) with false by lia. rewrite (rep_off _ _ _ R t It). cbn [obind]. rewrite T. cbn [obind]. fold m0.
    rewrite (rep_prev _ _ _ t R0 It), (rep_next _ _ _ t R0 It), E8, E12. cbn [obind]. rewrite (rep_bwe _ _ _ x _ R0 Ix). cbn [obind]. rewrite W1. cbn [obind].
    rewrite (rep_prev _ _ _ t R1 It), (rep_next _ _ _ t R1 It), E81, E121. cbn [obind]. rewrite (rep_bwe _ _ _ x _ R1 Ix). cbn [obind]. rewrite W2. cbn [obind].
    rewrite (rep_off _ _ _ R2 t It). cbn [obind]. rewrite W3. cbn [obind]. rewrite W4. cbn [obind].
    rewrite (framed_flags E m m4 h t FF R It), Ef. cbn [obind]. rewrite W5. reflexivity.
Qed.

Lemma replace_steps E m h x old new f : rep E m h -> In x E -> In old E -> In new E -> old <> new -> h new 8 = new -> h new 12 = new ->
  In (h old 8) E -> In (h old 12) E -> h old 8 <> new -> h old 12 <> new -> el_flags m old = Ok f ->
  let h1 := upd h new 8 (h old 8) in let h2 := upd h1 new 12 (h old 12) in
  let h3 := upd h2 (h old 8) 12 new in let h4 := upd h3 (h old 12) 8 new in
  let h6 := upd h4 old 12 old in let h7 := upd h6 old 8 old in
  let h8 := if h x 16 =? old then upd h7 x 16 new else h7 in
  let h9 := if h x 20 =? old then upd h8 x 20 new else h8 in
  exists m1 m2 m3 m4 m5 m6 m7 tr tr', replace m x old new = Ok (true, [m1; m2; m3; m4; m5; m6; m7] ++ tr ++ tr') /\
    rep E m1 h1 /\ rep E m2 h2 /\ rep E m3 h3 /\ rep E m4 h4 /\ rep E m5 h4 /\ rep E m6 h6 /\ rep E m7 h7 /\
    (if h x 16 =? old then exists m8, tr = [m8] /\ rep E m8 h8 /\ framed E m7 m8 else tr = []) /\
    (if h x 20 =? old then exists m9, tr' = [m9] /\ rep E m9 h9 /\ framed E (final m7 tr) m9 else tr' = []) /\
    framed E m m1 /\ framed E m m2 /\ framed E m m3 /\ framed E m m4 /\ wr m4 (old + 6) [Z.lor f BIN_DELETED] = Ok m5 /\ framed E m5 m6 /\ framed E m5 m7.
Proof.
  intros R Ix Io In' ON N8 N12 I8 I12 O8 O12 Ef h1 h2 h3 h4 h6 h7 h8 h9.
  assert (II : int32 new) by (eapply rep_int; eauto). assert (IO : int32 old) by (eapply rep_int; eauto).
  destruct (rep_store E m h new 8 (h old 8)) as (m1 & W1 & R1 & F1); [auto|auto|lnk|eapply rep_int; eauto|]. fold h1 in R1.
  assert (A1 : h1 old 12 = h old 12) by (unfold h1; apply upd_other; auto).
  destruct (rep_store E m1 h1 new 12 (h old 12)) as (m2 & W2 & R2 & F2); [auto|auto|lnk|eapply rep_int; eauto|]. fold h2 in R2.
  assert (A2 : h2 new 8 = h old 8) by (unfold h2; rewrite upd_other by lia; apply upd_same).
  destruct (rep_store E m2 h2 (h old 8) 12 new) as (m3 & W3 & R3 & F3); [auto|auto|lnk|auto|]. fold h3 in R3.
  assert (A3 : h3 new 12 = h old 12) by (unfold h3; rewrite upd_other by lia; apply upd_same).
  destruct (rep_store E m3 h3 (h old 12) 8 new) as (m4 & W4 & R4 & F4); [auto|auto|lnk|auto|]. fold h4 in R4.
  assert (FF : framed E m m4) by eauto using framed_trans.
  destruct (rep_in _ _ _ R4 old Io) as [P4 B4].
  destruct (wr_some m4 (old + 6) [Z.lor f BIN_DELETED]) as [m5 W5]; [lia|change (zlen [Z.lor f BIN_DELETED]) with 1; lia|].
  destruct (wr_kept _ _ _ _ W5) as (_ & _ & K5 & _). change (zlen [Z.lor f BIN_DELETED]) with 1 in K5.
  assert (R5 : rep E m5 h4). { apply (rep_keep E m4 m5 h4 (old + 6) 1); auto. intros e I. destruct (Z.eq_dec e old) as [->|N]; [lia|]. destruct (rep_apart _ _ _ R e old I Io N); lia. }
  destruct (rep_store E m5 h4 old 12 old) as (m6 & W6 & R6 & F6); [auto|auto|lnk|auto|]. fold h6 in R6.
  destruct (rep_store E m6 h6 old 8 old) as (m7 & W7 & R7 & F7); [auto|auto|lnk|auto|]. fold h7 in R7.
  assert (G : forall f', f' = 16 \/ f' = 20 -> h7 x f' = h x f').
  { intros f' D. unfold h7, h6, h4, h3, h2, h1. rewrite !upd_other by lia. reflexivity. }
  assert (S8 : exists tr, (if h x 16 =? old then no <- el_offset m7 new ;; m8 <- wr32 m7 (x + 16) no ;; Ok [m8] else Ok []) = Ok tr /\ rep E (final m7 tr) h8 /\ framed E m7 (final m7 tr) /\ (if h x 16 =? old then exists m8, tr = [m8] /\ rep E m8 h8 /\ framed E m7 m8 else tr = [])).
  { unfold h8. destruct (h x 16 =? old).
    - rewrite (rep_off _ _ _ R7 new In'). cbn [obind].
      destruct (rep_store E m7 h7 x 16 new) as (m8 & W & R8 & F8); [auto|auto|lnk|auto|]. rewrite W. cbn [obind]. exists [m8]. split; [reflexivity|]. split; [exact R8|]. split; [exact F8|]. exists m8. auto.
    - exists []. split; [reflexivity|]. split; [exact R7|]. split; [apply framed_refl|reflexivity]. }
  destruct S8 as (tr & T & R8 & F8 & SH8). set (m8 := final m7 tr) in *.
  assert (G8 : h8 x 20 = h x 20). { unfold h8. destruct (h x 16 =? old); [rewrite upd_other by lia|]; apply G; auto. }
  assert (S9 : exists tr, (if h x 20 =? old then no <- el_offset m8 new ;; m9 <- wr32 m8 (x + 20) no ;; Ok [m9] else Ok []) = Ok tr /\ rep E (final m8 tr) h9 /\ framed E m8 (final m8 tr) /\ (if h x 20 =? old then exists m9, tr = [m9] /\ rep E m9 h9 /\ framed E m8 m9 else tr = [])).
  { unfold h9. destruct (h x 20 =? old).
    - rewrite (rep_off _ _ _ R8 new In'). cbn [obind].
      destruct (rep_store E m8 h8 x 20 new) as (m9 & W & R9 & F9); [auto|auto|lnk|auto|]. rewrite W. cbn [obind]. exists [m9]. split; [reflexivity|]. split; [exact R9|]. split; [exact F9|]. exists m9. auto.
    - exists []. split; [reflexivity|]. split; [exact R8|]. split; [apply framed_refl|reflexivity]. }
  destruct S9 as (tr' & T' & R9 & F9 & SH9).
  exists m1, m2, m3, m4, m5, m6, m7, tr, tr'. split; [|do 15 (split; [eauto using framed_trans|]); eauto using framed_trans].
  - unfold replace. rewrite (rep_next _ _ _ new R In'), (rep_prev _ _ _ new R In'), (rep_off _ _ _ R new In'), (rep_off _ _ _ R old Io). cbn [obind].
    rewrite N8, N12. rewrite !Z.eqb_refl. replace (new - new =? old - old) with true by lia. cbn [negb orb].
    rewrite (rep_next _ _ _ old R Io). cbn [obind]. rewrite W1. cbn [obind]. rewrite (rep_prev _ _ _ old R1 Io), A1. cbn [obind]. rewrite W2. cbn [obind].
    rewrite (rep_next _ _ _ new R2 In'), A2. cbn [obind]. rewrite (rep_bwe _ _ _ x _ R2 Ix), (rep_off _ _ _ R2 new In'). cbn [obind]. rewrite W3. cbn [obind].
    rewrite (rep_prev _ _ _ new R3 In'), A3. cbn [obind]. rewrite (rep_bwe _ _ _ x _ R3 Ix), (rep_off _ _ _ R3 new In'). cbn [obind]. rewrite W4. cbn [obind].
    rewrite (framed_flags E m m4 h old FF R Io), Ef. cbn [obind]. rewrite W5. cbn [obind]. rewrite (rep_off _ _ _ R5 old Io). cbn [obind].
    rewrite W6. cbn [obind]. rewrite W7. cbn [obind]. rewrite (rep_child _ _ _ x R7 Ix), (rep_off _ _ _ R7 old Io), (G 16) by auto. cbn [obind].
    rewrite T. cbn [obind]. fold m8. rewrite (rep_attr _ _ _ x R8 Ix), (rep_off _ _ _ R8 old Io), G8. cbn [obind]. rewrite T'. reflexivity.
Qed.

(** ** Only links are stored *)
Lemma only_refl E m : only_links E m m.
Proof. split; auto. Qed.
Section Only.
Variable kind : Z -> bool.
Variable size : Z -> Z.
Notation inv := (BwProofs.inv kind size).

Lemma join_at_only m o A1 a A2 B1 b B2 R ok tr : inv m ((o, A1 ++ a :: A2) :: (None, B1 ++ b :: B2) :: R) -> join m a b = Ok (ok, tr) ->
  forall mi, In mi tr -> only_links (members ((o, A1 ++ a :: A2) :: (None, B1 ++ b :: B2) :: R)) m mi.
Proof.
  set (F := (o, A1 ++ a :: A2) :: (None, B1 ++ b :: B2) :: R). intros (h & ad & P & RP & S) E.
  assert (RA : ring h (A1 ++ a :: A2)) by (eapply sh_ring; [exact S|left; reflexivity]). assert (RB : ring h (B1 ++ b :: B2)) by (eapply sh_ring; [exact S|right; left; reflexivity]).
  assert (Ia : In a (A1 ++ a :: A2)) by (apply in_or_app; right; left; reflexivity). assert (Ib : In b (B1 ++ b :: B2)) by (apply in_or_app; right; left; reflexivity).
  assert (SA : forall e, In e (A1 ++ a :: A2) -> In e (members F)) by (intros; eapply members_in; [left; reflexivity|auto]).
  assert (SB : forall e, In e (B1 ++ b :: B2) -> In e (members F)) by (intros; eapply members_in; [right; left; reflexivity|auto]).
  destruct (ring_in _ _ _ RA Ia) as [_ Pa]. destruct (ring_in _ _ _ RB Ib) as [_ Pb].
  destruct (join_rep _ _ _ a b RP (SA _ Ia) (SB _ Ib) (SA _ Pa) (SB _ Pb)) as (m1 & m2 & m3 & m4 & J & R1 & R2 & R3 & R4 & F1 & F2 & F3 & F4).
  rewrite J in E. injection E as <- <-. intros mi I. destruct I as [<-|[<-|[<-|[<-|[]]]]]; apply (framed_only kind size); assumption.
Qed.
Lemma join_only m F a b F' ok tr : inv m F -> joins a b F F' -> join m a b = Ok (ok, tr) -> forall mi, In mi tr -> only_links (members F) m mi.
Proof.
  intros I J E mi M. inversion J as [F0 o A B1 B2 R P|F0 o A1 A2 B1 B2 R N P]; subst; (eapply only_perm; [apply Permutation_sym, members_perm; exact P|]).
  - eapply (join_at_only m o [] a A B1 b B2 R); eauto. apply (inv_perm _ _ _ _ _ P I).
  - eapply (join_at_only m o A1 a A2 B1 b B2 R); eauto. apply (inv_perm _ _ _ _ _ P I).
Qed.
Lemma add_only m F p t F' ok tr : inv m F -> In p (members F) -> adds kind p t F F' -> add m p t = Ok (ok, tr) -> forall mi, In mi tr -> only_links (members F) m mi.
Proof.
  intros IV Ip AD E mi M. destruct (inv_add _ _ _ _ _ _ _ IV Ip AD) as (pre & m' & EA & _ & _ & OL). inversion AD as [F0 B1 B2 R P U|F0 B1 B2 L R P]; subst.
  - assert (IV' := inv_perm _ _ _ _ _ P IV). destruct IV' as (h & a & PL & RP & S). set (F1 := (None, B1 ++ t :: B2) :: R) in *.
    assert (Ip' : In p (members F1)) by (eapply Permutation_in; [apply members_perm; exact P|exact Ip]).
    assert (It : In t (members F1)) by (eapply members_in; [left; reflexivity|apply in_or_app; right; left; reflexivity]).
    destruct (pl_kind _ _ _ _ _ PL t It) as (f & Ef & Kf).
    assert (UF : unowned F1 p (kind t)) by (intros L [J|J]; [discriminate|apply (U L J)]).
    assert (Z0 : h p (field_of (is_element f)) = 0) by (rewrite Kf; apply S; auto).
    destruct (add_first_rep _ _ _ p t f RP Ip' It Ef Z0) as (m1 & A & R1 & FR1). rewrite A in E. injection E as <- <-. destruct M as [<-|[]].
    eapply only_perm; [apply Permutation_sym, members_perm; exact P|apply (framed_only kind size); exact FR1].
  - assert (P' : Permutation F ((Some (p, kind t), L) :: (None, B1 ++ t :: B2) :: R)) by (eapply Permutation_trans; [exact P|apply perm_swap]).
    assert (IV' := inv_perm _ _ _ _ _ P' IV). pose proof IV' as (h & a & PL & RP & S). set (F1 := (Some (p, kind t), L) :: (None, B1 ++ t :: B2) :: R) in *.
    assert (Ip' : In p (members F1)) by (eapply Permutation_in; [apply members_perm; exact P'|exact Ip]).
    assert (It : In t (members F1)) by (eapply members_in; [right; left; reflexivity|apply in_or_app; right; left; reflexivity]).
    destruct (pl_kind _ _ _ _ _ PL t It) as (f & Ef & Kf).
    destruct (sh_ring _ _ S (Some (p, kind t)) L (or_introl eq_refl)) as [NE _]. destruct L as [|x A]; [congruence|].
    destruct (sh_head _ _ S p (kind t) (x :: A) (or_introl eq_refl)) as [_ HD]. cbn [hd] in HD.
    destruct (inv_join_at kind size m (Some (p, kind t)) [] x A B1 t B2 R ((x :: A) ++ (t :: B2) ++ B1) IV' (or_introl (conj eq_refl eq_refl))) as (m1 & m2 & m3 & m4 & J1 & _).
    assert (EJ : add m p t = Ok (true, [m1; m2; m3; m4])).
    { pose proof J1 as J. rewrite <- HD, <- Kf in J. eapply (add_join m p t f _ h RP Ip' Ef); [|exact J]. rewrite Kf, HD. eapply pos_in; eauto. eapply members_in; [left; reflexivity|left; reflexivity]. }
    rewrite EJ in E. injection E as <- <-. eapply only_perm; [apply Permutation_sym, members_perm; exact P'|]. eapply (join_at_only m (Some (p, kind t)) [] x A B1 t B2 R); eauto.
Qed.

(** Everything that is known about the stores of remove *)
Lemma remove_known m F p t L1 L2 R : inv m F -> Permutation F ((Some (p, kind t), L1 ++ t :: L2) :: R) ->
  exists h f tr m1 m2 m3 m4 m5, let E := members F in let k := field_of (kind t) in
    let h0 := if h p k =? t then upd h p k (if (h t 8 =? t) && (h t 12 =? t) then 0 else h t 8) else h in
    let h1 := upd h0 (h t 12) 8 (h t 8) in let h2 := upd h1 (h t 8) 12 (h t 12) in
    let h3 := upd h2 t 12 t in let h4 := upd h3 t 8 t in
    rep E m h /\ shape h ((Some (p, kind t), L1 ++ t :: L2) :: R) /\ In t E /\ In p E /\
    remove m p t = Ok (true, tr ++ [m1; m2; m3; m4; m5]) /\ (if h p k =? t then exists m0, tr = [m0] /\ rep E m0 h0 /\ framed E m m0 else tr = []) /\
    rep E m1 h1 /\ rep E m2 h2 /\ rep E m3 h3 /\ rep E m4 h4 /\ rep E m5 h4 /\ framed E m m1 /\ framed E m m2 /\ framed E m m3 /\ framed E m m4 /\ wr m4 (t + 6) [Z.lor f BIN_DELETED] = Ok m5.
Proof.
  intros IV P. assert (IV' := inv_perm _ _ _ _ _ P IV). destruct IV' as (h & a & PL & RP & S). set (L := L1 ++ t :: L2) in *. set (F1 := (Some (p, kind t), L) :: R) in *.
  assert (It : In t L) by (apply in_or_app; right; left; reflexivity). assert (SL : forall e, In e L -> In e (members F1)) by (intros; eapply members_in; [left; reflexivity|auto]).
  assert (RL : ring h L) by (eapply sh_ring; [exact S|left; reflexivity]). destruct (ring_in _ _ _ RL It) as [I8 I12].
  destruct (sh_head _ _ S p (kind t) L (or_introl eq_refl)) as [Ip HD]. destruct (pl_kind _ _ _ _ _ PL t (SL _ It)) as (f & Ef & Kf).
  assert (NL : L <> []) by apply RL. assert (IH : In (hd 0 L) L) by (apply hd_in; exact NL).
  assert (HN : h p (field_of (is_element f)) <> 0) by (rewrite Kf, HD; eapply pos_in; eauto).
  assert (PM : Permutation (members F1) (members F)) by (apply Permutation_sym, members_perm, P). assert (RP' : rep (members F) m h) by (eapply rep_perm; [exact PM|exact RP]).
  assert (SUB : forall e, In e (members F1) -> In e (members F)) by (intros e J; apply (Permutation_in _ PM J)).
  destruct (remove_steps _ _ _ p t f RP' (SUB _ Ip) (SUB _ (SL _ It)) Ef (SUB _ (SL _ I8)) (SUB _ (SL _ I12)) HN) as (tr & m1 & m2 & m3 & m4 & m5 & X); [rewrite Kf, HD; eapply rep_int; eauto|].
  rewrite Kf in X. exists h, f, tr, m1, m2, m3, m4, m5. cbv zeta in *. split; [exact RP'|]. split; [exact S|]. split; [exact (SUB _ (SL _ It))|]. split; [exact (SUB _ Ip)|]. exact X.
Qed.
Lemma removes_inv p t F F' : removes kind p t F F' -> exists L1 L2 R, Permutation F ((Some (p, kind t), L1 ++ t :: L2) :: R).
Proof. intros [F0 R P|F0 L1 L2 R NE P]; [exists [], [], R; exact P|eauto]. Qed.
Lemma remove_only m F p t F' ok tr : inv m F -> removes kind p t F F' -> remove m p t = Ok (ok, tr) -> forall mi, In mi tr -> only_links (members F) m mi.
Proof.
  intros IV RM E. apply removes_inv in RM as (L1 & L2 & R & P). destruct (remove_known m F p t L1 L2 R IV P) as (h & f & tr0 & m1 & m2 & m3 & m4 & m5 & RP & S & It & Ip & X & TR & _ & _ & _ & _ & _ & F1 & F2 & F3 & F4 & W).
  rewrite X in E. injection E as <- <-. intros mi I. apply in_app_or in I as [I|I].
  - destruct (h p (field_of (kind t)) =? t); [|subst tr0; destruct I]. destruct TR as (m0 & -> & _ & F0). destruct I as [<-|[]]. apply (framed_only kind size); exact F0.
  - destruct I as [<-|[<-|[<-|[<-|[<-|[]]]]]]; try (apply (framed_only kind size); assumption). eapply only_trans; [apply (framed_only kind size); exact F4|]. eapply (flag_only kind size); [exact It|exact W].
Qed.
Lemma replace_known m F p old new k L1 L2 R : inv m F -> Permutation F ((Some (p, k), L1 ++ old :: L2) :: (None, [new]) :: R) ->
  exists h f m1 m2 m3 m4 m5 m6 m7 tr tr', let E := members F in
    let h1 := upd h new 8 (h old 8) in let h2 := upd h1 new 12 (h old 12) in
    let h3 := upd h2 (h old 8) 12 new in let h4 := upd h3 (h old 12) 8 new in
    let h6 := upd h4 old 12 old in let h7 := upd h6 old 8 old in
    let h8 := if h p 16 =? old then upd h7 p 16 new else h7 in
    let h9 := if h p 20 =? old then upd h8 p 20 new else h8 in
    rep E m h /\ shape h ((Some (p, k), L1 ++ old :: L2) :: (None, [new]) :: R) /\ In old E /\ In new E /\ In p E /\
    replace m p old new = Ok (true, [m1; m2; m3; m4; m5; m6; m7] ++ tr ++ tr') /\
    rep E m1 h1 /\ rep E m2 h2 /\ rep E m3 h3 /\ rep E m4 h4 /\ rep E m5 h4 /\ rep E m6 h6 /\ rep E m7 h7 /\
    (if h p 16 =? old then exists m8, tr = [m8] /\ rep E m8 h8 /\ framed E m7 m8 else tr = []) /\
    (if h p 20 =? old then exists m9, tr' = [m9] /\ rep E m9 h9 /\ framed E (final m7 tr) m9 else tr' = []) /\
    framed E m m1 /\ framed E m m2 /\ framed E m m3 /\ framed E m m4 /\ wr m4 (old + 6) [Z.lor f BIN_DELETED] = Ok m5 /\ framed E m5 m6 /\ framed E m5 m7.
Proof.
  intros IV P. assert (IV' := inv_perm _ _ _ _ _ P IV). destruct IV' as (h & a & PL & RP & S).
  set (L := L1 ++ old :: L2) in *. set (F1 := (Some (p, k), L) :: (None, [new]) :: R) in *.
  assert (Io : In old L) by (apply in_or_app; right; left; reflexivity). assert (SL : forall e, In e L -> In e (members F1)) by (intros; eapply members_in; [left; reflexivity|auto]).
  assert (Inw : In new (members F1)) by (eapply members_in; [right; left; reflexivity|left; reflexivity]).
  assert (RL : ring h L) by (eapply sh_ring; [exact S|left; reflexivity]). destruct (ring_in _ _ _ RL Io) as [I8 I12].
  assert (RN : ring h [new]) by (eapply sh_ring; [exact S|right; left; reflexivity]). destruct RN as [_ (N12 & N8 & _)]. cbn in N12, N8.
  destruct (sh_head _ _ S p k L (or_introl eq_refl)) as [Ip HD]. destruct (pl_kind _ _ _ _ _ PL old (SL _ Io)) as (f & Ef & Kf).
  pose proof (sh_nodup _ _ S) as ND. unfold F1 in ND. rewrite !members_cons in ND. destruct (nodup_app _ _ ND) as (NDL & _ & DR).
  assert (NN : forall e, In e L -> e <> new) by (intros e I E; subst; apply (DR new I); left; reflexivity).
  assert (PM : Permutation (members F1) (members F)) by (apply Permutation_sym, members_perm, P). assert (RP' : rep (members F) m h) by (eapply rep_perm; [exact PM|exact RP]).
  assert (SUB : forall e, In e (members F1) -> In e (members F)) by (intros e J; apply (Permutation_in _ PM J)).
  destruct (replace_steps _ _ _ p old new f RP' (SUB _ Ip) (SUB _ (SL _ Io)) (SUB _ Inw) (NN _ Io) N8 N12 (SUB _ (SL _ I8)) (SUB _ (SL _ I12)) (NN _ I8) (NN _ I12) Ef) as (m1 & m2 & m3 & m4 & m5 & m6 & m7 & tr & tr' & X).
  exists h, f, m1, m2, m3, m4, m5, m6, m7, tr, tr'. cbv zeta in *. split; [exact RP'|]. split; [exact S|]. split; [exact (SUB _ (SL _ Io))|]. split; [exact (SUB _ Inw)|]. split; [exact (SUB _ Ip)|]. exact X.
Qed.
Lemma replace_only m F p old new k F' ok tr : inv m F -> replaces p old new k F F' -> replace m p old new = Ok (ok, tr) -> forall mi, In mi tr -> only_links (members F) m mi.
Proof.
  intros IV RP0 E. inversion RP0 as [F0 L1 L2 R P]; subst. destruct (replace_known m F p old new k L1 L2 R IV P) as (h & f & m1 & m2 & m3 & m4 & m5 & m6 & m7 & t1 & t2 & RP & S & Io & Inw & Ip & X & _ & _ & _ & _ & _ & _ & _ & T1 & T2 & F1 & F2 & F3 & F4 & W & F6 & F7).
  rewrite X in E. injection E as <- <-.
  assert (O5 : only_links (members F) m m5) by (eapply only_trans; [apply (framed_only kind size); exact F4|eapply (flag_only kind size); [exact Io|exact W]]).
  assert (O6 : only_links (members F) m m6) by (eapply only_trans; [exact O5|apply (framed_only kind size); exact F6]). assert (O7 : only_links (members F) m m7) by (eapply only_trans; [exact O5|apply (framed_only kind size); exact F7]).
  assert (G1 : only_links (members F) m (final m7 t1) /\ forall mi, In mi t1 -> only_links (members F) m mi).
  { destruct (h p 16 =? old); [|subst t1; split; [exact O7|intros mi []]]. destruct T1 as (m8 & -> & _ & F8). assert (O8 : only_links (members F) m m8) by (eapply only_trans; [exact O7|apply (framed_only kind size); exact F8]). split; [exact O8|]. intros mi [<-|[]]. exact O8. }
  destruct G1 as [O8 G1]. intros mi I. destruct I as [<-|[<-|[<-|[<-|[<-|[<-|[<-|I]]]]]]]; try (apply (framed_only kind size); assumption); auto. apply in_app_or in I as [I|I]; [apply G1, I|].
  destruct (h p 20 =? old); [|subst t2; destruct I]. destruct T2 as (m9 & -> & _ & F9). destruct I as [<-|[]]. eapply only_trans; [exact O8|apply (framed_only kind size); exact F9].
Qed.
End Only.

(** ** The pool opens again *)
Lemma links_open k s m mi T P F : life k s m T P F -> only_links (members F) m mi -> opens_as mi mi.
Proof.
  intros LI OL. destruct (life_whole _ _ _ _ _ _ LI) as (B & a & I & EL & IB & _). destruct (names_pool _ _ _ _ _ _ _ I) as [PO _]. apply (opened mi T P B a).
  - pose proof (life_titled _ _ _ _ _ _ LI) as TI. unfold titled in *. rewrite (links_title _ _ _ _ _ _ EL PO OL). exact TI.
  - destruct OL as [ZL OL]. apply (names_keep m mi T P B a I ZL). intros q n N D. apply OL; [exact N|]. intros e J. specialize (D e (s e) (IB e J)). destruct (inv_in _ _ _ _ _ _ EL PO J). lia.
Qed.
Lemma life_elements k s m T P F : life k s m T P F -> BwProofs.inv k s m F.
Proof. intro LI. destruct (life_whole _ _ _ _ _ _ LI) as (B & a & _ & EL & _). exact EL. Qed.
Theorem add_killed k s m T P F p t F' ok tr : life k s m T P F -> In p (members F) -> adds k p t F F' -> add m p t = Ok (ok, tr) ->
  forall mi, In mi (m :: tr) -> opens_as mi mi /\ only_links (members F) m mi.
Proof. intros LI Ip AD E mi I. assert (OL : only_links (members F) m mi) by (destruct I as [<-|I]; [apply only_refl|eapply add_only; eauto; eapply life_elements; eauto]). split; [eapply links_open; eauto|exact OL]. Qed.
Theorem join_killed k s m T P F a b F' ok tr : life k s m T P F -> joins a b F F' -> join m a b = Ok (ok, tr) ->
  forall mi, In mi (m :: tr) -> opens_as mi mi /\ only_links (members F) m mi.
Proof. intros LI AD E mi I. assert (OL : only_links (members F) m mi) by (destruct I as [<-|I]; [apply only_refl|eapply join_only; eauto; eapply life_elements; eauto]). split; [eapply links_open; eauto|exact OL]. Qed.
Theorem remove_killed k s m T P F p t F' ok tr : life k s m T P F -> removes k p t F F' -> remove m p t = Ok (ok, tr) ->
  forall mi, In mi (m :: tr) -> opens_as mi mi /\ only_links (members F) m mi.
Proof. intros LI AD E mi I. assert (OL : only_links (members F) m mi) by (destruct I as [<-|I]; [apply only_refl|eapply remove_only; eauto; eapply life_elements; eauto]). split; [eapply links_open; eauto|exact OL]. Qed.
Theorem replace_killed k s m T P F p old new c F' ok tr : life k s m T P F -> replaces p old new c F F' -> replace m p old new = Ok (ok, tr) ->
  forall mi, In mi (m :: tr) -> opens_as mi mi /\ only_links (members F) m mi.
Proof. intros LI AD E mi I. assert (OL : only_links (members F) m mi) by (destruct I as [<-|I]; [apply only_refl|eapply replace_only; eauto; eapply life_elements; eauto]). split; [eapply links_open; eauto|exact OL]. Qed.

(** ** What is added after a kill *)
Lemma lost_at kind size m F p x A b c R h hi mi f : BwProofs.inv kind size m F -> Permutation F ((Some (p, true), x :: A) :: (None, [b]) :: (None, [c]) :: R) -> kind c = true ->
  shape h ((Some (p, true), x :: A) :: (None, [b]) :: (None, [c]) :: R) -> rep (members F) m h -> rep (members F) mi hi -> el_flags mi c = Ok f -> is_element f = true ->
  hi x 12 = b -> (forall e, e <> x -> e <> b -> hi e 12 = h e 12) -> (forall e, e <> b -> hi e 8 = h e 8) -> (forall e, hi e 16 = h e 16) ->
  exists tr, add mi p c = Ok (true, tr) /\ forall n, (List.length (x :: A) < n)%nat -> forward n (final mi tr) p 0 = rret (x :: A).
Proof.
  intros IV P KC S RP RI Ef Kf X12 H12 H8 H16. set (F1 := (Some (p, true), x :: A) :: (None, [b]) :: (None, [c]) :: R) in *.
  assert (SUB : forall e, In e (members F1) -> In e (members F)) by (intros e J; apply (Permutation_in _ (Permutation_sym (members_perm _ _ P)) J)).
  assert (Ib : In b (members F1)) by (eapply members_in; [right; left; reflexivity|left; reflexivity]). assert (Ic : In c (members F1)) by (eapply members_in; [right; right; left; reflexivity|left; reflexivity]).
  assert (IL : forall e, In e (x :: A) -> In e (members F1)) by (intros; eapply members_in; [left; reflexivity|auto]).
  pose proof (sh_nodup _ _ S) as ND. unfold F1 in ND. rewrite !members_cons in ND. destruct (nodup_app _ _ ND) as (_ & ND2 & DR). cbn [app] in ND2. apply NoDup_cons_iff in ND2 as [NB ND3].
  assert (BC : b <> c) by (intro Q; apply NB; rewrite Q; left; reflexivity). assert (LB : forall e, In e (x :: A) -> e <> b) by (intros e J E; rewrite E in J; apply (DR b J); left; reflexivity). assert (LC : forall e, In e (x :: A) -> e <> c) by (intros e J E; rewrite E in J; apply (DR c J); right; left; reflexivity).
  destruct (sh_head _ _ S p true (x :: A) (or_introl eq_refl)) as [Ip HD]. cbn [field_of hd] in HD. assert (Ix : In x (x :: A)) by (left; reflexivity).
  assert (RC : ring h [c]) by (eapply sh_ring; [exact S|right; right; left; reflexivity]). destruct RC as [_ (C12 & _ & _)]. cbn in C12.
  assert (HC : hi c 12 = c) by (rewrite H12; [exact C12|intro Q; apply (LC x Ix); auto|auto]).
  destruct (join_rep _ _ _ x c RI (SUB _ (IL _ Ix)) (SUB _ Ic)) as (m1 & m2 & m3 & m4 & J & _ & _ & _ & R4 & _); [rewrite X12; apply SUB, Ib|rewrite HC; apply SUB, Ic|].
  exists [m1; m2; m3; m4]. split.
  - eapply (add_join mi p c f _ hi RI (SUB _ Ip) Ef); rewrite Kf; cbn [field_of]; rewrite H16, HD; [|exact J]. destruct (rep_in _ _ _ RI x (SUB _ (IL _ Ix))). lia.
  - intros n N. apply forward_ok; [|exact N]. change (final mi [m1; m2; m3; m4]) with m4.
    apply (rep_shows (members F) m4 h _ F1 p (x :: A) S R4 SUB Ip); [left; left; reflexivity| |].
    + intros e J'. rewrite X12, HC. pose proof (LB e J'). pose proof (LC e J'). uo. apply H8. assumption.
    + rewrite X12, HC. uo. apply H16.
Qed.
Theorem later_lost k s m T P F p x A b c R : life k s m T P F -> Permutation F ((Some (p, true), x :: A) :: (None, [b]) :: (None, [c]) :: R) -> k b = true -> k c = true ->
  exists pre m', add m p b = Ok (true, pre ++ [m']) /\ List.length pre = 3%nat /\
  forall mi, In mi pre -> exists tr, add mi p c = Ok (true, tr) /\ forall n, (List.length (x :: A) < n)%nat -> forward n (final mi tr) p 0 = rret (x :: A).
Proof.
  intros LI PM KB KC. pose proof (life_elements _ _ _ _ _ _ LI) as IV. assert (IV' := inv_perm _ _ _ _ _ PM IV). destruct IV' as (h & a & PL & RP & S). set (F1 := (Some (p, true), x :: A) :: (None, [b]) :: (None, [c]) :: R) in *.
  assert (PS : Permutation (members F1) (members F)) by (apply Permutation_sym, members_perm, PM). assert (RP' : rep (members F) m h) by (eapply rep_perm; [exact PS|exact RP]). assert (SUB : forall e, In e (members F1) -> In e (members F)) by (intros e J; apply (Permutation_in _ PS J)).
  assert (Ib : In b (members F1)) by (eapply members_in; [right; left; reflexivity|left; reflexivity]). assert (Ic : In c (members F1)) by (eapply members_in; [right; right; left; reflexivity|left; reflexivity]).
  assert (IL : forall e, In e (x :: A) -> In e (members F1)) by (intros; eapply members_in; [left; reflexivity|auto]). assert (Ix : In x (x :: A)) by (left; reflexivity).
  destruct (pl_kind _ _ _ _ _ PL b Ib) as (fb & Eb & Kb). destruct (pl_kind _ _ _ _ _ PL c Ic) as (f & Ef & Kf). rewrite KC in Kf. rewrite KB in Kb.
  assert (RB : ring h [b]) by (eapply sh_ring; [exact S|right; left; reflexivity]). destruct RB as [_ (B12 & _ & _)]. cbn in B12. assert (RL : ring h (x :: A)) by (eapply sh_ring; [exact S|left; reflexivity]). destruct (ring_in _ _ _ RL Ix) as [_ PX].
  destruct (sh_head _ _ S p true (x :: A) (or_introl eq_refl)) as [Ip HD]. cbn [field_of hd] in HD.
  pose proof (sh_nodup _ _ S) as ND. unfold F1 in ND. rewrite !members_cons in ND. destruct (nodup_app _ _ ND) as (_ & ND2 & DR). assert (LB : forall e, In e (x :: A) -> e <> b) by (intros e J E'; rewrite E' in J; apply (DR b J); left; reflexivity).
  destruct (join_rep _ _ _ x b RP' (SUB _ (IL _ Ix)) (SUB _ Ib) (SUB _ (IL _ PX))) as (m1 & m2 & m3 & m4 & J & R1 & R2 & R3 & _ & F1' & F2 & F3 & _); [rewrite B12; apply SUB, Ib|].
  assert (EA : add m p b = Ok (true, [m1; m2; m3; m4])).
  { eapply (add_join m p b fb _ h RP' (SUB _ Ip) Eb); rewrite Kb; cbn [field_of]; rewrite HD; [|exact J]. destruct (rep_in _ _ _ RP' x (SUB _ (IL _ Ix))). lia. }
  exists [m1; m2; m3], m4. split; [exact EA|]. split; [reflexivity|].
  pose proof (LB x Ix) as XB. rewrite B12 in *.
  intros mi [<-|[<-|[<-|[]]]]; (eapply (lost_at k s m F p x A b c R h); [exact IV|exact PM|exact KC|exact S|exact RP'|eassumption| |exact Kf| | | |]).
  all: try (rewrite (framed_flags _ _ _ _ _ F1' RP' (SUB _ Ic)); exact Ef). all: try (rewrite (framed_flags _ _ _ _ _ F2 RP' (SUB _ Ic)); exact Ef). all: try (rewrite (framed_flags _ _ _ _ _ F3 RP' (SUB _ Ic)); exact Ef).
  all: intros; uo; auto.
Qed.
Theorem first_killed k s m T P F p t F' ok tr : life k s m T P F -> In p (members F) -> (forall L, ~ In (Some (p, k t), L) F) -> adds k p t F F' -> add m p t = Ok (ok, tr) ->
  forall mi, In mi (m :: tr) -> life k s mi T P F \/ life k s mi T P F'.
Proof.
  intros LI Ip U AD E mi I. assert (LF : life k s (final m tr) T P F') by (eapply life_add; eauto). pose proof (life_elements _ _ _ _ _ _ LI) as IV. inversion AD as [F0 B1 B2 R PM U'|F0 B1 B2 L R PM]; subst; [|exfalso; apply (U L), (Permutation_in _ (Permutation_sym PM)); right; left; reflexivity].
  assert (IV' := inv_perm _ _ _ _ _ PM IV). destruct IV' as (h & a & PL & RP & S). set (F1 := (None, B1 ++ t :: B2) :: R) in *.
  assert (Ip' : In p (members F1)) by (eapply Permutation_in; [apply members_perm; exact PM|exact Ip]).
  assert (It : In t (members F1)) by (eapply members_in; [left; reflexivity|apply in_or_app; right; left; reflexivity]).
  destruct (pl_kind _ _ _ _ _ PL t It) as (f & Ef & Kf).
  assert (UF : unowned F1 p (k t)) by (intros L [J|J]; [discriminate|apply (U' L J)]).
  assert (Z0 : h p (field_of (is_element f)) = 0) by (rewrite Kf; apply S; auto).
  destruct (add_first_rep _ _ _ p t f RP Ip' It Ef Z0) as (m1 & A & _). rewrite A in E. injection E as <- <-. destruct I as [<-|[<-|[]]]; [left; exact LI|right; exact LF].
Qed.

(** ** Readers of a pool whose program is killed while it removes or replaces *)
Lemma rep_same E m h h' e f : rep E m h -> rep E m h' -> In e E -> link f -> h' e f = h e f.
Proof. intros A B I L. pose proof (rep_link _ _ _ A e f I L) as X. rewrite (rep_link _ _ _ B e f I L) in X. congruence. Qed.
Lemma one_chain F o L o' L' e : NoDup (members F) -> In (o, L) F -> In (o', L') F -> In e L -> In e L' -> (o, L) = (o', L').
Proof.
  intros ND I I' J J'. apply in_split in I as (F1 & F2 & ->). rewrite members_app, members_cons in ND. destruct (nodup_app _ _ ND) as (_ & N2 & D1). destruct (nodup_app _ _ N2) as (_ & _ & D2).
  apply in_app_or in I' as [I'|[I'|I']]; [|exact I'|]; exfalso.
  - apply (D1 e); [eapply members_in; eauto|apply in_or_app; left; exact J].
  - apply (D2 e J). eapply members_in; eauto.
Qed.
Lemma free_not F q L t e : NoDup (members F) -> In (None, [t]) F -> owned F q true L -> In e L -> e <> t.
Proof. intros ND I [O|[-> _]] J; [|destruct J]. intros ->. assert (X : (None, [t]) = (Some (q, true), L)) by (eapply (one_chain F); eauto; left; reflexivity). discriminate. Qed.
Lemma removes_free k p t F F' : removes k p t F F' -> In (None, [t]) F'.
Proof. intros [F0 R P|F0 L1 L2 R NE P]; left; reflexivity. Qed.
Ltac ux := repeat match goal with |- context [upd ?h ?e ?f ?v ?e' ?f'] => rewrite (upd_other h e f v e' f') by first [left; solve [auto | apply not_eq_sym; auto] | right; solve [auto | lia]] end.
Theorem remove_read k s m T P F p t F' q L L' n ok tr : life k s m T P F -> removes k p t F F' -> (forall y A, ~ In (Some (p, true), t :: y :: A) F) -> remove m p t = Ok (ok, tr) ->
  In q (members F) -> owned F q true L -> owned F' q true L' -> (List.length L < n)%nat -> (List.length L' < n)%nat ->
  forall mi, In mi (m :: tr) -> forward n mi q 0 = rret L \/ forward n mi q 0 = rret L'.
Proof.
  intros LI RM NF E Iq O O' N N'. pose proof (life_elements _ _ _ _ _ _ LI) as IV. destruct (inv_remove _ _ _ _ _ _ _ IV RM) as (tr' & E2 & (h' & a' & _ & RF & S') & _). pose proof (removes_free _ _ _ _ _ RM) as FR. pose proof (removes_members _ _ _ _ _ RM) as PM.
  assert (Iq' : In q (members F')) by (apply (Permutation_in _ PM Iq)). assert (SUB : forall e, In e (members F') -> In e (members F)) by (intros e J; apply (Permutation_in _ (Permutation_sym PM) J)). apply (rep_perm _ _ _ _ (Permutation_sym PM)) in RF.
  apply removes_inv in RM as (L1 & L2 & R & PF). destruct (remove_known k s m F p t L1 L2 R IV PF) as (h & f & tr0 & m1 & m2 & m3 & m4 & m5 & RP & S & It & Ip & X & TR & R1 & R2 & R3 & R4 & R5 & _).
  rewrite X in E, E2. injection E as <- <-. injection E2 as <-. change [m1; m2; m3; m4; m5] with ([m1; m2; m3; m4] ++ [m5]) in RF. rewrite app_assoc, final_snoc in RF.
  assert (NT : forall e, In e L' -> e <> t) by (intros e J; eapply (free_not F' q L' t); eauto; apply (sh_nodup _ _ S')).
  assert (IL' : forall e, In e L' -> In e (members F)). { intros e J. apply SUB. destruct O' as [O'|[-> _]]; [exact (members_in _ _ _ _ O' J)|destruct J]. }
  intros mi [<-|I]; [left; apply forward_ok; [eapply inv_shows; eauto|exact N]|]. apply in_app_or in I as [I|I].
  - destruct (h p (field_of (k t)) =? t) eqn:HP; [|subst tr0; destruct I]. destruct TR as (m0 & -> & R0 & _). destruct I as [<-|[]]. apply Z.eqb_eq in HP. destruct (k t) eqn:KT; cbn [field_of] in *.
    + right. apply forward_ok; [|exact N']. destruct (sh_head _ _ S p true _ (or_introl eq_refl)) as [_ HD]. cbn [field_of] in HD. rewrite HP in HD.
      assert (L1 = []) as ->. { destruct L1 as [|y L1]; [reflexivity|]. cbn [app hd] in HD. subst y. pose proof (sh_nodup _ _ S) as ND. rewrite members_cons in ND. destruct (nodup_app _ _ ND) as (ND1 & _ & _). cbn [app] in ND1. apply NoDup_cons_iff in ND1 as [NI _]. exfalso. apply NI. apply in_or_app. right. left. reflexivity. }
      assert (L2 = []) as ->. { destruct L2 as [|y L2]; [reflexivity|]. exfalso. apply (NF y L2). apply (Permutation_in _ (Permutation_sym PF)). left. reflexivity. }
      cbn [app] in *. assert (RT : ring h [t]) by (eapply sh_ring; [exact S|left; reflexivity]). destruct RT as [_ (T12 & T8 & _)]. cbn in T12, T8. rewrite T8, T12 in *.
      apply (rep_shows (members F) m0 h' _ F' q L' S' R0 SUB Iq' O').
      * intros e J. rewrite (rep_same _ _ _ _ e 8 R5 RF (IL' e J)) by lnk. pose proof (NT e J). ux. reflexivity.
      * rewrite (rep_same _ _ _ _ q 16 R5 RF Iq) by lnk. ux. reflexivity.
    + left. apply forward_ok; [|exact N]. assert (SF : forall e, In e (members ((Some (p, false), L1 ++ t :: L2) :: R)) -> In e (members F)) by (intros e J; apply (Permutation_in _ (Permutation_sym (members_perm _ _ PF)) J)).
      apply (rep_shows (members F) m0 h _ ((Some (p, false), L1 ++ t :: L2) :: R) q L S R0 SF); [apply (Permutation_in _ (members_perm _ _ PF) Iq)|eapply owned_perm; eauto| |]; intros; ux; reflexivity.
  - right. apply forward_ok; [|exact N'].
    assert (G : forall mi hi, rep (members F) mi hi -> (forall e, e <> t -> hi e 8 = h' e 8 \/ ~ In e (members F)) -> hi q 16 = h' q 16 -> shows mi q L').
    { intros mj hi RI H8 H16. apply (rep_shows (members F) mj h' hi F' q L' S' RI SUB Iq' O'); [|exact H16]. intros e J. destruct (H8 e (NT e J)) as [X8|X8]; [exact X8|destruct X8; auto]. }
    assert (D : forall e, e <> t -> In e (members F) \/ ~ In e (members F)) by (intros e _; destruct (in_dec Z.eq_dec e (members F)); auto).
    assert (Q8 : forall e, In e (members F) -> _) by (intros e J; exact (rep_same _ _ _ _ e 8 R5 RF J ltac:(lnk))). pose proof (rep_same _ _ _ _ q 16 R5 RF Iq ltac:(lnk)) as Q16.
    destruct I as [<-|[<-|[<-|[<-|[<-|[]]]]]]; (eapply G; [eassumption|intros e NE; destruct (D e NE) as [J|J]; [left|right; exact J]; rewrite (Q8 e J); ux; reflexivity|rewrite Q16; ux; reflexivity]).
Qed.
Theorem remove_turned k s m T P F p t y A R : life k s m T P F -> Permutation F ((Some (p, true), t :: y :: A) :: R) -> k t = true ->
  exists m0 tr, remove m p t = Ok (true, m0 :: tr) /\ forall n, (List.length (t :: y :: A) < n)%nat -> forward n m0 p 0 = rret (y :: A ++ [t]).
Proof.
  intros LI PF KT. pose proof (life_elements _ _ _ _ _ _ LI) as IV. rewrite <- KT in PF. destruct (remove_known k s m F p t [] (y :: A) R IV PF) as (h & f & tr0 & m1 & m2 & m3 & m4 & m5 & RP & S & It & Ip & X & TR & _). rewrite KT in *. cbn [field_of app] in *.
  destruct (sh_head _ _ S p true _ (or_introl eq_refl)) as [_ HD]. cbn [field_of hd] in HD. rewrite HD, Z.eqb_refl in TR. destruct TR as (m0 & -> & R0 & _). exists m0, [m1; m2; m3; m4; m5]. split; [exact X|]. intros n N. clear X.
  assert (RL : ring h (t :: y :: A)) by (eapply sh_ring; [exact S|left; reflexivity]). pose proof (ring_next _ _ _ RL) as T8. cbn [hd] in T8. rewrite T8 in R0.
  pose proof (sh_nodup _ _ S) as ND. rewrite members_cons in ND. destruct (nodup_app _ _ ND) as (ND1 & _ & _). assert (YT : y <> t) by (apply NoDup_cons_iff in ND1 as [NI _]; intros ->; apply NI; left; reflexivity).
  replace ((y =? t) && (h t 12 =? t)) with false in R0 by lia. apply (ring_rotate h [t] (y :: A)) in RL. assert (SF : forall e, In e ((y :: A) ++ [t]) -> In e (members F)).
  { intros e J. apply (Permutation_in _ (Permutation_sym (members_perm _ _ PF))). eapply members_in; [left; reflexivity|]. apply in_app_or in J as [J|[->|[]]]; [right; exact J|left; reflexivity]. }
  change (y :: A ++ [t]) with ((y :: A) ++ [t]). apply forward_ok; [|rewrite app_length; cbn [List.length] in *; lia]. split; [exact (rep_off _ _ _ R0 p Ip)|]. split; [rewrite (rep_child _ _ _ p R0 Ip); uo; reflexivity|]. split.
  - eapply Permutation_NoDup; [|exact ND1]. apply (Permutation_app_comm [t] (y :: A)).
  - intros l1 e l2 EL. assert (J : In e (members F)) by (apply SF; rewrite EL; apply in_or_app; right; left; reflexivity). split; [apply (rep_in _ _ _ R0 e J)|]. rewrite (rep_next _ _ _ e R0 J). uo. rewrite EL in RL. destruct (ring_mid _ _ _ _ RL) as [-> _]. rewrite EL. destruct l1; reflexivity.
Qed.

(** Walks that never end *)
Lemma endless_walk E m h p f W : rep E m h -> In p E -> h p 16 = f -> In f E -> (forall e, In e W -> In e E) -> ~ In f W -> In (h f 8) W -> (forall e, In e W -> In (h e 8) W) -> forall n o, o = 0 \/ o = f \/ In o W -> forward n m p o = None.
Proof.
  intros RP Ip HF If SW NF F8 CL. assert (PO : forall e, In e E -> e <> 0) by (intros e J; destruct (rep_in _ _ _ RP e J); lia).
  induction n as [|n IH]; intros o D; [reflexivity|]. rewrite forward_S. unfold NextChild.
  assert (ST : forall e, In e E -> In (h e 8) W -> (if e =? 0 then obind (el_child m p) (fun fc => if fc =? 0 then Ok None else obind (el_child m p) (fun fc => obind (bwe m p fc) (fun e => Ok (Some (e, fc))))) else
    obind (bwe m p e) (fun prev => obind (el_next m prev) (fun n => obind (el_child m p) (fun fc => if n =? fc then Ok None else obind (el_next m prev) (fun n => obind (bwe m p n) (fun e => Ok (Some (e, n)))))))) = Ok (Some (h e 8, h e 8))).
  { intros e J W8. replace (e =? 0) with false by (pose proof (PO e J); lia). rewrite (rep_bwe _ _ _ p e RP Ip). cbn [obind]. rewrite (rep_next _ _ _ e RP J), (rep_child _ _ _ p RP Ip), HF. cbn [obind]. replace (h e 8 =? f) with false; [rewrite (rep_bwe _ _ _ p _ RP Ip); reflexivity|].
    symmetry. apply Z.eqb_neq. intro Q. apply NF. rewrite <- Q. exact W8. }
  destruct D as [->|[->|D]].
  - change (0 =? 0) with true. cbv iota. rewrite (rep_child _ _ _ p RP Ip), HF. cbn [obind]. replace (f =? 0) with false by (pose proof (PO f If); lia). rewrite (rep_bwe _ _ _ p f RP Ip). cbn [obind rbind]. rewrite (IH f) by auto. reflexivity.
  - rewrite (ST f If F8). cbn [rbind]. rewrite (IH (h f 8)) by auto. reflexivity.
  - rewrite (ST o (SW o D) (CL o D)). cbn [rbind]. rewrite (IH (h o 8)) by auto. reflexivity.
Qed.
Theorem replace_endless k s m T P F p old new y A R : life k s m T P F -> Permutation F ((Some (p, true), old :: y :: A) :: (None, [new]) :: R) ->
  exists m1 m2 m3 m4 tr, replace m p old new = Ok (true, m1 :: m2 :: m3 :: m4 :: tr) /\ forall n, forward n m4 p 0 = None.
Proof.
  intros LI PF. pose proof (life_elements _ _ _ _ _ _ LI) as IV. destruct (replace_known k s m F p old new true [] (y :: A) R IV PF) as (h & f & m1 & m2 & m3 & m4 & m5 & m6 & m7 & t1 & t2 & RP & S & Io & Inw & Ip & X & _ & _ & _ & R4 & _). cbn [app] in *.
  exists m1, m2, m3, m4, (m5 :: m6 :: m7 :: t1 ++ t2). split; [exact X|]. clear X. destruct (sh_head _ _ S p true _ (or_introl eq_refl)) as [_ HD]. cbn [field_of hd] in HD.
  assert (RL : ring h (old :: y :: A)) by (eapply sh_ring; [exact S|left; reflexivity]). pose proof (ring_next _ _ _ RL) as O8. pose proof (ring_prev _ _ _ RL) as O12. cbn [hd] in O8. change (last (old :: y :: A) 0) with (last (y :: A) 0) in O12. set (z := last (y :: A) 0) in *. rewrite O8, O12 in R4.
  pose proof (sh_nodup _ _ S) as ND. rewrite !members_cons in ND. destruct (nodup_app _ _ ND) as (ND1 & _ & DR). apply NoDup_cons_iff in ND1 as [NO ND1]. assert (ZI : In z (y :: A)) by (apply last_in; discriminate).
  assert (NN : forall e, In e (old :: y :: A) -> e <> new) by (intros e J Q; rewrite Q in J; apply (DR new J); left; reflexivity). assert (ON : old <> new) by (apply NN; left; reflexivity). assert (ZN : z <> new) by (apply NN; right; exact ZI). assert (ZO : old <> z) by (intro Q; apply NO; rewrite Q; exact ZI). assert (NY : forall e, In e (y :: A) -> e <> new) by (intros e J; apply NN; right; exact J).
  assert (SF : forall e, In e (y :: A) -> In e (members F)). { intros e J. apply (Permutation_in _ (Permutation_sym (members_perm _ _ PF))). eapply members_in; [left; reflexivity|]. right. exact J. }
  intro n. apply (endless_walk (members F) m4 _ p old (new :: y :: A) R4 Ip); [uo; exact HD|exact Io| | | | |left; reflexivity].
  - intros e [<-|J]; [exact Inw|apply SF, J].
  - intros [Q|J]; [apply ON; auto|exact (NO J)].
  - uo. rewrite O8. right. left. reflexivity.
  - intros e [<-|J].
    + uo. right. left. reflexivity.
    + destruct (Z.eq_dec e z) as [->|NZ]; [uo; left; reflexivity|]. pose proof (NY e J). uo. right. apply in_split in J as (l1 & l2 & EL). assert (RE : ring h ((old :: l1) ++ e :: l2)) by (cbn [app]; rewrite <- EL; exact RL). destruct (ring_mid _ _ _ _ RE) as [-> _]. cbn [hd]. destruct l2 as [|w l2]; [exfalso; apply NZ; unfold z; rewrite EL; symmetry; apply last_last|]. rewrite EL. cbn [hd]. apply in_or_app. right. right. left. reflexivity.
Qed.
Theorem replace_read k s m T P F p old new c F' q L L' n ok tr : life k s m T P F -> replaces p old new c F F' -> ~ In (Some (p, c), [old]) F -> (forall A, ~ In (Some (p, true), old :: A) F) -> replace m p old new = Ok (ok, tr) ->
  In q (members F) -> owned F q true L -> owned F' q true L' -> (List.length L < n)%nat -> (List.length L' < n)%nat ->
  forall mi, In mi (m :: tr) -> forward n mi q 0 = rret L \/ forward n mi q 0 = rret L'.
Proof.
  intros LI RM NS NF E Iq O O' N N'. pose proof (life_elements _ _ _ _ _ _ LI) as IV. destruct (inv_replace _ _ _ _ _ _ _ _ _ IV RM NS) as (tr' & E2 & (h' & a' & _ & RF & S') & _). pose proof (replaces_members _ _ _ _ _ _ RM) as PM.
  assert (FR : In (None, [old]) F') by (inversion RM; right; left; reflexivity).
  assert (Iq' : In q (members F')) by (apply (Permutation_in _ PM Iq)). assert (SUB : forall e, In e (members F') -> In e (members F)) by (intros e J; apply (Permutation_in _ (Permutation_sym PM) J)). apply (rep_perm _ _ _ _ (Permutation_sym PM)) in RF.
  inversion RM as [F0 L1 L2 R PF]; subst F0. destruct (replace_known k s m F p old new c L1 L2 R IV PF) as (h & f & m1 & m2 & m3 & m4 & m5 & m6 & m7 & t1 & t2 & RP & S & Io & Inw & Ip & X & R1 & R2 & R3 & R4 & R5 & R6 & R7 & T1 & T2 & _).
  rewrite X in E, E2. injection E as <- <-. injection E2 as <-. set (F1 := (Some (p, c), L1 ++ old :: L2) :: (None, [new]) :: R) in *.
  assert (SF : forall e, In e (members F1) -> In e (members F)) by (intros e J; apply (Permutation_in _ (Permutation_sym (members_perm _ _ PF)) J)). assert (Iq1 : In q (members F1)) by (apply (Permutation_in _ (members_perm _ _ PF) Iq)). assert (Ip1 : In p (members F1)) by (apply (Permutation_in _ (members_perm _ _ PF) Ip)). assert (O1 : owned F1 q true L) by (eapply owned_perm; eauto).
  assert (NO : forall e, In e L' -> e <> old) by (intros e J; eapply (free_not F' q L' old); eauto; apply (sh_nodup _ _ S')).
  assert (NW : forall e, In e L -> e <> new) by (intros e J; eapply (free_not F1 q L new); eauto; [apply (sh_nodup _ _ S)|right; left; reflexivity]).
  assert (IL' : forall e, In e L' -> In e (members F)). { intros e J. apply SUB. destruct O' as [O'|[-> _]]; [exact (members_in _ _ _ _ O' J)|destruct J]. }
  assert (HP : h p 16 <> old).
  { intro Q. destruct (in_dec (fun x y : Z * bool => ltac:(decide equality; [apply Bool.bool_dec|apply Z.eq_dec])) (p, true) (owners F1)) as [J|NJ].
    - apply in_flat_map in J as ([o Lp] & J1 & J2). destruct o as [o|]; [|contradiction]. destruct J2 as [->|[]]. destruct (sh_head _ _ S p true Lp J1) as [_ HD]. cbn [field_of] in HD. rewrite Q in HD. destruct (sh_ring _ _ S _ _ J1) as [NE _]. destruct Lp as [|z Lp]; [congruence|]. cbn [hd] in HD. subst z. apply (NF Lp). apply (Permutation_in _ (Permutation_sym PF)). exact J1.
    - assert (old = 0); [|destruct (rep_in _ _ _ RP old Io); lia]. rewrite <- Q. apply (sh_none _ _ S p true Ip1). intros L'' J. apply NJ. eapply owners_in; eauto. }
  replace (h p 16 =? old) with false in * by lia. subst t1. cbn [app] in *.
  assert (G : exists h9, rep (members F) (final m ([m1; m2; m3; m4; m5; m6; m7] ++ t2)) h9 /\ (forall e, e <> old -> h9 e 8 = upd (upd (upd (upd h new 8 (h old 8)) new 12 (h old 12)) (h old 8) 12 new) (h old 12) 8 new e 8) /\ (forall e, h9 e 16 = h e 16) /\ forall mi, In mi t2 -> rep (members F) mi h9).
  { destruct (h p 20 =? old).
    - destruct T2 as (m9 & -> & R9 & _). eexists. split; [exact R9|]. split; [intros e D; ux; reflexivity|]. split; [intro e; ux; reflexivity|]. intros mi [<-|[]]. exact R9.
    - subst t2. eexists. split; [exact R7|]. split; [intros e D; ux; reflexivity|]. split; [intro e; ux; reflexivity|]. intros mi []. }
  destruct G as (h9 & R9 & Q8 & Q16 & RT). cbn [app] in R9. pose proof (rep_same _ _ _ _ q 16 R9 RF Iq ltac:(lnk)) as Q'16. rewrite Q16 in Q'16.
  intros mi I. assert (OLD : forall hi, rep (members F) mi hi -> (forall e, e <> new -> hi e 8 = h e 8) -> (forall e, hi e 16 = h e 16) -> forward n mi q 0 = rret L).
  { intros hi RI H8 H16. apply forward_ok; [|exact N]. apply (rep_shows (members F) mi h hi F1 q L S RI SF Iq1 O1); auto. }
  assert (NEW : forall hi, rep (members F) mi hi -> (forall e, e <> old -> hi e 8 = h9 e 8) -> (forall e, hi e 16 = h e 16) -> forward n mi q 0 = rret L').
  { intros hi RI H8 H16. apply forward_ok; [|exact N']. apply (rep_shows (members F) mi h' hi F' q L' S' RI SUB Iq' O').
    - intros e J. rewrite (rep_same _ _ _ _ e 8 R9 RF (IL' e J)) by lnk. apply H8, NO, J.
    - rewrite Q'16. apply H16. }
  destruct I as [<-|[<-|[<-|[<-|[<-|[<-|[<-|[<-|I]]]]]]]].
  - left. eapply OLD; [exact RP| |]; reflexivity.
  - left. eapply OLD; [exact R1| |]; intros; ux; reflexivity.
  - left. eapply OLD; [exact R2| |]; intros; ux; reflexivity.
  - left. eapply OLD; [exact R3| |]; intros; ux; reflexivity.
  - right. eapply NEW; [exact R4| |]; intros; [rewrite Q8 by assumption|]; ux; reflexivity.
  - right. eapply NEW; [exact R5| |]; intros; [rewrite Q8 by assumption|]; ux; reflexivity.
  - right. eapply NEW; [exact R6| |]; intros; [rewrite Q8 by assumption|]; ux; reflexivity.
  - right. eapply NEW; [exact R7| |]; intros; [rewrite Q8 by assumption|]; ux; reflexivity.
  - right. eapply NEW; [exact (RT mi I)| |exact Q16]; reflexivity.
Qed.
