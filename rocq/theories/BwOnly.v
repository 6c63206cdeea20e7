(** Replacing an only child. *)
From Verif Require Import Base BaseFacts Types ListFacts Sort Xb XbSpec XbFacts XbWrite WriteProofs Bw BwFacts BwRing BwSpec BwHist BwAlloc BwProofs BwRead BwTop BwFileProofs.

Lemma forward_S n m p o : forward (S n) m p o = rbind (Some (NextChild m p o)) (fun r => match r with None => rret [] | Some (e, o) => rbind (forward n m p o) (fun l => rret (e :: l)) end).
Proof. reflexivity. Qed.
Lemma loop_endless m p x t : NextChild m p 0 = Ok (Some (x, x)) -> NextChild m p x = Ok (Some (t, t)) -> NextChild m p t = Ok (Some (t, t)) -> forall n, forward n m p 0 = None.
Proof.
  intros A B C. assert (L : forall n, forward n m p t = None) by (induction n as [|n IH]; [reflexivity|]; rewrite forward_S, C, rbind_ok, IH; reflexivity).
  intros [|[|n]]; [reflexivity|rewrite forward_S, A, rbind_ok; reflexivity|]. rewrite forward_S, A, rbind_ok, forward_S, B, rbind_ok, L. reflexivity.
Qed.
Lemma only_endless k s m F p t x : BwProofs.inv k s m F -> In (Some (p, true), [t]) F -> In (None, [x]) F -> exists tr, replace m p t x = Ok (true, tr) /\ forall n, forward n (final m tr) p 0 = None.
Proof.
  intros (h & a & PL & R & S) O N. assert (IT : In t (members F)) by (eapply members_in; [exact O|left; reflexivity]). assert (IX : In x (members F)) by (eapply members_in; [exact N|left; reflexivity]).
  destruct (sh_head _ _ S _ _ _ O) as [IP HP]. cbn [field_of hd] in HP.
  destruct (sh_ring _ _ S _ _ O) as [_ (T12 & T8 & _)]. cbn in T12, T8. destruct (sh_ring _ _ S _ _ N) as [_ (X12 & X8 & _)]. cbn in X12, X8.
  assert (NE : t <> x). { intros ->. apply in_split in O as (F1 & F2 & ->). pose proof (sh_nodup _ _ S) as ND. rewrite members_app, members_cons in ND. apply in_app_or in N as [N|[N|N]]; [|discriminate|].
    - apply (nodup_app _ _) in ND as (_ & _ & D). apply (D x); [eapply members_in; [exact N|left; reflexivity]|left; reflexivity].
    - apply (nodup_app _ _) in ND as (_ & ND & _). apply (nodup_app _ _) in ND as (_ & _ & D). apply (D x); [left; reflexivity|eapply members_in; [exact N|left; reflexivity]]. }
  destruct (pl_kind _ _ _ _ _ PL t IT) as (f & EF & _). destruct (replace_rep _ _ _ p t x f R IP IT IX NE X8 X12) as (tr & m4 & m5 & E & R9 & _); [rewrite T8; exact IT|rewrite T12; exact IT|congruence|congruence|exact EF|]. rewrite HP, Z.eqb_refl in R9.
  match type of R9 with rep _ _ ?hh => set (h9 := hh) in * end. exists tr. split; [exact E|]. assert (T0 : 0 < t) by apply (rep_in _ _ _ R t IT). assert (X0 : 0 < x) by apply (rep_in _ _ _ R x IX).
  assert (H16 : h9 p 16 = x). { unfold h9. destruct (h p 20 =? t); [rewrite upd_other by lia|]; apply upd_same. }
  assert (G : forall e, h9 e 8 = upd (upd (upd (upd (upd (upd h x 8 t) x 12 t) t 12 x) t 8 x) t 12 t) t 8 t e 8). { intro e. unfold h9. rewrite T8, T12. destruct (h p 20 =? t); unfold upd; change (8 =? 20) with false; change (8 =? 16) with false; rewrite !andb_false_r; reflexivity. }
  assert (H8T : h9 t 8 = t) by (rewrite G; apply upd_same). assert (H8X : h9 x 8 = t) by (rewrite G; unfold upd; rewrite !Z.eqb_refl; replace (x =? t) with false by lia; cbn; reflexivity).
  set (m' := final m tr) in *. apply (loop_endless m' p x t); unfold NextChild; rewrite ?(rep_child _ _ _ _ R9 IP), ?(rep_bwe _ _ _ _ _ R9 IP); cbn [obind].
  - cbn. rewrite H16. replace (x =? 0) with false by lia. rewrite (rep_bwe _ _ _ _ _ R9 IP). reflexivity.
  - replace (x =? 0) with false by lia. rewrite (rep_next _ _ _ _ R9 IX), H8X, H16. cbn [obind]. replace (t =? x) with false by lia. rewrite (rep_bwe _ _ _ _ _ R9 IP). reflexivity.
  - replace (t =? 0) with false by lia. rewrite (rep_next _ _ _ _ R9 IT), H8T, H16. cbn [obind]. replace (t =? x) with false by lia. rewrite (rep_bwe _ _ _ _ _ R9 IP). reflexivity.
Qed.
