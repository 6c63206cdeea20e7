(** Escaping of values written to an XML stream (C18). *)
From Verif Require Import Base BaseFacts ScalarSpec Types ListFacts ChunkProofs.

Definition no_markup (t : list Z) : Prop := Forall (fun c => c <> 60 /\ c <> 62 /\ c <> 34) t.

Lemma xml_escape_cases c :
  (c = 60 /\ xml_escape c = lit "&lt;") \/ (c = 62 /\ xml_escape c = lit "&gt;") \/ (c = 38 /\ xml_escape c = lit "&amp;") \/
  (c = 34 /\ xml_escape c = [38; 113; 117; 111; 116; 59]) \/ (c <> 60 /\ c <> 62 /\ c <> 38 /\ c <> 34 /\ xml_escape c = [c]).
Proof.
  unfold xml_escape. destruct (Z.eqb_spec c 60); [left; auto|]. destruct (Z.eqb_spec c 62); [right; left; auto|].
  destruct (Z.eqb_spec c 38); [right; right; left; auto|]. destruct (Z.eqb_spec c 34); [right; right; right; left; auto|].
  right; right; right; right. auto.
Qed.

Lemma escape_no_markup s : no_markup (flat_map xml_escape s).
Proof.
  induction s as [|c r IH]; [constructor|]. cbn [flat_map]. apply Forall_app. split; [|exact IH].
  destruct (xml_escape_cases c) as [[_ ->]|[[_ ->]|[[_ ->]|[[_ ->]|(H1 & H2 & H3 & H4 & ->)]]]];
    try (cbn; repeat constructor; lia); repeat constructor; assumption.
Qed.

Lemma unescape_mono t : forall f g r, (f <= g)%nat -> xml_unescape f t = Some r -> xml_unescape g t = Some r.
Proof.
  intros f. revert t. induction f as [|f IH]; intros t g r Hfg H; [discriminate|].
  destruct g as [|g]; [lia|]. cbn [xml_unescape] in *. destruct t as [|c t']; [exact H|].
  assert (IH' : forall u x, option_map (cons x) (xml_unescape f u) = Some r -> option_map (cons x) (xml_unescape g u) = Some r).
  { intros u x Hu. destruct (xml_unescape f u) as [q|] eqn:E; [|discriminate]. rewrite (IH u g q ltac:(lia) E). exact Hu. }
  destruct (c =? 38); [|apply IH', H].
  repeat match goal with |- (if ?d then _ else _) = _ => destruct d; [apply IH', H|] end. discriminate.
Qed.

Lemma firstn_len_app {A} (e r : list A) : firstn (List.length e) (e ++ r) = e.
Proof. rewrite firstn_app, Nat.sub_diag. cbn. rewrite firstn_all, app_nil_r. reflexivity. Qed.
Lemma skipn_len_app {A} (e r : list A) : skipn (List.length e) (e ++ r) = r.
Proof. rewrite skipn_app, Nat.sub_diag, skipn_all. reflexivity. Qed.

Lemma unescape_escape s : xml_unescape (S (List.length s)) (flat_map xml_escape s) = Some s.
Proof.
  induction s as [|c r IH]; [reflexivity|]. cbn [flat_map List.length].
  remember (S (List.length r)) as f.
  destruct (xml_escape_cases c) as [[-> ->]|[[-> ->]|[[-> ->]|[[-> ->]|(H1 & H2 & H3 & H4 & ->)]]]];
    try (cbn; rewrite IH; reflexivity).
  change ([c] ++ flat_map xml_escape r) with (c :: flat_map xml_escape r). cbn [xml_unescape].
  destruct (Z.eqb_spec c 38); [contradiction|]. rewrite IH. reflexivity.
Qed.

(** Independent reading of "every ampersand starts one of the four entities". *)
Definition entities_only (t : list Z) : Prop :=
  forall a b, t = a ++ 38 :: b ->
    exists e, In e [lit "&lt;"; lit "&gt;"; lit "&amp;"; [38; 113; 117; 111; 116; 59]] /\ exists b', 38 :: b = e ++ b'.

Lemma amp_split w R : ~ In 38 w -> forall a b, w ++ R = a ++ 38 :: b -> exists a', R = a' ++ 38 :: b.
Proof.
  induction w as [|x w IH]; intros Hw a b H; [exists a; exact H|]. destruct a as [|y a]; cbn in H.
  - exfalso. apply Hw. left. congruence.
  - apply (IH (fun I => Hw (or_intror I)) a b). congruence.
Qed.

Lemma escape_entities s : entities_only (flat_map xml_escape s).
Proof.
  unfold entities_only. induction s as [|c r IH]; intros a b H; [destruct a; discriminate|]. cbn [flat_map] in H.
  set (R := flat_map xml_escape r) in *.
  assert (HE : forall w, ~ In 38 w -> In (38 :: w) [lit "&lt;"; lit "&gt;"; lit "&amp;"; [38; 113; 117; 111; 116; 59]] ->
    (38 :: w) ++ R = a ++ 38 :: b ->
    exists e, In e [lit "&lt;"; lit "&gt;"; lit "&amp;"; [38; 113; 117; 111; 116; 59]] /\ exists b', 38 :: b = e ++ b').
  { intros w Hw Hin E. destruct a as [|x a].
    - exists (38 :: w). split; [exact Hin|]. exists R. symmetry. exact E.
    - cbn in E. destruct (amp_split w R Hw a b) as (a' & Ha'); [congruence|]. exact (IH a' b Ha'). }
  destruct (xml_escape_cases c) as [[_ E]|[[_ E]|[[_ E]|[[_ E]|(H1 & H2 & H3 & H4 & E)]]]]; rewrite E in H.
  - apply (HE [108; 116; 59]); [cbn; lia|left; reflexivity|exact H].
  - apply (HE [103; 116; 59]); [cbn; lia|right; left; reflexivity|exact H].
  - apply (HE [97; 109; 112; 59]); [cbn; lia|right; right; left; reflexivity|exact H].
  - apply (HE [113; 117; 111; 116; 59]); [cbn; lia|right; right; right; left; reflexivity|exact H].
  - destruct (amp_split [c] R ltac:(cbn; lia) a b H) as (a' & Ha'). exact (IH a' b Ha').
Qed.

Lemma xml_string fl s rest buf : cstring s -> 256 < zlen buf ->
  exists fuel0, forall fuel, (fuel0 <= fuel)%nat ->
    XBT_ToXMLStream fl fuel XBT_STRING (s ++ 0 :: rest) buf = Some (Ok (flat_map xml_escape s)).
Proof.
  intros Hs Hb. destruct (string_pieces fl s rest buf Hs Hb) as (f & l & E & C & _). exists f. intros fuel Hf.
  unfold XBT_ToXMLStream. rewrite (chunk_loop_mono _ f _ _ _ _ _ E fuel Hf), C. reflexivity.
Qed.

Lemma xml_blob_string fl s n rest buf : cstring s -> 256 < zlen buf ->
  exists fuel0, forall fuel, (fuel0 <= fuel)%nat ->
    XBT_ToXMLStream fl fuel XBT_BLOB_STRING (le 4 n ++ s ++ 0 :: rest) buf = Some (Ok (flat_map xml_escape s)).
Proof.
  intros Hs Hb. destruct (blob_string_pieces fl s n rest buf Hs Hb) as (f & l & E & C & _). exists f. intros fuel Hf.
  unfold XBT_ToXMLStream. rewrite (chunk_loop_mono _ f _ _ _ _ _ E fuel Hf), C. reflexivity.
Qed.

(** A value of any text type: what reaches the stream is free of markup and un-escapes to the value. *)
Definition escaped (s t : list Z) : Prop :=
  no_markup t /\ entities_only t /\ exists fuel, xml_unescape fuel t = Some s.

Lemma escape_escaped s : escaped s (flat_map xml_escape s).
Proof. split; [apply escape_no_markup|]. split; [apply escape_entities|]. exists (S (List.length s)). apply unescape_escape. Qed.

Lemma xml_string_escaped fl s rest buf : cstring s -> 256 < zlen buf ->
  exists t, escaped s t /\ exists fuel0, forall fuel, (fuel0 <= fuel)%nat -> XBT_ToXMLStream fl fuel XBT_STRING (s ++ 0 :: rest) buf = Some (Ok t).
Proof. intros Hs Hb. exists (flat_map xml_escape s). split; [apply escape_escaped|apply xml_string; assumption]. Qed.
Lemma xml_blob_string_escaped fl s n rest buf : cstring s -> 256 < zlen buf ->
  exists t, escaped s t /\ exists fuel0, forall fuel, (fuel0 <= fuel)%nat -> XBT_ToXMLStream fl fuel XBT_BLOB_STRING (le 4 n ++ s ++ 0 :: rest) buf = Some (Ok t).
Proof. intros Hs Hb. exists (flat_map xml_escape s). split; [apply escape_escaped|apply xml_blob_string; assumption]. Qed.

(** Different values give different texts. *)
Lemma escape_injective s s' : flat_map xml_escape s = flat_map xml_escape s' -> s = s'.
Proof.
  intros H. pose proof (unescape_escape s) as A. pose proof (unescape_escape s') as B. rewrite H in A.
  set (m := Nat.max (S (List.length s)) (S (List.length s'))).
  apply (unescape_mono _ _ m) in A; [|lia]. apply (unescape_mono _ _ m) in B; [|lia]. congruence.
Qed.

(** Bad: a HEX value puts a NUL byte into the XML text, src/bin_xml_types.cpp:1061-1067. *)
Lemma xml_hex_nul fl : exists data t, XBT_ToXMLStream fl 9 XBT_HEX data (zrepeat 0 4097) = Some (Ok t) /\ In 0 t.
Proof. exists (le 4 2 ++ [171; 205]). eexists. split; [vm_compute; reflexivity|]. vm_compute. tauto. Qed.
