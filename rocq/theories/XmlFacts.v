(** The grammar behind the XML reader: texts built by these rules are read as what they were built for. *)
From Verif Require Import Base BaseFacts ListFacts XbWrite XmlSpec.

Definition free_of (c : Z) (s : list Z) : Prop := forallb (fun d => negb (d =? c)) s = true.

Inductive attributes_text : list (list Z * list Z) -> list Z -> Prop :=
| at_nil : attributes_text [] []
| at_cons n raw v l s : xml_name n -> free_of 34 raw -> decode_attr raw = Some v -> ~ In n (map fst l) -> attributes_text l s ->
    attributes_text ((n, v) :: l) ([32] ++ n ++ [61; 34] ++ raw ++ [34] ++ s).
Inductive element_text : xml -> list Z -> Prop :=
| short_form n a s : xml_name n -> attributes_text a s -> element_text (Elem n a []) ([60] ++ n ++ s ++ [47; 62])
| long_form n a b s t : xml_name n -> attributes_text a s -> body_text b t ->
    element_text (Elem n a b) ([60] ++ n ++ s ++ [62] ++ t ++ [60; 47] ++ n ++ [62])
with body_text : list piece -> list Z -> Prop :=
| body_nil : body_text [] []
| body_child x b s t : element_text x s -> body_text b t -> body_text (Child x :: b) (s ++ t)
| body_chars raw v b t : raw <> [] -> free_of 60 raw -> decode_text raw = Some v -> match b with Chars _ :: _ => False | _ => True end ->
    body_text b t -> body_text (Chars v :: b) (raw ++ t).
Scheme element_text_mind := Minimality for element_text Sort Prop
with body_text_mind := Minimality for body_text Sort Prop.
Combined Scheme xml_text_ind from element_text_mind, body_text_mind.

Lemma after_app e s : after e (e ++ s) = Some s.
Proof. induction e as [|c e IH]; [destruct s; reflexivity|]. cbn [app after]. rewrite Z.eqb_refl. exact IH. Qed.
Lemma span_app p a c r : forallb p a = true -> p c = false -> span p (a ++ c :: r) = (a, c :: r).
Proof.
  induction a as [|d a IH]; cbn [forallb]; intros H Hc; cbn [app span]; [rewrite Hc; reflexivity|]. apply andb_true_iff in H. destruct H as (-> & H).
  rewrite (IH H Hc). reflexivity.
Qed.
Lemma read_name_app n c r : xml_name n -> name_char c = false -> read_name (n ++ c :: r) = Some (n, c :: r).
Proof. intros ((d & t & -> & H) & Hn) Hc. unfold read_name. rewrite (span_app _ _ _ _ Hn Hc). rewrite H. reflexivity. Qed.
Lemma name_first n : xml_name n -> exists c r, n = c :: r /\ c <> 47 /\ c <> 60.
Proof. intros ((c & r & -> & H) & _). exists c, r. split; [reflexivity|]. split; intros ->; discriminate H. Qed.

Lemma same_name_in n (l : list (list Z * list Z)) : ~ In n (map fst l) -> existsb (fun a => same_name (fst a) n) l = false.
Proof.
  induction l as [|[m v] l IH]; [reflexivity|]. cbn [map In existsb fst]. intros H. unfold same_name at 1. destruct (list_eq_dec Z.eq_dec m n) as [E|E]; [exfalso; apply H; left; exact E|].
  cbn [orb]. apply IH. tauto.
Qed.

Lemma read_attributes_app l s : attributes_text l s -> forall k c r, (List.length s < k)%nat -> c <> 32 -> read_attributes k (s ++ c :: r) = Some (l, c :: r).
Proof.
  induction 1 as [|n raw v l s Hn Hr Hd Hi Hs IH]; intros k c r Hk Hc; (destruct k as [|k]; [lia|]).
  - cbn [read_attributes app after]. destruct (Z.eqb_spec 32 c); [congruence|]. reflexivity.
  - cbn [read_attributes]. rewrite <- !app_assoc. rewrite after_app. change ([61; 34] ++ raw ++ [34] ++ s ++ c :: r) with (61 :: 34 :: raw ++ [34] ++ s ++ c :: r).
    rewrite read_name_app by (try assumption; reflexivity). cbn [after]. change (61 =? 61) with true. change (34 =? 34) with true. cbv iota.
    change ([34] ++ s ++ c :: r) with (34 :: s ++ c :: r). rewrite span_app by (try assumption; reflexivity). rewrite Hd. cbn [after]. change (34 =? 34) with true. cbv iota.
    rewrite !app_length in Hk. cbn [List.length] in Hk. rewrite IH by (try assumption; lia). rewrite same_name_in by assumption. reflexivity.
Qed.

Lemma app_first {A} (x : A) s t : exists r, (x :: s) ++ t = x :: r.
Proof. eexists. reflexivity. Qed.
Lemma element_first x s : element_text x s -> exists c r, s = 60 :: c :: r /\ c <> 47.
Proof. intros H. destruct H as [n a s Hn Hs|n a b s t Hn Hs Hb]; destruct (name_first n Hn) as (c & r & -> & H & _); eexists; eexists; split; [reflexivity|exact H|reflexivity|exact H]. Qed.

Lemma reads_text :
  (forall x s, element_text x s -> forall k rest, (List.length s < k)%nat -> read_element k (s ++ rest) = Some (x, rest)) /\
  (forall b t, body_text b t -> forall k rest, (List.length t + 1 < k)%nat -> read_body k (t ++ 60 :: 47 :: rest) = Some (b, 60 :: 47 :: rest)).
Proof.
  apply xml_text_ind.
  - intros n a s Hn Hs k rest Hk. destruct k as [|k]; [lia|]. cbn [read_element]. rewrite <- !app_assoc. rewrite after_app.
    assert (Hx : exists d r, s ++ [47; 62] ++ rest = d :: r /\ name_char d = false) by (destruct Hs; eexists; eexists; (split; [reflexivity|reflexivity])).
    destruct Hx as (d & r & E & Hd). rewrite E, read_name_app by assumption. rewrite <- E. change ([47; 62] ++ rest) with (47 :: 62 :: rest).
    rewrite (read_attributes_app _ _ Hs) by (try lia; rewrite app_length; lia). cbn [after]. change (47 =? 47) with true. change (62 =? 62) with true. reflexivity.
  - intros n a b s t Hn Hs Hb IH k rest Hk. destruct k as [|k]; [lia|]. cbn [read_element]. rewrite <- !app_assoc. rewrite after_app.
    assert (Hx : exists d r, s ++ [62] ++ t ++ [60; 47] ++ n ++ [62] ++ rest = d :: r /\ name_char d = false) by (destruct Hs; eexists; eexists; (split; [reflexivity|reflexivity])).
    destruct Hx as (d & r & E & Hd). rewrite E, read_name_app by assumption. rewrite <- E. change ([62] ++ t ++ [60; 47] ++ n ++ [62] ++ rest) with (62 :: t ++ 60 :: 47 :: n ++ [62] ++ rest).
    rewrite (read_attributes_app _ _ Hs) by (try lia; rewrite app_length; lia). cbn [after]. change (47 =? 62) with false. change (62 =? 62) with true. cbv iota.
    rewrite !app_length in Hk. cbn [List.length] in Hk. rewrite (IH k) by lia. change (60 :: 47 :: n ++ [62] ++ rest) with ([60; 47] ++ n ++ [62] ++ rest).
    replace ([60; 47] ++ n ++ [62] ++ rest) with (([60; 47] ++ n ++ [62]) ++ rest) by (rewrite <- !app_assoc; reflexivity). rewrite after_app. reflexivity.
  - intros k rest Hk. destruct k as [|k]; [lia|]. reflexivity.
  - intros x b s t Hx IHx Hb IHb k rest Hk. destruct k as [|k]; [lia|]. rewrite app_length in Hk. destruct (element_first x s Hx) as (c & r & E & Hc).
    assert (L : (2 <= List.length s)%nat) by (rewrite E; cbn [List.length]; lia). rewrite <- app_assoc. cbn [read_body].
    assert (A1 : after [60; 47] (s ++ t ++ 60 :: 47 :: rest) = None). { rewrite E. cbn [app after]. change (60 =? 60) with true. cbv iota. destruct (Z.eqb_spec 47 c); [congruence|reflexivity]. }
    assert (A2 : exists w, after [60] (s ++ t ++ 60 :: 47 :: rest) = Some w) by (rewrite E; eexists; reflexivity). destruct A2 as (w & A2).
    rewrite A1, A2. rewrite (IHx k) by lia. rewrite (IHb k) by lia. reflexivity.
  - intros raw v b t Hne Hf Hd Hbb Hb IHb k rest Hk. destruct k as [|k]; [lia|]. rewrite app_length in Hk.
    destruct raw as [|c raw]; [contradiction|]. clear Hne. cbn [List.length] in Hk. rewrite <- app_assoc. cbn [read_body].
    assert (Hc : c <> 60). { intros ->. discriminate Hf. }
    assert (A1 : forall e, after (60 :: e) ((c :: raw) ++ t ++ 60 :: 47 :: rest) = None). { intros e. cbn [app after]. destruct (Z.eqb_spec 60 c); [congruence|reflexivity]. }
    rewrite !A1. assert (Hx : exists r, t ++ 60 :: 47 :: rest = 60 :: r).
    { destruct Hb as [|x b s t Hx Ht|raw' v' b t H1 H2 H3 H4 H5]; [eexists; reflexivity| |contradiction]. destruct (element_first x s Hx) as (d & r & -> & _). eexists. reflexivity. }
    destruct Hx as (r & E). rewrite E. rewrite span_app by (try exact Hf; reflexivity). rewrite Hd, <- E. rewrite (IHb k) by lia. reflexivity.
Qed.

Lemma reads_document x s r : element_text x s -> forallb blank r = true -> read_xml (s ++ r) = Some x.
Proof. intros H Hr. unfold read_xml. rewrite (proj1 reads_text x s H) by (rewrite app_length; lia). rewrite Hr. reflexivity. Qed.

(** ** Texts without entities *)
Lemma decode_plain ok s : forall k, (List.length s < k)%nat -> (forall c, In c s -> ok c = true /\ c <> 38) -> decode k ok s = Some s.
Proof.
  induction s as [|c s IH]; intros k Hk H; (destruct k as [|k]; [cbn in Hk; lia|]); [reflexivity|]. cbn [List.length] in Hk. cbn [decode].
  destruct (H c (or_introl eq_refl)) as (H1 & H2). destruct (Z.eqb_spec c 38); [contradiction|]. rewrite H1. rewrite IH; [reflexivity|lia|intros d Hd; apply H; right; exact Hd].
Qed.
Lemma after_in e s r : after e s = Some r -> forall c, In c e -> In c s.
Proof.
  revert s. induction e as [|a e IH]; intros s H c Hc; [destruct Hc|]. destruct s as [|b s]; [discriminate H|]. cbn [after] in H. destruct (Z.eqb_spec a b) as [->|]; [|discriminate H].
  destruct Hc as [->|Hc]; [left; reflexivity|]. right. apply (IH _ H c Hc).
Qed.
Lemma free_in c s : free_of c s <-> ~ In c s.
Proof.
  unfold free_of. rewrite forallb_forall. split.
  - intros H Hi. specialize (H c Hi). rewrite Z.eqb_refl in H. discriminate H.
  - intros H d Hd. destruct (Z.eqb_spec d c) as [->|]; [contradiction|reflexivity].
Qed.
