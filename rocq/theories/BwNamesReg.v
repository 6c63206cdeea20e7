(** What registering, indexing and clearing does to the names of a pool. *)
From Verif Require Import Base BaseFacts Types ListFacts Sort Xb XbSpec XbFacts XbWrite WriteProofs Bw BwFacts BwSpec BwHist BwAlloc BwSym BwReg BwFileSpec BwFileProofs BwNamesSpec BwNamesFacts BwNamesInv JsonSource.

(** ** What an operation of the table [t] leaves alone *)
Definition step m m' a t : Prop :=
  zlen m <= zlen m' /\ forall q k, 0 <= k -> q + k <= 32 \/ (36 <= q /\ q + k <= 52) \/ (60 <= q /\ q + k <= a) -> q + k <= t \/ t + 12 <= q -> rd m' q k = rd m q k.
Definition istab t : Prop := t = TAGS \/ t = PARAMS.
Lemma step_refl m a t : step m m a t.
Proof. split; [lia|auto]. Qed.
Lemma step_trans m1 m2 m3 a b t : step m1 m2 a t -> step m2 m3 b t -> a <= b -> step m1 m3 a t.
Proof. intros [L1 S1] [L2 S2] AB. split; [lia|]. intros q k K C D. rewrite S2 by lia. apply S1; assumption. Qed.
Lemma step_ext m m' a t : extends m a m' -> step m m' a t.
Proof. intros [L S1]. split; [exact L|]. intros q k K C _. apply S1; assumption. Qed.
Lemma step_hi m m' a t p n : kept m m' p n -> a <= p -> 60 <= p -> step m m' a t.
Proof. intros [L S1] A P. split; [lia|]. intros q k K C _. apply S1; lia. Qed.
Lemma step_tab m m' a t p n : kept m m' p n -> istab t -> t <= p -> p + n <= t + 12 -> step m m' a t.
Proof. intros [L S1] T A P. unfold istab, TAGS, PARAMS in T. split; [lia|]. intros q k K C D. apply S1; lia. Qed.

Lemma two_tab t u : two t u -> istab t /\ istab u.
Proof. unfold two, istab. tauto. Qed.
Lemma two_swap t u : two t u -> two u t.
Proof. unfold two. tauto. Qed.
Lemma table_step {fl} m m' a t u n x L : two t u -> pool m a -> step m m' a t -> tablef fl m u n x L -> spread (regions n x L) a -> tablef fl m' u n x L.
Proof.
  intros T PO [LE S] TB SP. pose proof PO as (_ & _ & _ & _ & B & _). unfold two, TAGS, PARAMS, HEADER in *. apply (table_frame m m' u n x L a); auto; try lia.
  - apply S; lia.
  - intros y k I. destruct SP as [_ SI]. specialize (SI y k I). unfold HEADER in SI. apply S; lia.
Qed.
Lemma region_names n x L : L <> [] -> In (n, zlen (stored 0 L)) (regions n x L).
Proof. intro NE. unfold regions, names_at. destruct L; [congruence|left; reflexivity]. Qed.
Lemma region_index n x L : x <> 0 -> In (x, 4 * zlen L) (regions n x L).
Proof. intro NE. unfold regions, index_at. apply in_or_app. right. destruct (Z.eqb_spec x 0); [congruence|left; reflexivity]. Qed.

(** ** getNamesSize *)
Lemma table_bound {fl} m t n x L a R : pool m a -> tablef fl m t n x L -> spread (regions n x L ++ R) a -> L <> [] -> HEADER <= n /\ n + zlen (stored 0 L) <= a.
Proof. intros PO TB [_ SI] NE. specialize (SI n (zlen (stored 0 L)) ltac:(apply in_or_app; left; apply region_names, NE)). lia. Qed.
Lemma size_ok {fl} m a t n x L R fuel s m' : pool m a -> tablef fl m t n x L -> spread (regions n x L ++ R) a -> getNamesSize fuel m t = rret (s, m') -> m' = m /\ s = zlen (stored 0 L).
Proof.
  intros PO TB SP E. pose proof PO as (A & _ & _ & _ & B & _). pose proof TB as (MX & N & X & F & L1 & G & ND & N4 & H & IX). unfold getNamesSize in E. rewrite N, rbind_ok in E.
  destruct L as [|e L].
  { cbn [stored]. change (zlen (@nil Z)) with 0 in *. destruct (n =? 0); [injection E as <- <-; auto|]. rewrite A, rbind_ok, MX, rbind_ok in E. change (zlen (@nil (list Z * Z))) with 0 in *. apply rbind_inv in E as ([p mi] & W & E).
    destruct fuel; [discriminate|]. cbn [names_walk] in W. change (0 - 1 <? 0) with true in W. injection W as <- <-. rewrite Z.eqb_refl, rbind_ok in E. injection E as <- <-. split; [reflexivity|lia]. }
  set (L0 := e :: L) in *. destruct (table_bound m t n x L0 a R PO TB SP ltac:(discriminate)) as [N1 N2]. unfold HEADER in *. destruct (Z.eqb_spec n 0) as [->|_]; [lia|]. rewrite A, rbind_ok, MX, rbind_ok in E. apply rbind_inv in E as ([p mi] & W & E).
  apply (names_walk_more _ _ _ _ (S (List.length L0))) in W. assert (W2 := names_walk_ok m (zlen L0 - 1) a ltac:(lia) ltac:(lia) L0 (fuel + S (List.length L0)) n 0 ltac:(lia) (H ltac:(discriminate)) G ltac:(lia) ltac:(lia) N2 N4).
  change (0 - 1) with (-1) in W2. rewrite W2 in W. remember (zlen (stored 0 L0)) as z eqn:Z0. clear Z0. injection W as <- <-. rewrite Z.eqb_refl, rbind_ok in E. injection E as <- <-. split; [reflexivity|]. lia.
Qed.
Lemma size_some {fl} m a t n x L R fuel : pool m a -> tablef fl m t n x L -> spread (regions n x L ++ R) a -> (List.length L < fuel)%nat -> getNamesSize fuel m t = rret (zlen (stored 0 L), m).
Proof.
  intros PO TB SP FU. pose proof PO as (A & _ & _ & _ & B & _). pose proof TB as (MX & N & X & F & L1 & G & ND & N4 & H & IX). unfold getNamesSize. rewrite N, rbind_ok.
  destruct L as [|e L].
  { cbn [stored]. change (zlen (@nil Z)) with 0 in *. destruct (n =? 0); [reflexivity|]. rewrite A, rbind_ok, MX, rbind_ok. change (zlen (@nil (list Z * Z))) with 0 in *.
    destruct fuel; [cbn in FU; lia|]. cbn [names_walk]. change (0 - 1 <? 0) with true. cbv iota. rewrite rbind_rret. change (0 - 1 =? 0 - 1) with true. cbv iota. rewrite rbind_ok. unfold rret. do 3 f_equal. lia. }
  set (L0 := e :: L) in *. destruct (table_bound m t n x L0 a R PO TB SP ltac:(discriminate)) as [N1 N2]. unfold HEADER in *. destruct (Z.eqb_spec n 0) as [->|_]; [lia|]. rewrite A, rbind_ok, MX, rbind_ok.
  assert (W2 := names_walk_ok m (zlen L0 - 1) a ltac:(lia) ltac:(lia) L0 fuel n 0 ltac:(lia) (H ltac:(discriminate)) G ltac:(lia) ltac:(lia) N2 N4).
  change (0 - 1) with (-1) in W2. rewrite W2, rbind_rret, Z.eqb_refl, rbind_ok. unfold rret. do 3 f_equal. lia.
Qed.

(** ** Finding a name *)
Definition found n (L : names) s : option (Z * Z * Z) := match place s L with None => None | Some k => Some (Z.of_nat k, n + off L k, snd (nth k L (s, 0))) end.
Lemma getByName_some m a t n x L R s fuel : pool m a -> table m t n x L -> spread (regions n x L ++ R) a -> proper s -> (2 * List.length L < fuel)%nat -> getByName fuel m t s = rret (found n L s).
Proof.
  intros PO TB SP PS FU. pose proof PO as (A & _ & _ & _ & B & _). pose proof TB as (MX & N & X & F & L1 & G & ND & N4 & H & IX). unfold getByName. rewrite X, rbind_ok, MX, rbind_ok. destruct (Z.eqb_spec x 0) as [X0|X0].
  - rewrite N, rbind_ok, A, rbind_ok. destruct L as [|e L].
    + destruct fuel; [cbn in FU; lia|]. reflexivity.
    + set (L0 := e :: L) in *. destruct (table_bound m t n x L0 a R PO TB SP ltac:(discriminate)) as [N1 N2]. unfold HEADER in *. assert (0 < zlen L0) by (unfold L0; rewrite zlen_cons; pose proof (zlen_nonneg L); lia).
      rewrite (find_name_ok m (zlen L0 - 1) a s ltac:(lia) ltac:(lia) PS L0 fuel n 0 0); auto; try lia; try discriminate; try (apply H; discriminate).
  - destruct (IX X0) as [NE I]. exact (find_indexed_ok m (zlen L - 1) x n s L ltac:(lia) ltac:(lia) (H NE) G I L [] fuel eq_refl ltac:(lia)).
Qed.
Lemma getByName_more m t s fuel d r : getByName fuel m t s = rret r -> getByName (fuel + d) m t s = rret r.
Proof.
  unfold getByName. intro E. apply rbind_inv in E as (x & X & E). rewrite X, rbind_rret. apply rbind_inv in E as (mx & M & E). rewrite M, rbind_rret. destruct (x =? 0).
  - apply rbind_inv in E as (n & N & E). rewrite N, rbind_rret. apply rbind_inv in E as (a & A & E). rewrite A, rbind_rret. apply find_name_more, E.
  - apply find_indexed_more, E.
Qed.
Lemma rret_inj {A} (x y : A) : rret x = rret y -> x = y.
Proof. intro E. injection E as E. exact E. Qed.
Lemma getByName_ok m a t n x L R s fuel r : pool m a -> table m t n x L -> spread (regions n x L ++ R) a -> proper s -> getByName fuel m t s = rret r -> r = found n L s.
Proof.
  intros PO TB SP PS E. apply (getByName_more _ _ _ _ (S (2 * List.length L))) in E. rewrite (getByName_some m a t n x L R s) in E by (auto; lia). symmetry. apply rret_inj, E.
Qed.
Lemma place_nth s L k : place s L = Some k -> exists ty, nth_error L k = Some (s, ty).
Proof.
  revert k. induction L as [|[n ty] L IH]; intros k E; [discriminate|]. cbn [place] in E. destruct (list_eq_dec Z.eq_dec n s) as [->|NE]; [injection E as <-; exists ty; reflexivity|].
  destruct (place s L) as [j|]; [|discriminate]. injection E as <-. apply IH. reflexivity.
Qed.
Lemma place_none s L : place s L = None -> ~ In s (map fst L).
Proof.
  induction L as [|[n ty] L IH]; intros E I; [contradiction|]. cbn [place] in E. destruct (list_eq_dec Z.eq_dec n s) as [->|NE]; [discriminate|]. destruct (place s L); [discriminate|]. destruct I as [I|I]; [exact (NE I)|]. exact (IH eq_refl I).
Qed.
Lemma noted_new s ty L : place s L = None -> noted s ty L = L ++ [(s, ty)].
Proof.
  induction L as [|[n o] L IH]; intro E; [reflexivity|]. cbn [place noted] in *. destruct (list_eq_dec Z.eq_dec n s); [discriminate|]. destruct (place s L); [discriminate|]. cbn [app]. rewrite IH; reflexivity.
Qed.
Definition joined ty old := if old =? ty then old else XBT_JoinTypes ty old.
Lemma noted_old s ty L k : place s L = Some k -> exists l1 l2 old, L = l1 ++ (s, old) :: l2 /\ List.length l1 = k /\ noted s ty L = l1 ++ (s, joined ty old) :: l2.
Proof.
  revert k. induction L as [|[n o] L IH]; intros k E; [discriminate|]. cbn [place noted] in *. destruct (list_eq_dec Z.eq_dec n s) as [->|NE].
  - injection E as <-. exists [], L, o. auto.
  - destruct (place s L) as [j|]; [|discriminate]. injection E as <-. destruct (IH j eq_refl) as (l1 & l2 & old & E1 & E2 & E3). exists ((n, o) :: l1), l2, old. rewrite E1 at 1. rewrite E3. cbn. rewrite E2. auto.
Qed.
Lemma join_range t1 t2 : 0 <= t1 < 256 -> 0 <= t2 < 256 -> 0 <= XBT_JoinTypes t1 t2 < 256.
Proof.
  intros A B. unfold XBT_JoinTypes. repeat match goal with |- context [if ?c then _ else _] => lazymatch c with context [if _ then _ else _] => fail | _ => destruct c end end; try lia; try (unfold XBT_VARIANT, XBT_INT32, XBT_INT32_NANO, XBT_INT32_MICRO, XBT_INT32_MILI, XBT_INT32_CENTI, XBT_INT32_DECI; lia).
  assert (Z : forall l i, Forall (fun v => 0 <= v < 256) l -> 0 <= znth l i < 256).
  { intros l i F. unfold znth. destruct (i <? 0); [lia|]. destruct (nth_in_or_default (Z.to_nat i) l 0) as [I| ->]; [|lia]. exact (proj1 (Forall_forall _ _) F _ I). }
  apply Z. repeat constructor; unfold XBT_INT32, XBT_FLOAT, XBT_INT64, XBT_DOUBLE; lia.
Qed.
