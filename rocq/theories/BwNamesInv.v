(** The invariant of the names of a pool. *)
From Verif Require Import Base BaseFacts Types ListFacts Sort Xb XbSpec XbFacts XbWrite WriteProofs Bw BwFacts BwSpec BwHist BwAlloc BwSym BwReg BwFileSpec BwFileProofs BwNamesSpec BwNamesFacts JsonSource.

(** ** Fuel *)
Lemma names_walk_more m max_id limit : forall fuel d p id prev r, names_walk fuel m max_id limit p id prev = rret r -> names_walk (fuel + d) m max_id limit p id prev = rret r.
Proof.
  induction fuel as [|k IH]; intros d p id prev r E; [discriminate|]. cbn [names_walk Nat.add] in *. destruct (max_id <? id); [exact E|]. apply rbind_inv in E as (v & V & E). rewrite V, rbind_rret. destruct (negb _); [exact E|].
  apply rbind_inv in E as (q & Q & E). rewrite Q, rbind_rret. apply IH, E.
Qed.
Lemma find_name_more m max_id limit s : forall fuel d p id r, find_name fuel m max_id limit s p id = rret r -> find_name (fuel + d) m max_id limit s p id = rret r.
Proof.
  induction fuel as [|k IH]; intros d p id r E; [discriminate|]. cbn [find_name Nat.add] in *. destruct (max_id <? id); [exact E|]. apply rbind_inv in E as (v & V & E). rewrite V, rbind_rret. apply rbind_inv in E as (ty & TY & E). rewrite TY, rbind_rret. cbv zeta in *.
  destruct (_ <=? _); [exact E|]. apply rbind_inv in E as (b & BB & E). rewrite BB, rbind_rret. destruct (_ <=? _); [exact E|]. destruct (_ && _); [exact E|]. apply rbind_inv in E as (q & Q & E). rewrite Q, rbind_rret. destruct (_ <=? _); [exact E|]. apply IH, E.
Qed.
Lemma find_indexed_more m max_id x s : forall fuel d id r, find_indexed fuel m max_id x s id = rret r -> find_indexed (fuel + d) m max_id x s id = rret r.
Proof.
  induction fuel as [|k IH]; intros d id r E; [discriminate|]. cbn [find_indexed Nat.add] in *. destruct (max_id <? id); [exact E|]. apply rbind_inv in E as (v & V & E). rewrite V, rbind_rret. apply rbind_inv in E as (b & BB & E). rewrite BB, rbind_rret.
  destruct (list_eq_dec _ _ _); [exact E|]. apply IH, E.
Qed.

(** ** Reads inside a part *)
Lemma rd_sub m m' p n q k : rd m' p n = rd m p n -> 0 <= p -> p + n <= zlen m -> zlen m <= zlen m' -> 0 <= k -> p <= q -> q + k <= p + n -> rd m' q k = rd m q k.
Proof. intros E P B L K Q1 Q2. apply rd_bytes; try lia. intros i I. apply (byte_of m m' p n); auto; lia. Qed.

(** ** Tables *)
Definition tablef fl m t n x (L : names) : Prop :=
  t_max_id m t = Ok (zlen L - 1) /\ t_names m t = Ok n /\ t_index m t = Ok x /\ t_flags m t = Ok fl /\ zlen L <= 128 /\ good L /\ NoDup (map fst L) /\
  n mod 4 = 0 /\ (L <> [] -> has m n (stored 0 L)) /\ (x <> 0 -> L <> [] /\ indexed m x n L).
Notation table := (tablef 0).
Definition names_at n (L : names) : list (Z * Z) := match L with [] => [] | _ => [(n, zlen (stored 0 L))] end.
Definition index_at x (L : names) : list (Z * Z) := if x =? 0 then [] else [(x, 4 * zlen L)].
Definition regions n x L : list (Z * Z) := names_at n L ++ index_at x L.
Definition spread (R : list (Z * Z)) a : Prop := ForallOrdPairs apart R /\ forall y k, In (y, k) R -> HEADER <= y /\ 0 < k /\ y + k <= a.
(** The table [t], the other one [u] *)
Definition inv m t u L K B a : Prop := exists n x n' x', pool m a /\ table m t n x L /\ table m u n' x' K /\ spread (regions n x L ++ regions n' x' K ++ B) a.
Definition two t u : Prop := (t = TAGS /\ u = PARAMS) \/ (t = PARAMS /\ u = TAGS).

Lemma apart_sym b c : apart b c -> apart c b.
Proof. unfold apart. lia. Qed.
Lemma pairs_perm (R R' : list (Z * Z)) : Permutation R R' -> ForallOrdPairs apart R -> ForallOrdPairs apart R'.
Proof.
  induction 1 as [|b R R' P IH|b c R|R1 R2 R3 P1 IH1 P2 IH2]; intro O; auto.
  - inversion O as [|? ? F O2]; subst. constructor; [|auto]. apply Forall_forall. intros c I. apply (Permutation_in _ (Permutation_sym P)) in I. exact (proj1 (Forall_forall _ _) F c I).
  - inversion O as [|? ? F O2]; subst. inversion O2 as [|? ? F2 O3]; subst. inversion F as [|? ? A F3]; subst. constructor; [constructor; [apply apart_sym, A|exact F2]|]. constructor; assumption.
Qed.
Lemma spread_perm R R' a : Permutation R R' -> spread R a -> spread R' a.
Proof. intros P [O I]. split; [eapply pairs_perm; eauto|]. intros y k J. apply I. apply (Permutation_in _ (Permutation_sym P)), J. Qed.
Lemma spread_app R1 R2 a : spread (R1 ++ R2) a -> spread R1 a /\ spread R2 a /\ forall b c, In b R1 -> In c R2 -> apart b c.
Proof.
  intros [O I]. split; [|split].
  - split; [|intros y k J; apply I, in_or_app; auto]. clear I. induction R1 as [|b R1 IH]; [constructor|]. inversion O as [|? ? F O2]; subst. constructor; [|auto]. apply Forall_app in F. apply F.
  - split; [|intros y k J; apply I, in_or_app; auto]. clear I. induction R1 as [|b R1 IH]; [exact O|]. inversion O as [|? ? F O2]; subst. auto.
  - clear I. induction R1 as [|b' R1 IH]; intros b c J1 J2; [contradiction|]. inversion O as [|? ? F O2]; subst. destruct J1 as [<-|J1]; [|eauto]. apply Forall_app in F as [_ F]. exact (proj1 (Forall_forall _ _) F c J2).
Qed.
Lemma spread_drop R1 R2 a : spread (R1 ++ R2) a -> spread R2 a.
Proof. intro S. apply spread_app in S. apply S. Qed.
Lemma spread_more R a a' y k : spread R a -> a <= y -> 0 < k -> y + k <= a' -> HEADER <= a -> spread ((y, k) :: R) a'.
Proof.
  intros [O I] AY K AA HA. split.
  - constructor; [|exact O]. apply Forall_forall. intros [z j] J. right. cbn. specialize (I z j J). lia.
  - intros z j [E|J]; [injection E as <- <-; lia|]. specialize (I z j J). lia.
Qed.
Lemma spread_up R a a' : spread R a -> a <= a' -> spread R a'.
Proof. intros [O I] A. split; [exact O|]. intros y k J. specialize (I y k J). lia. Qed.
Lemma inv_swap m t u L K B a : inv m t u L K B a -> inv m u t K L B a.
Proof.
  intros (n & x & n' & x' & P & T1 & T2 & S). exists n', x', n, x. split; [exact P|]. split; [exact T2|]. split; [exact T1|]. eapply spread_perm; [|exact S]. rewrite !app_assoc. apply Permutation_app_tail, Permutation_app_comm.
Qed.

(** A table stays when its parts are not touched. *)
Lemma flags_rd m m' t : rd m' (t + 12) 4 = rd m (t + 12) 4 -> t_flags m' t = t_flags m t.
Proof. intro E. unfold t_flags. rewrite E. reflexivity. Qed.
Lemma table_frame {fl} m m' t n x L a : tablef fl m t n x L -> zlen m <= zlen m' -> 0 <= t -> t + 16 <= zlen m -> rd m' t 16 = rd m t 16 -> spread (regions n x L) a -> a <= zlen m ->
  (forall y k, In (y, k) (regions n x L) -> rd m' y k = rd m y k) -> tablef fl m' t n x L.
Proof.
  intros (MX & N & X & F & L1 & G & ND & N4 & H & IX) LE T0 TB E [_ SI] AB R. assert (SUB : forall q k, 0 <= k -> t <= q -> q + k <= t + 16 -> rd m' q k = rd m q k) by (intros; apply (rd_sub m m' t 16); auto; lia).
  unfold tablef, t_max_id, t_names, t_index, t_flags, rd_s32 in *. rewrite !SUB by lia. repeat (split; [assumption|]). split.
  - intro NE. specialize (H NE). pose proof (has_range _ _ _ H) as [H0 HB]. assert (J : In (n, zlen (stored 0 L)) (regions n x L)) by (unfold regions, names_at; destruct L; [congruence|left; reflexivity]).
    assert (Q := has_rd _ _ _ H). rewrite <- (R _ _ J) in Q. apply rd_inv in Q; [apply Q|apply zlen_nonneg].
  - intro XN. destruct (IX XN) as [NE I]. split; [exact NE|]. intros i e NI. assert (J : In (x, 4 * zlen L) (regions n x L)) by (unfold regions, index_at; apply in_or_app; right; destruct (Z.eqb_spec x 0); [congruence|left; reflexivity]).
    specialize (I i e NI). specialize (SI _ _ J). unfold HEADER in SI. assert (LI : (i < List.length L)%nat) by (apply nth_error_Some; congruence). unfold rd_s32 in *. rewrite (rd_sub m m' x (4 * zlen L)); auto; unfold zlen in *; try lia.
Qed.
