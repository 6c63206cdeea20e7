(** The symbol tables of the converter. *)
From Verif Require Import Base BaseFacts ListFacts Types CompareProofs Sort SortProofs Symtab SymtabSpec.
From Coq Require Import Sorted.

(** ** The order *)

Lemma memcmp_before a : forall b, memcmp a b < 0 <-> before a b.
Proof.
  induction a as [|x a IH]; intros [|y b].
  - split; [cbn; lia|]. intros (p & [(y & r & E & E')|(x & y & r & s & E & _)]); destruct p; discriminate.
  - split; [|cbn; lia]. intros _. exists []. left. exists y, b. auto.
  - split; [cbn; lia|]. intros (p & [(y & r & E & E')|(u & y & r & s & E & E' & _)]); destruct p; discriminate.
  - cbn [memcmp]. destruct (Z.ltb_spec x y) as [H|H].
    + split; [|lia]. intros _. exists []. right. exists x, y, a, b. auto.
    + destruct (Z.ltb_spec y x) as [H'|H'].
      * split; [lia|]. intros (p & [(u & r & E & E')|(u & v & r & s & E & E' & Hlt)]); destruct p; cbn [app] in *; inversion E; inversion E'; subst; lia.
      * assert (x = y) by lia. subst y. rewrite IH. split.
        -- intros (p & [(u & r & -> & ->)|(u & v & r & s & -> & -> & Hlt)]); exists (x :: p); [left; exists u, r|right; exists u, v, r, s]; auto.
        -- intros (p & [(u & r & E & E')|(u & v & r & s & E & E' & Hlt)]); destruct p as [|z p]; cbn [app] in *; inversion E; inversion E'; subst; try lia.
           ++ exists p. left. exists u, r. auto.
           ++ exists p. right. exists u, v, r, s. auto.
Qed.

Lemma before_irrefl a : ~ before a a.
Proof. rewrite <- memcmp_before. rewrite (proj2 (memcmp_eq a a) eq_refl). lia. Qed.
Lemma before_trans a b c : before a b -> before b c -> before a c.
Proof.
  rewrite <- !memcmp_before. intros H1 H2. assert (H := memcmp_trans a b c ltac:(lia) ltac:(lia)).
  destruct (Z.eq_dec (memcmp a c) 0) as [E|E]; [|lia]. apply memcmp_eq in E. subst c. rewrite memcmp_anti in H2. lia.
Qed.
Lemma memcmp_swap a b : memcmp a b > 0 <-> before b a.
Proof. rewrite <- memcmp_before, (memcmp_anti a b). lia. Qed.

(** ** The search *)

Lemma search_ok cmp c n : (forall i, 0 <= i < n -> cmp i = Ok (c i)) ->
  (forall i j, 0 <= i < j -> j < n -> c j >= 0 -> c i > 0) -> (forall i j, 0 <= i < j -> j < n -> c i <= 0 -> c j < 0) ->
  forall fuel B E, 0 <= B -> E < n -> B <= E + 1 -> E - B + 1 < Z.of_nat fuel ->
  (forall i, 0 <= i < B -> c i > 0) -> (forall i, E < i < n -> c i < 0) ->
  (exists M, search fuel cmp B E = rret (inl M) /\ 0 <= M < n /\ c M = 0) \/
  (exists P, search fuel cmp B E = rret (inr P) /\ 0 <= P <= n /\ (forall i, 0 <= i < P -> c i > 0) /\ (forall i, P <= i < n -> c i < 0)).
Proof.
  intros Hc Hup Hdn. induction fuel as [|k IH]; intros B E HB HE HBE Hf Hlo Hhi; [lia|]. cbn [search]. destruct (Z.leb_spec B E) as [H|H].
  - cbv zeta. rewrite shr_div by lia. change (2 ^ 1) with 2. set (M := (B + E) / 2). assert (B <= M <= E) by (subst M; lia).
    rewrite Hc by lia. cbn [rbind]. destruct (Z.eqb_spec (c M) 0) as [E0|E0].
    + left. exists M. repeat split; auto; lia.
    + destruct (Z.ltb_spec (c M) 0) as [Hneg|Hpos].
      * apply IH; try lia; [exact Hlo|]. intros i Hi. destruct (Z.eq_dec i M) as [->|]; [exact Hneg|]. apply (Hdn M i); lia.
      * apply IH; try lia; [|exact Hhi]. intros i Hi. destruct (Z.eq_dec i M) as [->|]; [lia|]. destruct (Z_lt_le_dec i B); [apply Hlo; lia|]. apply (Hup i M); lia.
  - right. exists (E + 1). split; [reflexivity|]. assert (B = E + 1) by lia. subst B. split; [lia|]. split; [exact Hlo|]. intros i Hi. apply Hhi. lia.
Qed.

(** ** Names in a table *)

Definition names (t : table) : list (list Z) := map fst t.
Definition good (t : table) : Prop := strictly_ordered (names t).

Lemma nth_names t i : 0 <= i < zlen t -> exists n ty, nth_error t (Z.to_nat i) = Some (n, ty) /\ nth_error (names t) (Z.to_nat i) = Some n /\ name_at t i = Ok n.
Proof.
  intros Hi. destruct (nth_error t (Z.to_nat i)) as [[n ty]|] eqn:E.
  - exists n, ty. split; [reflexivity|]. split; [unfold names; rewrite (map_nth_error fst _ _ E); reflexivity|]. unfold name_at. destruct (Z.ltb_spec i 0); [lia|]. rewrite E. reflexivity.
  - apply nth_error_None in E. unfold zlen in Hi. lia.
Qed.

Lemma sorted_nth l : strictly_ordered l -> forall i j a b, (i < j)%nat -> nth_error l i = Some a -> nth_error l j = Some b -> before a b.
Proof.
  induction 1 as [|x l Hs IH Hf]; intros i j a b Hij Ea Eb; [destruct i; discriminate|]. destruct j as [|j]; [lia|]. cbn [nth_error] in Eb. destruct i as [|i].
  - inversion Ea; subst. apply nth_error_In in Eb. rewrite Forall_forall in Hf. apply Hf. exact Eb.
  - cbn [nth_error] in Ea. apply (IH i j); auto; lia.
Qed.

Lemma nth_error_firstn {A} (l : list A) : forall n k, (k < n)%nat -> nth_error (firstn n l) k = nth_error l k.
Proof. induction l as [|a l IH]; intros [|n] [|k] H; try lia; cbn [firstn nth_error]; auto. apply IH. lia. Qed.
Lemma nth_error_skipn {A} (l : list A) : forall n k, nth_error (skipn n l) k = nth_error l (n + k).
Proof. induction l as [|a l IH]; intros [|n] k; cbn [skipn nth_error Nat.add]; auto. destruct k; reflexivity. Qed.

Definition ncmp (s : list Z) (t : table) (i : Z) : Z := memcmp s (nth (Z.to_nat i) (names t) []).

Lemma table_search s t : good t ->
  (exists M ty, search (S (List.length t)) (cmp_at s t) 0 (zlen t - 1) = rret (inl M) /\ 0 <= M < zlen t /\ nth_error t (Z.to_nat M) = Some (s, ty)) \/
  (exists P, search (S (List.length t)) (cmp_at s t) 0 (zlen t - 1) = rret (inr P) /\ 0 <= P <= zlen t /\
     (forall n ty, In (n, ty) (ztake P t) -> before n s) /\ (forall n ty, In (n, ty) (zskip P t) -> before s n)).
Proof.
  intros Hg. pose proof (zlen_nonneg t) as Hz.
  assert (Hn : forall i, 0 <= i < zlen t -> nth_error (names t) (Z.to_nat i) = Some (nth (Z.to_nat i) (names t) [])).
  { intros i Hi. apply nth_error_nth'. unfold names. rewrite map_length. unfold zlen in Hi. lia. }
  destruct (search_ok (cmp_at s t) (ncmp s t) (zlen t)) with (fuel := S (List.length t)) (B := 0) (E := zlen t - 1) as [(M & E & HM & E0)|(P & E & HP & Hlo & Hhi)];
    try lia; try (unfold zlen; lia).
  - intros i Hi. unfold cmp_at, ncmp. destruct (nth_names t i Hi) as (n & ty & E1 & E2 & ->). cbn [obind]. rewrite Hn in E2 by exact Hi. inversion E2. reflexivity.
  - intros i j Hij Hj Hc. unfold ncmp in *.
    assert (Hb : before (nth (Z.to_nat i) (names t) []) (nth (Z.to_nat j) (names t) [])) by (apply (sorted_nth _ Hg (Z.to_nat i) (Z.to_nat j)); [lia|apply Hn; lia|apply Hn; lia]).
    apply memcmp_swap. destruct (Z.eq_dec (memcmp s (nth (Z.to_nat j) (names t) [])) 0) as [E|E].
    + apply memcmp_eq in E. rewrite E. exact Hb.
    + apply (before_trans _ _ _ Hb). apply memcmp_swap. lia.
  - intros i j Hij Hj Hc. unfold ncmp in *.
    assert (Hb : before (nth (Z.to_nat i) (names t) []) (nth (Z.to_nat j) (names t) [])) by (apply (sorted_nth _ Hg (Z.to_nat i) (Z.to_nat j)); [lia|apply Hn; lia|apply Hn; lia]).
    apply memcmp_before. destruct (Z.eq_dec (memcmp s (nth (Z.to_nat i) (names t) [])) 0) as [E|E].
    + apply memcmp_eq in E. rewrite E. exact Hb.
    + apply (before_trans _ _ _) with (2 := Hb). apply memcmp_before. lia.
  - left. destruct (nth_names t M HM) as (n & ty & E1 & E2 & _). exists M, ty. split; [exact E|]. split; [exact HM|]. rewrite E1. do 2 f_equal.
    unfold ncmp in E0. apply memcmp_eq in E0. rewrite Hn in E2 by exact HM. inversion E2. congruence.
  - right. exists P. split; [exact E|]. split; [exact HP|]. split.
    + intros n ty Hi. apply In_nth_error in Hi. destruct Hi as (k & Ek). assert (Hk : (k < List.length (ztake P t))%nat) by (apply nth_error_Some; rewrite Ek; discriminate).
      unfold ztake in Ek, Hk. rewrite firstn_length in Hk. rewrite nth_error_firstn in Ek by lia.
      apply memcmp_swap. specialize (Hlo (Z.of_nat k) ltac:(lia)). unfold ncmp in Hlo. rewrite Nat2Z.id in Hlo. unfold names in Hlo. rewrite (nth_error_nth (map fst t) k [] (map_nth_error fst _ _ Ek)) in Hlo. exact Hlo.
    + intros n ty Hi. apply In_nth_error in Hi. destruct Hi as (k & Ek). assert (Hk : (k < List.length (zskip P t))%nat) by (apply nth_error_Some; rewrite Ek; discriminate).
      unfold zskip in Ek, Hk. rewrite skipn_length in Hk. rewrite nth_error_skipn in Ek.
      apply memcmp_before. specialize (Hhi (Z.of_nat (Z.to_nat P + k)) ltac:(unfold zlen; lia)). unfold ncmp in Hhi. rewrite Nat2Z.id in Hhi. unfold names in Hhi.
      rewrite (nth_error_nth (map fst t) _ [] (map_nth_error fst _ _ Ek)) in Hhi. exact Hhi.
Qed.

Lemma find_ok s t : good t -> s <> lit "et-tecera" ->
  exists i, Find (Some s) t = rret i /\ ((0 <= i < zlen t /\ name_at t i = Ok s) \/ (i = -1 /\ ~ In s (names t))).
Proof.
  intros Hg He. unfold Find. destruct (Z.eqb_spec (memcmp s (lit "et-tecera")) 0) as [E|_]; [apply memcmp_eq in E; contradiction|].
  destruct (table_search s t Hg) as [(M & ty & -> & HM & E)|(P & -> & HP & Hlo & Hhi)]; rb.
  - exists M. split; [reflexivity|]. left. split; [exact HM|]. unfold name_at. destruct (Z.ltb_spec M 0); [lia|]. rewrite E. reflexivity.
  - exists (-1). split; [reflexivity|]. right. split; [reflexivity|]. intros Hi. unfold names in Hi. apply in_map_iff in Hi. destruct Hi as ([n ty] & E & Hi). cbn [fst] in E. subst n.
    rewrite <- (ztake_zskip P t) in Hi. apply in_app_or in Hi. destruct Hi as [Hi|Hi]; [apply Hlo in Hi|apply Hhi in Hi]; exact (before_irrefl _ Hi).
Qed.

Lemma find_et_tecera t : Find (Some (lit "et-tecera")) t = rret (-9).
Proof. reflexivity. Qed.

(** ** Insertion *)

Lemma sorted_app l r : strictly_ordered (l ++ r) <-> strictly_ordered l /\ strictly_ordered r /\ (forall a b, In a l -> In b r -> before a b).
Proof.
  unfold strictly_ordered. induction l as [|x l IH]; cbn [app].
  - split; [intros H; repeat split; [constructor|exact H|intros a b []]|tauto].
  - split.
    + intros H. inversion H as [|? ? Hs Hf]; subst. apply IH in Hs. destruct Hs as (A & B & C). rewrite Forall_forall in Hf. repeat split.
      * constructor; [exact A|]. apply Forall_forall. intros y Hy. apply Hf. apply in_or_app. auto.
      * exact B.
      * intros a b [->|Ha] Hb; [apply Hf; apply in_or_app; auto|auto].
    + intros (A & B & C). inversion A as [|? ? Hs Hf]; subst. constructor.
      * apply IH. repeat split; auto. intros a b Ha Hb. apply C; [right; exact Ha|exact Hb].
      * rewrite Forall_forall in *. intros y Hy. apply in_app_or in Hy. destruct Hy as [Hy|Hy]; [auto|]. apply C; [left; reflexivity|exact Hy].
Qed.

Lemma names_app a b : names (a ++ b) = names a ++ names b.
Proof. apply map_app. Qed.

Lemma insert_good t P s ty : good t -> (forall n ty', In (n, ty') (ztake P t) -> before n s) -> (forall n ty', In (n, ty') (zskip P t) -> before s n) ->
  good (ztake P t ++ [(s, ty)] ++ zskip P t).
Proof.
  intros Hg Hlo Hhi. unfold good in *. rewrite !names_app. rewrite <- (ztake_zskip P t) in Hg. rewrite names_app in Hg. apply sorted_app in Hg. destruct Hg as (A & B & C).
  apply sorted_app. split; [exact A|]. split.
  - cbn [names map app fst]. constructor; [exact B|]. apply Forall_forall. intros n Hn. apply in_map_iff in Hn. destruct Hn as ([n' ty'] & E & Hn). cbn in E; subst n'. eauto.
  - intros a b Ha Hb. cbn [names map app fst] in Hb. destruct Hb as [<-|Hb]; [|auto]. apply in_map_iff in Ha. destruct Ha as ([n' ty'] & E & Ha). cbn in E; subst n'. eauto.
Qed.

Lemma nth_split_z {A} (t : list A) i x : 0 <= i -> nth_error t (Z.to_nat i) = Some x -> t = ztake i t ++ [x] ++ zskip (i + 1) t.
Proof.
  intros Hi E. unfold ztake, zskip. replace (Z.to_nat (i + 1)) with (S (Z.to_nat i)) by lia. generalize (Z.to_nat i) E. clear. intros n. revert t. induction n as [|n IH]; intros t E; destruct t as [|a t]; try discriminate; cbn [nth_error firstn skipn app] in *.
  - inversion E. reflexivity.
  - f_equal. apply IH. exact E.
Qed.

Lemma set_type_spec t i f n ty : 0 <= i -> nth_error t (Z.to_nat i) = Some (n, ty) ->
  exists a b, t = a ++ (n, ty) :: b /\ set_type t i f = a ++ (n, f ty) :: b.
Proof.
  intros Hi E. exists (ztake i t), (zskip (i + 1) t). split; [apply (nth_split_z t i _ Hi E)|]. unfold set_type. rewrite E. reflexivity.
Qed.

(** ** A sequence of registrations *)

Definition holds (t : table) (l : list (list Z * list Z)) : Prop :=
  good t /\ zlen t <= MAX_SYMBOL_COUNT /\ (forall n ty, In (n, ty) t -> In n (map fst l)) /\
  (different (map fst l) <= MAX_SYMBOL_COUNT -> (forall n, In n (map fst l) -> In (n, column_type (values_of n l)) t)).

Lemma good_unique t n a b : good t -> In (n, a) t -> In (n, b) t -> a = b.
Proof.
  unfold good. induction t as [|[m c] t IH]; intros Hg Ha Hb; [destruct Ha|]. cbn [names map fst] in Hg. inversion Hg as [|? ? Hs Hf]; subst. rewrite Forall_forall in Hf.
  destruct Ha as [Ea|Ha], Hb as [Eb|Hb].
  - congruence.
  - inversion Ea; subst. exfalso. apply (before_irrefl n). apply Hf. apply (in_map fst) in Hb. exact Hb.
  - inversion Eb; subst. exfalso. apply (before_irrefl n). apply Hf. apply (in_map fst) in Ha. exact Ha.
  - apply IH; assumption.
Qed.

Lemma values_of_app n a b : values_of n (a ++ b) = values_of n a ++ values_of n b.
Proof. unfold values_of. rewrite filter_app, map_app. reflexivity. Qed.
Lemma values_of_same n v : values_of n [(n, v)] = [v].
Proof. unfold values_of. cbn [filter fst]. destruct (list_eq_dec Z.eq_dec n n); [reflexivity|congruence]. Qed.
Lemma values_of_other n m v : n <> m -> values_of n [(m, v)] = [].
Proof. intros H. unfold values_of. cbn [filter fst]. destruct (list_eq_dec Z.eq_dec m n); [congruence|reflexivity]. Qed.
Lemma values_of_none n l : ~ In n (map fst l) -> values_of n l = [].
Proof.
  induction l as [|[m v] l IH]; intros H; [reflexivity|]. change ((m, v) :: l) with ([(m, v)] ++ l). rewrite values_of_app, IH by (intros Hi; apply H; right; exact Hi).
  rewrite values_of_other; [reflexivity|]. intros ->. apply H. left. reflexivity.
Qed.
Lemma values_of_some n l : In n (map fst l) -> values_of n l <> [].
Proof.
  induction l as [|[m v] l IH]; intros H; [destruct H|]. change ((m, v) :: l) with ([(m, v)] ++ l). rewrite values_of_app. destruct (list_eq_dec Z.eq_dec n m) as [->|Hne].
  - rewrite values_of_same. discriminate.
  - rewrite values_of_other by exact Hne. cbn [app]. apply IH. cbn in H. destruct H; [congruence|assumption].
Qed.

Lemma column_snoc vs v : vs <> [] -> column_type (vs ++ [v]) = XBT_Detect2 v (column_type vs).
Proof. intros H. destruct vs as [|w vs]; [congruence|]. cbn [app column_type]. rewrite fold_left_app. reflexivity. Qed.

Lemma different_snoc l n : different (l ++ [n]) = if in_dec (list_eq_dec Z.eq_dec) n l then different l else different l + 1.
Proof.
  unfold different. assert (P : forall a b, (forall x, In x a <-> In x b) -> zlen (nodup (list_eq_dec Z.eq_dec) a) = zlen (nodup (list_eq_dec Z.eq_dec) b)).
  { intros a b H. unfold zlen. f_equal. apply Nat.le_antisymm; apply NoDup_incl_length; try apply NoDup_nodup; intros x Hx; apply nodup_In; apply nodup_In in Hx; apply H; exact Hx. }
  destruct (in_dec (list_eq_dec Z.eq_dec) n l) as [Hi|Hi].
  - apply P. intros x. rewrite in_app_iff. cbn. split; [intros [?|[->|[]]]; auto|auto].
  - rewrite (P (l ++ [n]) (n :: l)) by (intros x; rewrite in_app_iff; cbn; tauto). cbn [nodup]. destruct (in_dec (list_eq_dec Z.eq_dec) n l); [contradiction|]. rewrite zlen_cons. lia.
Qed.

(** The table holds as many names as there are different ones. *)
Lemma table_size (t : table) (l : list (list Z * list Z)) : good t -> (forall n ty, In (n, ty) t -> In n (map fst l)) -> zlen t <= different (map fst l).
Proof.
  intros Hg Hin. unfold different, zlen. apply inj_le. rewrite <- (map_length (@fst (list Z) Z) t). apply NoDup_incl_length.
  - unfold good in Hg. clear Hin. fold (names t). induction Hg as [|x l' Hs IH Hf]; constructor; [|exact IH]. intros Hi. rewrite Forall_forall in Hf. exact (before_irrefl x (Hf x Hi)).
  - intros n Hn. apply nodup_In. apply in_map_iff in Hn. destruct Hn as ([m ty] & E & Hn). cbn in E; subst m. eauto.
Qed.

Lemma register_one t l n v : holds t l -> exists i t', FindOrAdd (Some n) t v = rret (i, t') /\ holds t' (l ++ [(n, v)]) /\
  (different (map fst (l ++ [(n, v)])) <= MAX_SYMBOL_COUNT -> 0 <= i < zlen t' /\ name_at t' i = Ok n).
Proof.
  intros (Hg & Hs & Hin & Hall). unfold FindOrAdd, find_or_add.
  assert (Hdiff : different (map fst (l ++ [(n, v)])) <= MAX_SYMBOL_COUNT -> different (map fst l) <= MAX_SYMBOL_COUNT).
  { rewrite map_app. cbn [map fst]. rewrite different_snoc. destruct (in_dec (list_eq_dec Z.eq_dec) n (map fst l)); lia. }
  destruct (table_search n t Hg) as [(M & ty & -> & HM & E)|(P & -> & HP & Hlo & Hhi)]; rb.
  - destruct (set_type_spec t M (fun ty => XBT_Detect2 v ty) n ty ltac:(lia) E) as (a & b & Et & Es).
    exists M, (set_type t M (fun ty => XBT_Detect2 v ty)). split; [reflexivity|]. rewrite Es.
    assert (Hin' : In n (map fst l)) by (apply (Hin n ty); rewrite Et; apply in_or_app; right; left; reflexivity).
    assert (Hg' : good (a ++ (n, XBT_Detect2 v ty) :: b)).
    { unfold good in *. rewrite Et in Hg. rewrite names_app in *. exact Hg. }
    split; [|].
    + split; [exact Hg'|]. split; [rewrite Et, zlen_app, zlen_cons in Hs; rewrite zlen_app, zlen_cons; exact Hs|]. split.
      * intros m c Hm. rewrite map_app. apply in_or_app. left. apply in_app_or in Hm. destruct Hm as [Hm|[Hm|Hm]].
        -- apply (Hin m c). rewrite Et. apply in_or_app. auto.
        -- inversion Hm; subst. exact Hin'.
        -- apply (Hin m c). rewrite Et. apply in_or_app. right. right. exact Hm.
      * intros Hd m Hm. specialize (Hall (Hdiff Hd)). rewrite values_of_app. destruct (list_eq_dec Z.eq_dec m n) as [->|Hne].
        -- rewrite values_of_same, column_snoc by (apply values_of_some; exact Hin'). pose proof (Hall n Hin') as HI.
           assert (ty = column_type (values_of n l)). { apply (good_unique t n); [exact Hg| |exact HI]. rewrite Et. apply in_or_app. right. left. reflexivity. }
           subst ty. apply in_or_app. right. left. reflexivity.
        -- rewrite values_of_other by exact Hne. rewrite app_nil_r. rewrite map_app in Hm. apply in_app_or in Hm. destruct Hm as [Hm|[Hm|[]]]; [|cbn in Hm; congruence].
           specialize (Hall m Hm). rewrite Et in Hall. apply in_app_or in Hall. apply in_or_app. destruct Hall as [Ha|[Ha|Ha]]; [left; exact Ha|congruence|right; right; exact Ha].
    + intros _. assert (La : M = zlen a /\ 0 <= M < zlen (a ++ (n, XBT_Detect2 v ty) :: b)).
      { split; [|rewrite zlen_app, zlen_cons; rewrite Et, zlen_app, zlen_cons in HM; exact HM].
        destruct (Z.eq_dec M (zlen a)) as [|Hne]; [assumption|]. exfalso. rewrite Et in E. unfold good in Hg. rewrite Et in Hg.
        destruct (nth_names t M HM) as (x & y & E1 & E2 & _). rewrite Et in E1. rewrite E in E1. inversion E1; subst x y.
        assert (Ea : nth_error (names t) (Z.to_nat (zlen a)) = Some n).
        { rewrite Et. unfold names. rewrite map_app, nth_error_app2 by (rewrite map_length; unfold zlen; lia). rewrite map_length. unfold zlen. rewrite Nat2Z.id, Nat.sub_diag. reflexivity. }
        rewrite <- Et in Hg. pose proof (zlen_nonneg a). destruct (Z_lt_le_dec M (zlen a)).
        - apply (before_irrefl n). apply (sorted_nth _ Hg (Z.to_nat M) (Z.to_nat (zlen a))); [lia|exact E2|exact Ea].
        - apply (before_irrefl n). apply (sorted_nth _ Hg (Z.to_nat (zlen a)) (Z.to_nat M)); [lia|exact Ea|exact E2]. }
      destruct La as [-> HL]. split; [exact HL|]. unfold name_at. pose proof (zlen_nonneg a). destruct (Z.ltb_spec (zlen a) 0); [lia|].
      rewrite nth_error_app2 by (unfold zlen; lia). unfold zlen at 1. rewrite Nat2Z.id, Nat.sub_diag. reflexivity.
  - assert (Hnotin : forall c, ~ In (n, c) t).
    { intros c Hc. rewrite <- (ztake_zskip P t) in Hc. apply in_app_or in Hc. destruct Hc as [Hc|Hc]; [apply Hlo in Hc|apply Hhi in Hc]; exact (before_irrefl n Hc). }
    destruct (Z.leb_spec MAX_SYMBOL_COUNT (zlen t)) as [Hm|Hm].
    + exists (-1), t. split; [reflexivity|].
      assert (Hover : ~ different (map fst (l ++ [(n, v)])) <= MAX_SYMBOL_COUNT).
      { intros Hd. pose proof (Hdiff Hd) as Hd'. specialize (Hall Hd'). pose proof (table_size t l Hg Hin).
        rewrite map_app in Hd. cbn [map fst] in Hd. rewrite different_snoc in Hd. destruct (in_dec (list_eq_dec Z.eq_dec) n (map fst l)) as [Hi|Hi]; [|lia].
        exact (Hnotin _ (Hall n Hi)). }
      split; [|intros Hd; contradiction]. split; [exact Hg|]. split; [exact Hs|]. split; [|intros Hd; contradiction].
      intros m c Hc. rewrite map_app. apply in_or_app. left. eauto.
    + destruct (Z.ltb_spec P 0); [lia|]. destruct (Z.ltb_spec (zlen t) P); [lia|]. cbn [orb].
      exists P, (ztake P t ++ [(n, XBT_Detect v)] ++ zskip P t). split; [reflexivity|].
      assert (Hz : zlen (ztake P t ++ [(n, XBT_Detect v)] ++ zskip P t) = zlen t + 1).
      { rewrite !zlen_app, zlen_take, zlen_skip by lia. change (zlen [(n, XBT_Detect v)]) with 1. lia. }
      split.
      * split; [apply insert_good; assumption|]. split; [lia|]. split.
        -- intros m c Hc. rewrite map_app. apply in_or_app. apply in_app_or in Hc. destruct Hc as [Hc|[Hc|Hc]].
           ++ left. apply (Hin m c). rewrite <- (ztake_zskip P t). apply in_or_app. auto.
           ++ right. inversion Hc. left. reflexivity.
           ++ left. apply (Hin m c). rewrite <- (ztake_zskip P t). apply in_or_app. auto.
        -- intros Hd m Hm'. specialize (Hall (Hdiff Hd)). rewrite values_of_app. destruct (list_eq_dec Z.eq_dec m n) as [->|Hne].
           ++ rewrite values_of_same. rewrite values_of_none by (intros Hi; exact (Hnotin _ (Hall n Hi))). cbn [app column_type fold_left]. apply in_or_app. right. left. reflexivity.
           ++ rewrite values_of_other by exact Hne. rewrite app_nil_r. rewrite map_app in Hm'. apply in_app_or in Hm'. destruct Hm' as [Hm'|[Hm'|[]]]; [|cbn in Hm'; congruence].
              specialize (Hall m Hm'). rewrite <- (ztake_zskip P t) in Hall at 1. apply in_app_or in Hall. apply in_or_app. destruct Hall as [Ha|Ha]; [left; exact Ha|right; right; exact Ha].
      * intros _. split; [lia|]. unfold name_at. destruct (Z.ltb_spec P 0); [lia|].
        assert (HlP : List.length (ztake P t) = Z.to_nat P) by (unfold ztake; rewrite firstn_length; unfold zlen in HP; lia).
        rewrite nth_error_app2 by lia. rewrite HlP, Nat.sub_diag. reflexivity.
Qed.

Lemma register_app l : forall t l0, holds t l0 -> exists t', register t l = rret t' /\ holds t' (l0 ++ l).
Proof.
  induction l as [|[n v] l IH]; intros t l0 H; cbn [register].
  - exists t. rewrite app_nil_r. auto.
  - destruct (register_one t l0 n v H) as (i & t1 & -> & H1 & _). rb. destruct (IH t1 (l0 ++ [(n, v)]) H1) as (t2 & E & H2). exists t2. split; [exact E|].
    rewrite <- app_assoc in H2. exact H2.
Qed.

Lemma holds_nil : holds [] [].
Proof. split; [constructor|]. split; [vm_compute; discriminate|]. split; [intros n ty []|intros _ n []]. Qed.

Lemma register_ok (l : list (list Z * list Z)) : exists t, register [] l = rret t /\ strictly_ordered (map fst t) /\ zlen t <= 32768 /\
  (forall n ty, In (n, ty) t -> In n (map fst l)) /\
  (different (map fst l) <= 32768 -> forall n, In n (map fst l) -> In (n, column_type (values_of n l)) t).
Proof. destruct (register_app l [] [] holds_nil) as (t & E & H). exists t. split; [exact E|]. exact H. Qed.

Lemma register_holds l t : register [] l = rret t -> holds t l.
Proof. intros E. destruct (register_app l [] [] holds_nil) as (t' & E' & H). rewrite E in E'. inversion E'; subst. exact H. Qed.

Lemma find_registered l t s : register [] l = rret t -> s <> lit "et-tecera" ->
  exists i, Find (Some s) t = rret i /\
   ((In s (map fst t) /\ 0 <= i <= 32767 /\ name_at t i = Ok s) \/ (~ In s (map fst t) /\ i = -1)).
Proof.
  intros E Hs. pose proof (register_holds l t E) as (Hg & Hsz & _). unfold MAX_SYMBOL_COUNT in Hsz. destruct (find_ok s t Hg Hs) as (i & Ei & [[Hi Hn]|[-> Hn]]); exists i || exists (-1); split; auto.
  left. split; [|split; [lia|exact Hn]]. destruct (nth_names t i Hi) as (n & ty & E1 & E2 & E3). rewrite Hn in E3. inversion E3; subst. apply nth_error_In in E2. exact E2.
Qed.

Lemma add_index l t n v : register [] l = rret t -> different (map fst (l ++ [(n, v)])) <= 32768 ->
  exists i t', FindOrAdd (Some n) t v = rret (i, t') /\ 0 <= i <= 32767 /\ name_at t' i = Ok n.
Proof.
  intros E Hd. destruct (register_one t l n v (register_holds l t E)) as (i & t' & E1 & (_ & Hs & _) & H). exists i, t'. split; [exact E1|]. destruct (H Hd) as [Hi Hn]. unfold MAX_SYMBOL_COUNT in Hs. split; [lia|exact Hn].
Qed.

Lemma add_full l t n v : register [] l = rret t -> zlen t = 32768 -> ~ In n (map fst t) -> FindOrAdd (Some n) t v = rret (-1, t).
Proof.
  intros E Hz Hn. destruct (register_holds l t E) as (Hg & _). unfold FindOrAdd, find_or_add. destruct (table_search n t Hg) as [(M & ty & -> & HM & E1)|(P & -> & _)]; rb.
  - exfalso. apply Hn. apply nth_error_In in E1. apply (in_map fst) in E1. exact E1.
  - rewrite Hz. reflexivity.
Qed.

Lemma typed_ok t n ty : strictly_ordered (map fst t) -> zlen t < 32768 ->
  exists i t', FindOrAddTyped (Some n) t ty = rret (i, t') /\ strictly_ordered (map fst t') /\ name_at t' i = Ok n /\ 0 <= i <= 32767 /\
  (forall m, In m (map fst t') <-> m = n \/ In m (map fst t)) /\
  (forall m a, m <> n -> (In (m, a) t <-> In (m, a) t')) /\
  (forall a, In (n, a) t -> In (n, XBT_JoinTypes ty a) t') /\ (~ In n (map fst t) -> In (n, ty) t').
Proof.
  intros Hg Hz. fold (names t) in Hg. fold (good t) in Hg. unfold FindOrAddTyped, find_or_add. destruct (table_search n t Hg) as [(M & ty0 & -> & HM & E)|(P & -> & HP & Hlo & Hhi)]; rb.
  - assert (E' := nth_split_z t M _ (proj1 HM) E). set (f := fun a => XBT_JoinTypes ty a). assert (Es : set_type t M f = ztake M t ++ [(n, f ty0)] ++ zskip (M + 1) t) by (unfold set_type; rewrite E; reflexivity).
    exists M, (set_type t M f). split; [reflexivity|]. rewrite Es. set (a := ztake M t) in *. set (b := zskip (M + 1) t) in *.
    assert (La : List.length a = Z.to_nat M) by (subst a; unfold ztake; rewrite firstn_length; unfold zlen in HM; lia). clearbody a b.
    assert (Em : map fst (a ++ [(n, f ty0)] ++ b) = map fst t) by (rewrite E', !map_app; reflexivity).
    rewrite Em. split; [exact Hg|]. split; [unfold name_at; destruct (Z.ltb_spec M 0); [lia|]; rewrite nth_error_app2 by lia; rewrite La, Nat.sub_diag; reflexivity|].
    split; [lia|]. assert (Hi : In (n, ty0) t) by (apply nth_error_In in E; exact E). split; [|split; [|split]].
    + intros m. split; [auto|]. intros [->|H]; [apply (in_map fst) in Hi; exact Hi|exact H].
    + intros m c Hne. rewrite E'. rewrite !in_app_iff. cbn. split; intros [?|[[?|[]]|?]]; auto; congruence.
    + intros c Hc. assert (c = ty0) by (apply (good_unique t n); assumption). subst c. apply in_or_app. right. left. reflexivity.
    + intros Hn. exfalso. apply Hn. apply (in_map fst) in Hi. exact Hi.
  - destruct (Z.leb_spec MAX_SYMBOL_COUNT (zlen t)) as [Hm|_]; [unfold MAX_SYMBOL_COUNT in Hm; lia|]. destruct (Z.ltb_spec P 0); [lia|]. destruct (Z.ltb_spec (zlen t) P); [lia|]. cbn [orb].
    exists P, (ztake P t ++ [(n, ty)] ++ zskip P t). split; [reflexivity|]. split; [apply (insert_good t P n ty Hg Hlo Hhi)|]. split.
    { unfold name_at. destruct (Z.ltb_spec P 0); [lia|]. assert (HlP : List.length (ztake P t) = Z.to_nat P) by (unfold ztake; rewrite firstn_length; unfold zlen in HP; lia).
      rewrite nth_error_app2 by lia. rewrite HlP, Nat.sub_diag. reflexivity. }
    split; [lia|]. assert (Ht : forall x, In x t <-> In x (ztake P t) \/ In x (zskip P t)) by (intros x; rewrite <- in_app_iff, ztake_zskip; reflexivity).
    assert (Hno : forall c, ~ In (n, c) t) by (intros c Hc; apply Ht in Hc; destruct Hc as [Hc|Hc]; [apply Hlo in Hc|apply Hhi in Hc]; exact (before_irrefl n Hc)).
    split; [|split; [|split]].
    + intros m. rewrite <- (ztake_zskip P t) at 3. rewrite !map_app, !in_app_iff. cbn. split; [intros [?|[[?|[]]|?]]|intros [?|[?|?]]]; auto.
    + intros m c Hne. rewrite Ht. rewrite !in_app_iff. cbn. split; [intros [?|?]|intros [?|[[?|[]]|?]]]; auto; congruence.
    + intros c Hc. destruct (Hno c Hc).
    + intros _. apply in_or_app. right. left. reflexivity.
Qed.

Lemma et_tecera_reserved : exists l t, register [] l = rret t /\ In (lit "et-tecera") (map fst t) /\ Find (Some (lit "et-tecera")) t = rret (-9).
Proof. exists [(lit "et-tecera", [])]. eexists. split; [vm_compute; reflexivity|]. split; [left; reflexivity|apply find_et_tecera]. Qed.

(** 32768 names of two bytes 1..255. *)
Definition many (n : nat) : list (list Z * list Z) := map (fun k => ([k / 200 + 1; k mod 200 + 1], [])) (map Z.of_nat (seq 0 n)).
Lemma full_with N : Z.of_nat N = 32768 -> exists l t, register [] l = rret t /\ zlen t = 32768.
Proof.
  intros HN. destruct (register_ok (many N)) as (t & E & Ho & Hz & Hin & Hall). exists (many N), t. split; [exact E|].
  assert (Hn : NoDup (map fst (many N))).
  { unfold many. rewrite !map_map. cbn [fst]. apply FinFun.Injective_map_NoDup; [|apply seq_NoDup]. intros a b Hab. inversion Hab. lia. }
  assert (Hl : zlen (map fst (many N)) = 32768).
  { unfold many, zlen. rewrite !map_length, seq_length. exact HN. }
  assert (Hd : different (map fst (many N)) = 32768) by (unfold different; rewrite nodup_fixed_point by exact Hn; exact Hl).
  assert (zlen t >= 32768); [|lia]. rewrite <- Hl. rewrite <- (zlen_map fst t). unfold zlen. apply Z.le_ge, inj_le. apply NoDup_incl_length; [exact Hn|].
  intros n Hi. specialize (Hall ltac:(lia) n Hi). apply (in_map fst) in Hall. exact Hall.
Qed.
Lemma full_met : exists l t, register [] l = rret t /\ zlen t = 32768.
Proof. apply (full_with (Z.to_nat 32768)). apply Z2Nat.id. discriminate. Qed.
