(** How the names of a pool are stored and what walking over them gives. *)
From Verif Require Import Base BaseFacts Types ListFacts Sort Xb XbSpec XbFacts XbWrite WriteProofs Bw BwFacts BwSpec BwHist BwAlloc BwSym BwReg BwFileSpec BwFileProofs BwNamesSpec JsonSource.

Definition esize (n : list Z) : Z := align_up 4 (zlen n + 4).
Definition entry (i : Z) (n : list Z) (ty : Z) : list Z := le 2 i ++ [ty] ++ n ++ [0] ++ zrepeat 0 (esize n - (zlen n + 4)).
Fixpoint stored (i : Z) (L : names) : list Z := match L with [] => [] | (n, ty) :: L => entry i n ty ++ stored (i + 1) L end.
Definition good (L : names) : Prop := Forall (fun e => proper (fst e) /\ 0 <= snd e < 256) L.

Lemma esize_ge n : zlen n + 4 <= esize n < zlen n + 8 /\ esize n mod 4 = 0.
Proof. unfold esize. pose proof (align4_ge (zlen n + 4)). lia. Qed.
Lemma entry_len i n ty : zlen (entry i n ty) = esize n.
Proof. unfold entry. pose proof (esize_ge n). rewrite !zlen_app, le_zlen, zlen_repeat by lia. change (zlen [ty]) with 1. change (zlen [0]) with 1. lia. Qed.
Lemma stored_mod L : forall i, zlen (stored i L) mod 4 = 0.
Proof. induction L as [|[n ty] L IH]; intro i; [reflexivity|]. cbn [stored]. rewrite zlen_app, entry_len. specialize (IH (i + 1)). pose proof (esize_ge n). lia. Qed.
Lemma stored_app L1 : forall i L2, stored i (L1 ++ L2) = stored i L1 ++ stored (i + zlen L1) L2.
Proof.
  induction L1 as [|[n ty] L1 IH]; intros i L2; [cbn [stored app]; rewrite zlen_nil, Z.add_0_r; reflexivity|]. cbn [stored app]. rewrite IH, zlen_cons, <- app_assoc. do 3 f_equal. lia.
Qed.
Lemma stored_len L : forall i j, zlen (stored i L) = zlen (stored j L).
Proof. induction L as [|[n ty] L IH]; intros i j; [reflexivity|]. cbn [stored]. rewrite !zlen_app, !entry_len, (IH (i + 1) (j + 1)). reflexivity. Qed.
Lemma stored_pos L i : L <> [] -> 8 <= zlen (stored i L) \/ exists ty, In ([], ty) L.
Proof. destruct L as [|[n ty] L]; [congruence|]. intros _. cbn [stored]. rewrite zlen_app, entry_len. pose proof (esize_ge n). pose proof (zlen_nonneg (stored (i + 1) L)). destruct n; [right; exists ty; left; reflexivity|left]. rewrite zlen_cons in *. pose proof (zlen_nonneg n). lia. Qed.

(** ** One entry *)
Lemma has_entry m p i n ty : has m p (entry i n ty) -> 0 <= i < 128 -> 0 <= ty < 256 -> cstring n ->
  entry_id m p = Ok i /\ rd_s16 m p = Ok i /\ rd_u8 m (p + 2) = Ok ty /\ has m (p + 3) (n ++ [0] ++ zrepeat 0 (esize n - (zlen n + 4))) /\ rd_str m (p + 3) = Ok n.
Proof.
  intros H I T C. unfold entry in H. apply has_app in H as [H1 H]. rewrite le_zlen in H. change (Z.of_nat 2) with 2 in H. apply has_app in H as [H2 H]. change (zlen [ty]) with 1 in H. replace (p + 2 + 1) with (p + 3) in H by lia.
  split. { unfold entry_id, rd_s8. change (le 2 i) with ([i mod 256] ++ [i / 256 mod 256]) in H1. apply has_app in H1 as [A B]. change (zlen [i mod 256]) with 1 in B.
    replace (i mod 256) with i in A by (symmetry; apply Z.mod_small; lia). replace (i / 256 mod 256) with 0 in B by lia. rewrite (has_u8 _ _ _ (ltac:(lia) : 0 <= i < 256) A), (has_u8 _ _ _ (ltac:(lia) : 0 <= 0 < 256) B). cbn [obind].
    unfold s8. change ((0 + 128) mod 256 - 128) with 0. change (0 * 256) with 0. rewrite Z.lor_0_r. f_equal. lia. }
  split; [apply has_s16; [lia|exact H1]|]. split; [apply has_u8; auto|]. split; [exact H|]. apply has_str; [exact C|]. rewrite app_assoc in H. apply has_app in H as [H _]. exact H.
Qed.
(** The bytes up to the limit *)
Lemma rd_to m p n limit : has m p (n ++ [0]) -> p + zlen n < limit -> limit <= zlen m -> exists r, rd m p (limit - p) = Ok (n ++ 0 :: r).
Proof.
  intros H L B. pose proof (has_range _ _ _ H) as [P R]. pose proof (zlen_nonneg n). replace (limit - p) with (zlen (n ++ [0]) + (limit - p - zlen (n ++ [0]))) by lia. rewrite zlen_app in *. change (zlen [0]) with 1 in *.
  rewrite rd_split by lia. assert (E := has_rd _ _ _ H). rewrite zlen_app in E. change (zlen [0]) with 1 in E. rewrite E. cbn [obind]. destruct (rd_some m (p + (zlen n + 1)) (limit - p - (zlen n + 1))) as (r & F); [lia|lia|]. rewrite F. cbn [obind]. exists r. rewrite <- app_assoc. reflexivity.
Qed.
Lemma to_nul_ok m p n limit : has m p (n ++ [0]) -> cstring n -> p + zlen n < limit -> limit <= zlen m -> to_nul m p limit = Ok (p + zlen n).
Proof.
  intros H C L B. pose proof (zlen_nonneg n). unfold to_nul. destruct (Z.leb_spec limit p); [lia|]. destruct (rd_to m p n limit H L B) as (r & E). rewrite E. cbn [obind]. rewrite cstr_app by exact C. reflexivity.
Qed.
Lemma align_entry p n : p mod 4 = 0 -> align_up 4 (p + 3 + zlen n + 1) = p + esize n.
Proof. intro M. unfold esize, align_up. assert (p = 4 * (p / 4)) by lia. lia. Qed.

(** ** getNamesSize *)
Lemma names_walk_ok m max_id limit : limit <= zlen m -> max_id < 128 -> forall L fuel p i, (List.length L < fuel)%nat -> has m p (stored i L) -> good L -> 0 <= i -> i + zlen L = max_id + 1 ->
  p + zlen (stored i L) <= limit -> p mod 4 = 0 -> names_walk fuel m max_id limit p i (i - 1) = rret (p + zlen (stored i L), max_id).
Proof.
  intros B M. induction L as [|[n ty] L IH]; intros fuel p i F H G I E PL A; (destruct fuel as [|fuel]; [cbn in F; lia|]); cbn [names_walk].
  - rewrite zlen_nil in E. replace (max_id <? i) with true by lia. cbn [stored]. rewrite zlen_nil, Z.add_0_r. reflexivity.
  - rewrite zlen_cons in E. pose proof (zlen_nonneg L). replace (max_id <? i) with false by lia. cbn [stored] in *. apply has_app in H as [H1 H2]. rewrite entry_len in H2. rewrite zlen_app, entry_len in *. pose proof (zlen_nonneg (stored (i + 1) L)). pose proof (esize_ge n). inversion G as [|? ? [[C NE] T] G2]; subst. cbn [fst snd] in *.
    apply has_entry in H1 as (ID & _ & _ & HN & _); [|lia|exact T|exact C]. rewrite ID, rbind_ok. replace (i =? i - 1 + 1) with true by lia. cbn [negb].
    rewrite app_assoc in HN. apply has_app in HN as [HN _]. rewrite (to_nul_ok _ _ _ _ HN C) by lia. rewrite rbind_ok. rewrite align_entry by exact A. specialize (IH fuel (p + esize n) (i + 1)). replace (i + 1 - 1) with i in IH by lia. rewrite IH; auto; try lia; [unfold rret; do 3 f_equal; lia|cbn in F; lia].
Qed.

(** ** Looking for an id *)
Definition off (L : names) (i : nat) : Z := zlen (stored 0 (firstn i L)).
Lemma off_S n ty L i : off ((n, ty) :: L) (S i) = esize n + off L i.
Proof. unfold off. cbn [firstn stored]. rewrite zlen_app, entry_len, (stored_len _ (0 + 1) 0). reflexivity. Qed.
Lemma off_bound L : forall i e, nth_error L i = Some e -> 0 <= off L i /\ off L i + esize (fst e) <= zlen (stored 0 L) /\ off L i mod 4 = 0.
Proof.
  intros i e E. split; [apply zlen_nonneg|]. split; [|apply stored_mod]. unfold off. rewrite <- (firstn_skipn i L) at 2. rewrite stored_app, zlen_app. apply nth_error_split in E as (l1 & l2 & -> & <-). rewrite skipn_app, skipn_all, Nat.sub_diag. cbn [skipn app]. destruct e as [n ty]. cbn [stored fst].
  rewrite zlen_app, entry_len. pose proof (zlen_nonneg (stored (0 + zlen (firstn (List.length l1) (l1 ++ (n, ty) :: l2)) + 1) l2)). lia.
Qed.
Lemma stored_at m p L i e : has m p (stored 0 L) -> nth_error L i = Some e -> has m (p + off L i) (entry (Z.of_nat i) (fst e) (snd e)).
Proof.
  intros H E. apply nth_error_split in E as (l1 & l2 & -> & <-). rewrite stored_app in H. apply has_app in H as [_ H]. destruct e as [n ty]. cbn [stored] in H. apply has_app in H as [H _]. cbn [fst snd]. unfold off. rewrite firstn_app, firstn_all, Nat.sub_diag. cbn [firstn]. rewrite app_nil_r. exact H.
Qed.
Lemma find_id_ok m max_id limit search : limit <= zlen m -> max_id < 128 -> forall L fuel p i k, (List.length L < fuel)%nat -> has m p (stored i L) -> good L -> 0 <= i -> i + zlen L = max_id + 1 ->
  p + zlen (stored i L) <= limit -> p mod 4 = 0 -> (k < List.length L)%nat -> search = i + Z.of_nat k -> find_id fuel m max_id limit search p i = rret (Some (p + off L k)).
Proof.
  intros B M. induction L as [|[n ty] L IH]; intros fuel p i k F H G I E PL A KL SE; [cbn in KL; lia|]. destruct fuel as [|fuel]; [cbn in F; lia|]. cbn [find_id].
  rewrite zlen_cons in E. pose proof (zlen_nonneg L). replace (max_id <? i) with false by lia. cbn [stored] in *. apply has_app in H as [H1 H2]. rewrite entry_len in H2. rewrite zlen_app, entry_len in *. pose proof (zlen_nonneg (stored (i + 1) L)). pose proof (esize_ge n). inversion G as [|? ? [[C NE] T] G2]; subst. cbn [fst snd] in *.
  apply has_entry in H1 as (ID & _ & _ & HN & _); [|lia|exact T|exact C]. rewrite ID, rbind_ok. destruct k as [|k].
  - replace (i =? i + Z.of_nat 0) with true by lia. unfold off. cbn [firstn stored]. rewrite zlen_nil, Z.add_0_r. reflexivity.
  - replace (i =? i + Z.of_nat (S k)) with false by lia. rewrite app_assoc in HN. apply has_app in HN as [HN _]. rewrite (to_nul_ok _ _ _ _ HN C) by lia. rewrite rbind_ok.
    replace (limit <=? p + 3 + zlen n) with false by lia. rewrite align_entry by exact A. rewrite (IH fuel (p + esize n) (i + 1) k); auto; try lia; [|cbn in *; lia..]. rewrite off_S. unfold rret. do 3 f_equal. lia.
Qed.

(** ** Looking for a name *)
Lemma common_self s r : common s (s ++ r) = zlen s.
Proof. induction s as [|x s IH]; [reflexivity|]. cbn [app common]. rewrite Z.eqb_refl, IH, zlen_cons. reflexivity. Qed.
Lemma common_bound s b : 0 <= common s b <= zlen s.
Proof. revert b. induction s as [|x s IH]; intro b; [cbn; change (zlen (@nil Z)) with 0; lia|]. destruct b as [|y b]; cbn [common]; rewrite zlen_cons; pose proof (zlen_nonneg s); [lia|]. destruct (x =? y); [specialize (IH b)|]; lia. Qed.
Lemma znth_next x l k : 0 <= k -> znth (x :: l) (1 + k) = znth l k.
Proof. intro K. unfold znth. replace (1 + k <? 0) with false by lia. replace (k <? 0) with false by lia. replace (Z.to_nat (1 + k)) with (S (Z.to_nat k)) by lia. reflexivity. Qed.
(** What is common of the name [s] and an entry with the name [n] *)
Lemma common_entry s n r : cstring s -> cstring n -> common s (n ++ 0 :: r) <= zlen n /\ (common s (n ++ 0 :: r) = zlen s -> znth (n ++ 0 :: r) (common s (n ++ 0 :: r)) = 0 -> s = n).
Proof.
  revert s. induction n as [|x n IH]; intros s C D.
  - cbn [app]. destruct s as [|y s]; cbn [common]; [split; [reflexivity|auto]|]. inversion C as [|? ? Y _]; subst. unfold is_cchar in Y. replace (y =? 0) with false by lia. rewrite zlen_cons. pose proof (zlen_nonneg s). split; [reflexivity|lia].
  - inversion D as [|? ? X D2]; subst. unfold is_cchar in X. destruct s as [|y s]; cbn [app common].
    + pose proof (zlen_nonneg (x :: n)). split; [lia|]. intros _ E. change (znth (x :: n ++ 0 :: r) 0) with x in E. lia.
    + inversion C as [|? ? Y C2]; subst. pose proof (zlen_nonneg s). pose proof (zlen_nonneg n). rewrite !zlen_cons. destruct (Z.eqb_spec y x) as [->|NE]; [|split; lia]. destruct (IH s C2 D2) as [I1 I2]. split; [lia|]. intros E1 E2. f_equal. apply I2; [lia|]. rewrite znth_next in E2 by apply common_bound. exact E2.
Qed.
Lemma find_name_ok m max_id limit s : limit <= zlen m -> max_id < 128 -> proper s -> forall L fuel p i j, (2 * List.length L < fuel)%nat -> has m p (stored i L) -> good L -> 0 <= i -> i + zlen L = max_id + 1 ->
  p + zlen (stored i L) <= limit -> p mod 4 = 0 -> (L = [] -> max_id < j) -> (L <> [] -> j <= max_id) ->
  find_name fuel m max_id limit s p j = rret (match place s L with None => None | Some k => Some (i + Z.of_nat k, p + off L k, snd (nth k L (s, 0))) end).
Proof.
  intros B M PS. induction L as [|[n ty] L IH]; intros fuel p i j F H G I E PL A J1 J2.
  { destruct fuel; [cbn in F; lia|]. cbn [find_name]. specialize (J1 eq_refl). replace (max_id <? j) with true by lia. reflexivity. }
  destruct fuel as [|fuel]; [cbn in F; lia|]. cbn [find_name]. specialize (J2 ltac:(discriminate)). replace (max_id <? j) with false by lia.
  rewrite zlen_cons in E. pose proof (zlen_nonneg L). cbn [stored] in *. apply has_app in H as [H1 H2]. rewrite entry_len in H2. rewrite zlen_app, entry_len in *. pose proof (zlen_nonneg (stored (i + 1) L)). pose proof (esize_ge n). inversion G as [|? ? [[C NE] T] G2]; subst. cbn [fst snd] in *. pose proof (zlen_nonneg n).
  apply has_entry in H1 as (ID & _ & TY & HZ & _); [|lia|exact T|exact C]. rewrite ID, rbind_ok, TY, rbind_ok. cbv zeta. replace (limit <=? p + 3) with false by lia. pose proof HZ as HN. rewrite app_assoc in HN. apply has_app in HN as [HN HP].
  destruct (rd_to m (p + 3) n limit HN) as (r & RB); [lia|exact B|]. rewrite RB, rbind_ok. destruct PS as [CS NS]. destruct (common_entry s n r CS C) as [K1 K2]. pose proof (common_bound s (n ++ 0 :: r)) as K0. set (c := common s (n ++ 0 :: r)) in *.
  replace (limit <=? p + 3 + c) with false by lia. cbn [place].
  destruct (list_eq_dec Z.eq_dec n s) as [EQ|DIF].
  - subst s. replace c with (zlen n) by (unfold c; symmetry; apply common_self). assert (Z0 : znth (n ++ 0 :: r) (zlen n) = 0). { unfold znth, zlen. destruct (_ <? 0) eqn:X; [reflexivity|]. rewrite Nat2Z.id. rewrite app_nth2 by lia. rewrite Nat.sub_diag. reflexivity. }
    rewrite Z0, !Z.eqb_refl. cbn [andb]. unfold off. cbn [firstn stored nth snd]. change (zlen (@nil Z)) with 0. replace (s16 i) with i by (unfold s16; lia). change (Z.of_nat 0) with 0. rewrite !Z.add_0_r. reflexivity.
  - destruct ((znth (n ++ 0 :: r) c =? 0) && (c =? zlen s)) eqn:MM; [exfalso; apply DIF; symmetry; apply K2; lia|].
    assert (HC : has m (p + 3 + c) (zskip c n ++ [0])). { rewrite <- (ztake_zskip c n) in HN. rewrite <- app_assoc in HN. apply has_app in HN as [_ HN]. rewrite zlen_take in HN by lia. replace (Z.min c (zlen n)) with c in HN by lia. exact HN. }
    assert (LC : zlen (zskip c n) = zlen n - c) by (rewrite zlen_skip by lia; lia).
    rewrite (to_nul_ok _ _ _ _ HC (cstring_skip _ _ C)) by lia. rewrite rbind_ok, LC. replace (p + 3 + c + (zlen n - c)) with (p + 3 + zlen n) by lia. replace (limit <=? p + 3 + zlen n) with false by lia.
    assert (NEXT : forall f j', (2 * List.length L < f)%nat -> (L = [] -> max_id < j') -> (L <> [] -> j' <= max_id) -> find_name f m max_id limit s (p + esize n) j' =
      rret match option_map S (place s L) with Some k => Some (i + Z.of_nat k, p + off ((n, ty) :: L) k, snd (nth k ((n, ty) :: L) (s, 0))) | None => None end).
    { intros f j' F' X1 X2. rewrite (IH f (p + esize n) (i + 1) j'); auto; try lia. destruct (place s L) as [k|]; cbn [option_map]; [|reflexivity]. rewrite off_S. cbn [nth]. replace (i + 1 + Z.of_nat k) with (i + Z.of_nat (S k)) by lia. rewrite Z.add_assoc. reflexivity. }
    cbn [List.length] in F. destruct (Z.eq_dec (align_up 4 (p + 3 + zlen n)) (p + esize n)) as [AE|AN].
    + rewrite AE. apply NEXT; [lia| |]; intro X; [subst L; change (zlen (@nil (list Z * Z))) with 0 in E; lia|]. destruct L; [congruence|]. rewrite zlen_cons in E. pose proof (zlen_nonneg L). lia.
    + assert (AP : align_up 4 (p + 3 + zlen n) = p + 3 + zlen n /\ esize n = zlen n + 7) by (unfold esize, align_up in *; lia). destruct AP as [-> ES]. destruct fuel as [|fuel]; [lia|]. destruct L as [|e L].
      * cbn [find_name place option_map]. rewrite zlen_nil in E. replace (max_id <? i + 1) with true by lia. reflexivity.
      * rewrite zlen_cons in E. pose proof (zlen_nonneg L). cbn [find_name]. replace (max_id <? i + 1) with false by lia.
        assert (Z4 : has m (p + 3 + zlen n) [0; 0; 0; 0]). { apply has_app in HZ as [_ HZ]. replace (esize n - (zlen n + 4)) with 3 in HZ by lia. exact HZ. }
        assert (Z1 : forall d, 0 <= d < 4 -> has m (p + 3 + zlen n + d) [0]).
        { intros d D. change [0; 0; 0; 0] with ([0] ++ [0] ++ [0] ++ [0]) in Z4. apply has_app in Z4 as [Y0 Z4]. apply has_app in Z4 as [Y1 Z4]. apply has_app in Z4 as [Y2 Y3]. change (zlen [0]) with 1 in *.
          assert (DD : d = 0 \/ d = 1 \/ d = 2 \/ d = 3) by lia. destruct DD as [->|[->|[->| ->]]]; [rewrite Z.add_0_r; exact Y0|exact Y1| |]; [replace (p + 3 + zlen n + 2) with (p + 3 + zlen n + 1 + 1) by lia; exact Y2|replace (p + 3 + zlen n + 3) with (p + 3 + zlen n + 1 + 1 + 1) by lia; exact Y3]. }
        assert (ID0 : entry_id m (p + 3 + zlen n) = Ok 0). { unfold entry_id, rd_s8. pose proof (Z1 0 ltac:(lia)) as Q0. rewrite Z.add_0_r in Q0. rewrite (has_u8 _ _ 0 ltac:(lia) Q0), (has_u8 _ _ 0 ltac:(lia) (Z1 1 ltac:(lia))). reflexivity. }
        rewrite ID0, rbind_ok, (has_u8 _ _ 0 ltac:(lia) (Z1 2 ltac:(lia))), rbind_ok. cbv zeta. replace (limit <=? p + 3 + zlen n + 3) with false by lia.
        destruct (rd_to m (p + 3 + zlen n + 3) [] limit (Z1 3 ltac:(lia))) as (r3 & R3); [change (zlen (@nil Z)) with 0; lia|exact B|]. rewrite R3, rbind_ok. cbn [app].
        assert (C0 : common s (0 :: r3) = 0). { destruct s as [|y s]; [congruence|]. inversion CS as [|? ? Y _]; subst. unfold is_cchar in Y. cbn [common]. replace (y =? 0) with false by lia. reflexivity. }
        rewrite C0, Z.add_0_r. replace (limit <=? p + 3 + zlen n + 3) with false by lia. replace (0 =? zlen s) with false by (destruct s; [congruence|rewrite zlen_cons; pose proof (zlen_nonneg s); lia]). rewrite andb_false_r.
        rewrite (to_nul_ok m _ [] limit (Z1 3 ltac:(lia)) (Forall_nil _)); [|change (zlen (@nil Z)) with 0; lia|exact B]. rewrite rbind_ok. change (zlen (@nil Z)) with 0. rewrite Z.add_0_r. replace (limit <=? p + 3 + zlen n + 3) with false by lia.
        replace (align_up 4 (p + 3 + zlen n + 3)) with (p + esize n) by (unfold align_up; lia). apply NEXT; [lia|discriminate|intros _; lia].
Qed.

(** ** With an index *)
Definition indexed m x n (L : names) : Prop := forall i e, nth_error L i = Some e -> rd_s32 m (x + 4 * Z.of_nat i) = Ok (n + off L i).
Lemma find_indexed_ok m max_id x n s L : max_id < 128 -> zlen L = max_id + 1 -> has m n (stored 0 L) -> good L -> indexed m x n L -> forall suf pre fuel, L = pre ++ suf -> (List.length suf < fuel)%nat ->
  find_indexed fuel m max_id x s (zlen pre) = rret (match place s suf with None => None | Some k => Some (zlen pre + Z.of_nat k, n + off L (List.length pre + k), snd (nth k suf (s, 0))) end).
Proof.
  intros M E H G X. induction suf as [|[nm ty] suf IH]; intros pre fuel SP F; (destruct fuel as [|fuel]; [cbn in F; lia|]); cbn [find_indexed place].
  - rewrite app_nil_r in SP. subst pre. replace (max_id <? zlen L) with true by lia. reflexivity.
  - assert (LE : zlen L = zlen pre + (1 + zlen suf)) by (rewrite SP, zlen_app, zlen_cons; reflexivity). pose proof (zlen_nonneg suf). pose proof (zlen_nonneg pre). replace (max_id <? zlen pre) with false by lia.
    assert (N : nth_error L (List.length pre) = Some (nm, ty)). { rewrite SP, nth_error_app2 by lia. rewrite Nat.sub_diag. reflexivity. }
    assert (XR := X _ _ N). rewrite (eq_refl : Z.of_nat (List.length pre) = zlen pre) in XR. rewrite XR, rbind_ok. assert (GE : proper nm /\ 0 <= ty < 256) by exact (proj1 (Forall_forall _ _) G _ (nth_error_In _ _ N)). destruct GE as [[C _] T].
    pose proof (stored_at m n L _ _ H N) as HE. cbn [fst snd] in HE. apply has_entry in HE as (_ & _ & TY & _ & ST); [|change (Z.of_nat (List.length pre)) with (zlen pre); lia|exact T|exact C]. rewrite ST, rbind_ok.
    destruct (list_eq_dec Z.eq_dec nm s) as [EQ|NE].
    + rewrite TY, rbind_ok. cbn [nth snd]. change (Z.of_nat 0) with 0. rewrite Z.add_0_r, Nat.add_0_r. replace (s16 (zlen pre)) with (zlen pre) by (unfold s16; lia). reflexivity.
    + replace (zlen pre + 1) with (zlen (pre ++ [(nm, ty)])) by (rewrite zlen_app; reflexivity). rewrite (IH (pre ++ [(nm, ty)]) fuel); [|rewrite <- app_assoc; exact SP|cbn in F; lia]. destruct (place s suf) as [k|]; cbn [option_map]; [|reflexivity].
      rewrite zlen_app, app_length. cbn [List.length nth]. change (zlen [(nm, ty)]) with 1. replace (zlen pre + 1 + Z.of_nat k) with (zlen pre + Z.of_nat (S k)) by lia. replace (List.length pre + 1 + k)%nat with (List.length pre + S k)%nat by lia. reflexivity.
Qed.
Lemma fill_index_ok max_id x n L : max_id < 128 -> zlen L = max_id + 1 -> good L -> int32 (n + zlen (stored 0 L)) -> 0 <= n -> n mod 4 = 0 -> n + zlen (stored 0 L) <= x \/ x + 4 * zlen L <= n ->
  forall suf pre m, L = pre ++ suf -> has m n (stored 0 L) -> 0 <= x -> x + 4 * zlen L <= zlen m ->
  exists m', fill_index (List.length suf) m max_id x (n + off L (List.length pre)) (n + zlen (stored 0 L)) = Ok (true, m') /\ kept m m' x (4 * zlen L) /\
    (forall i e, nth_error L i = Some e -> (List.length pre <= i)%nat \/ rd_s32 m (x + 4 * Z.of_nat i) = Ok (n + off L i) -> rd_s32 m' (x + 4 * Z.of_nat i) = Ok (n + off L i)).
Proof.
  intros M E G I32 N0 N4 AP. induction suf as [|[nm ty] suf IH]; intros pre m SP H X XB; cbn [List.length fill_index].
  - exists m. split; [reflexivity|]. split; [split; auto|]. intros i e N [C|C]; [|exact C]. rewrite app_nil_r in SP. subst pre. assert (nth_error L i <> None) by congruence. apply nth_error_Some in H0. lia.
  - assert (LE : zlen L = zlen pre + (1 + zlen suf)) by (rewrite SP, zlen_app, zlen_cons; reflexivity). pose proof (zlen_nonneg suf). pose proof (zlen_nonneg pre).
    assert (N : nth_error L (List.length pre) = Some (nm, ty)). { rewrite SP, nth_error_app2 by lia. rewrite Nat.sub_diag. reflexivity. }
    destruct (off_bound _ _ _ N) as (O0 & O1 & O4). cbn [fst] in O1. pose proof (esize_ge nm). pose proof (zlen_nonneg nm). set (o := off L (List.length pre)) in *.
    replace (n + zlen (stored 0 L) <=? n + o) with false by lia. assert (GE : proper nm /\ 0 <= ty < 256) by exact (proj1 (Forall_forall _ _) G _ (nth_error_In _ _ N)). destruct GE as [[C _] T].
    pose proof (stored_at m n L _ _ H N) as HE. cbn [fst snd] in HE. fold o in HE. apply has_entry in HE as (_ & ID & TY & HZ & _); [|change (Z.of_nat (List.length pre)) with (zlen pre); lia|exact T|exact C]. rewrite ID. cbn [obind]. rewrite (eq_refl : Z.of_nat (List.length pre) = zlen pre).
    replace ((zlen pre <? 0) || (max_id <? zlen pre)) with false by lia.
    destruct (wr_some m (x + 4 * zlen pre) (le 4 (n + o))) as (m1 & W); [lia|rewrite zlen_le4; lia|]. unfold wr32. rewrite W. cbn [obind]. pose proof W as W0. apply (wr32_kept m _ (n + o)) in W0 as (_ & _ & [L1 K1] & G1); [|unfold int32 in *; lia].
    assert (HM : has m1 n (stored 0 L)). { assert (R := has_rd _ _ _ H). rewrite <- K1 in R; [apply rd_inv in R; [apply R|apply zlen_nonneg]|apply zlen_nonneg|lia]. }
    pose proof (stored_at m1 n L _ _ HM N) as HE. cbn [fst snd] in HE. fold o in HE. apply has_entry in HE as (_ & _ & _ & _ & ST); [|change (Z.of_nat (List.length pre)) with (zlen pre); lia|exact T|exact C]. rewrite ST. cbn [obind].
    rewrite align_entry by lia. destruct (IH (pre ++ [(nm, ty)]) m1) as (m' & F & [L2 K2] & V); [rewrite <- app_assoc; exact SP|exact HM|exact X|lia|].
    assert (OS : off L (List.length (pre ++ [(nm, ty)])) = o + esize nm).
    { unfold o, off. rewrite SP. rewrite app_length. cbn [List.length]. replace (firstn (List.length pre + 1) (pre ++ (nm, ty) :: suf)) with (pre ++ [(nm, ty)]). 2:{ rewrite firstn_app_2. reflexivity. }
      rewrite firstn_app, firstn_all, Nat.sub_diag. cbn [firstn]. rewrite app_nil_r, stored_app, zlen_app. cbn [stored]. rewrite zlen_app, entry_len. change (zlen (@nil Z)) with 0. lia. }
    rewrite OS, Z.add_assoc in F. rewrite F. exists m'. split; [reflexivity|]. split; [split; [lia|]; intros q k K D; rewrite K2, K1 by lia; reflexivity|].
    intros i e NI D. apply (V i e NI). rewrite app_length. cbn [List.length]. destruct (Nat.eq_dec i (List.length pre)) as [->|NE]; [right; exact G1|]. destruct D as [D|D]; [left; lia|right]. unfold rd_s32 in *. rewrite K1 by (unfold zlen in *; lia). exact D.
Qed.
