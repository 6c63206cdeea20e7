(** Symbol tables of a loaded document. *)
From Verif Require Import Base BaseFacts ListFacts Types CompareProofs Sort SortProofs Symtab SymtabSpec SymtabProofs Xb XbSpec XbFacts.
From Coq Require Import Sorted.

(** ** Looking names up *)

Lemma getID_ok m t names s : table_names m t names -> strictly_ordered names ->
  exists i, getID m t s = rret i /\
   ((0 <= i < zlen names /\ nth_error names (Z.to_nat i) = Some s) \/ (i = -1 /\ ~ In s names)).
Proof.
  intros [Hc Hn] Ho. pose proof (zlen_nonneg names) as Hz. unfold getID. rewrite Hc.
  assert (Hnth : forall i, 0 <= i < zlen names -> nth_error names (Z.to_nat i) = Some (nth (Z.to_nat i) names [])) by (intros i Hi; apply nth_error_nth'; unfold zlen in Hi; lia).
  assert (Hb : forall i j, 0 <= i < j -> j < zlen names -> before (nth (Z.to_nat i) names []) (nth (Z.to_nat j) names [])).
  { intros i j Hij Hj. apply (sorted_nth _ Ho (Z.to_nat i) (Z.to_nat j)); [lia|apply Hnth; lia|apply Hnth; lia]. }
  set (c := fun i => memcmp s (nth (Z.to_nat i) names [])).
  edestruct (search_ok (fun i => obind (symbol_at m t i) (fun n => Ok (memcmp s n))) c (zlen names)) with (fuel := S (Z.to_nat (zlen names))) (B := 0) (E := zlen names - 1)
    as [(M & E & HM & E0)|(P & E & HP & Hlo & Hhi)]; try lia.
  - intros i Hi. rewrite Hn by exact Hi. reflexivity.
  - intros i j Hij Hj H. subst c. cbv beta in *. apply memcmp_swap. destruct (Z.eq_dec (memcmp s (nth (Z.to_nat j) names [])) 0) as [E|E].
    + apply memcmp_eq in E. rewrite E. apply Hb; lia.
    + apply (before_trans _ _ _ (Hb i j Hij Hj)). apply memcmp_swap. lia.
  - intros i j Hij Hj H. subst c. cbv beta in *. apply memcmp_before. destruct (Z.eq_dec (memcmp s (nth (Z.to_nat i) names [])) 0) as [E|E].
    + apply memcmp_eq in E. rewrite E. apply Hb; lia.
    + apply (before_trans _ _ _) with (2 := Hb i j Hij Hj). apply memcmp_before. lia.
  - rewrite E. rb. exists M. split; [reflexivity|]. left. split; [exact HM|]. rewrite Hnth by exact HM. f_equal. subst c. cbv beta in E0. apply memcmp_eq in E0. symmetry. exact E0.
  - rewrite E. rb. exists (-1). split; [reflexivity|]. right. split; [reflexivity|]. intros Hi. apply In_nth_error in Hi. destruct Hi as (k & Ek).
    assert (Hk : (k < List.length names)%nat) by (apply nth_error_Some; rewrite Ek; discriminate). assert (Ek' := nth_error_nth _ _ [] Ek).
    assert (Es : c (Z.of_nat k) = 0) by (subst c; cbv beta; rewrite Nat2Z.id, Ek'; apply memcmp_eq; reflexivity).
    destruct (Z_lt_le_dec (Z.of_nat k) P) as [H|H]; [specialize (Hlo (Z.of_nat k) ltac:(lia)); lia|specialize (Hhi (Z.of_nat k) ltac:(unfold zlen; lia)); lia].
Qed.

Lemma getSymbol_inverts m t names i : table_names m t names -> strictly_ordered names -> 0 <= i < sy_count t ->
  exists s, getSymbol m t i = Ok s /\ getID m t s = rret i.
Proof.
  intros H Ho Hi. pose proof H as [Hc Hn]. rewrite Hc in Hi. exists (nth (Z.to_nat i) names []). split.
  - unfold getSymbol. destruct (Z.ltb_spec i 0); [lia|]. rewrite Hc. destruct (Z.leb_spec (zlen names) i); [lia|]. apply Hn. exact Hi.
  - destruct (getID_ok m t names (nth (Z.to_nat i) names []) H Ho) as (j & -> & [[Hj E]|[-> Hno]]).
    + f_equal. f_equal. assert (Ei : nth_error names (Z.to_nat i) = Some (nth (Z.to_nat i) names [])) by (apply nth_error_nth'; unfold zlen in Hi; lia).
      destruct (Z.lt_trichotomy i j) as [L|[->|L]]; [|reflexivity|]; exfalso; eapply before_irrefl.
      * apply (sorted_nth _ Ho (Z.to_nat i) (Z.to_nat j)); [lia|exact Ei|exact E].
      * apply (sorted_nth _ Ho (Z.to_nat j) (Z.to_nat i)); [lia|exact E|exact Ei].
    + exfalso. apply Hno. apply nth_In. unfold zlen in Hi. lia.
Qed.

(** ** Loading *)

(** What Load has seen of name [i]. *)
Definition name_inside (m : list Z) (c refs lo hi i : Z) : Prop :=
  exists r s, rd_s32 m (refs + 4 * i) = Ok r /\ rd_str m (c + r) = Ok s /\ lo <= c + r /\ c + r + zlen s + 1 <= hi.

Lemma cstr_length l : zlen (cstr l) <= zlen l.
Proof. induction l as [|x l IH]; [reflexivity|]. cbn [cstr]. destruct (x =? 0); rewrite ?zlen_cons; [change (zlen (@nil Z)) with 0; pose proof (zlen_nonneg l); lia|lia]. Qed.
Lemma cstr_take n l : zlen (cstr (ztake n l)) < n -> zlen (cstr (ztake n l)) < zlen l -> cstr l = cstr (ztake n l).
Proof.
  unfold ztake. destruct (Z_lt_le_dec n 0) as [Hn|Hn]; [intros H; pose proof (zlen_nonneg (cstr (firstn (Z.to_nat n) l))); lia|].
  assert (Hk : exists k, n = Z.of_nat k) by (exists (Z.to_nat n); lia). destruct Hk as (k & ->). rewrite Nat2Z.id. clear Hn. rename k into n. revert l.
  induction n as [|n IH]; intros l H H'; [pose proof (zlen_nonneg (cstr (firstn 0 l))); lia|]. destruct l as [|x l]; [reflexivity|]. cbn [firstn cstr] in *. destruct (x =? 0); [reflexivity|]. rewrite !zlen_cons in *. f_equal. apply IH; lia.
Qed.

Lemma strnlen_inv m p max len : strnlen_ m p max = Ok len -> len < max -> exists s, rd_str m p = Ok s /\ zlen s = len.
Proof.
  unfold strnlen_. intros H Hl. destruct (Z.ltb_spec p 0); [discriminate|]. cbv zeta in H. destruct (Z.eqb_spec (zlen (cstr (ztake max (zskip p m)))) max) as [E|E]; cbn [orb] in H.
  - inversion H. lia.
  - destruct (Z.ltb_spec (p + zlen (cstr (ztake max (zskip p m)))) (zlen m)) as [Hi|]; [|discriminate]. inversion H as [E'].
    assert (Ec : cstr (zskip p m) = cstr (ztake max (zskip p m))) by (apply cstr_take; [lia|rewrite zlen_skip by lia; lia]).
    exists (cstr (zskip p m)). rewrite <- Ec in *. split; [|reflexivity]. unfold rd_str. destruct (Z.leb_spec 0 p); [|lia]. pose proof (zlen_nonneg (cstr (zskip p m))). destruct (Z.ltb_spec p (zlen m)); [|lia]. cbn [andb].
    destruct (Z.ltb_spec (p + zlen (cstr (zskip p m))) (zlen m)); [reflexivity|lia].
Qed.

Lemma strnlen_le m p max len : strnlen_ m p max = Ok len -> 0 <= max -> 0 <= len <= max.
Proof.
  unfold strnlen_. intros H Hm. destruct (Z.ltb_spec p 0); [discriminate|]. cbv zeta in H. destruct (_ || _); [|discriminate]. inversion H.
  pose proof (zlen_nonneg (cstr (ztake max (zskip p m)))). pose proof (cstr_length (ztake max (zskip p m))) as Hc. rewrite zlen_take in Hc by lia. lia.
Qed.

Lemma check_names_ok m c refs A0 A1 : forall n s, check_names n m c refs s A0 A1 = Ok true ->
  forall i, s <= i < s + Z.of_nat n -> name_inside m c refs A0 A1 i.
Proof.
  induction n as [|n IH]; intros s H i Hi; [lia|]. cbn [check_names] in H. destruct (rd_s32 m (refs + 4 * s)) as [r| |] eqn:E; try discriminate. cbn [obind] in H. cbv zeta in H.
  destruct (Z.ltb_spec (c + r) A0); [discriminate|]. destruct (Z.leb_spec A1 (c + r)); [discriminate|]. destruct (strnlen_ m (c + r) (A1 - (c + r))) as [len| |] eqn:El; try discriminate. cbn [obind] in H.
  destruct (Z.eqb_spec len (A1 - (c + r))) as [|Hne]; [discriminate|]. destruct (Z.eq_dec i s) as [->|His]; [|apply (IH (s + 1)); [exact H|lia]].
  pose proof (strnlen_le _ _ _ _ El ltac:(lia)). destruct (strnlen_inv _ _ _ _ El ltac:(lia)) as (str & Es & Hl). exists r, str. repeat split; try assumption; lia.
Qed.

Lemma Load_inv m c t : Load m c = Ok t -> exists x, c = Some x /\ sy_item t = x /\
  ((sy_count t = 0 /\ sy_refs t = None) \/
   (exists refs size, sy_count t <> 0 /\ sy_refs t = Some refs /\ getBinary m c = Ok (Some (refs, size)) /\
      forall i, 0 <= i < sy_count t -> name_inside m x refs (refs + 4 * sy_count t + sy_type_count t) (refs + size) i)).
Proof.
  unfold Load. intros H. destruct (getParamByName m c XPNR_COUNT) as [q| |]; try discriminate. cbn [obind] in H. destruct (param_getInt m q c) as [count| |]; try discriminate. cbn [obind] in H.
  destruct c as [c|]; [|discriminate]. exists c. split; [reflexivity|]. destruct (Z.eqb_spec count INT32_NULL); [discriminate|]. destruct (Z.eqb_spec count 0) as [E0|Hc0].
  - inversion H. cbn. auto.
  - destruct (getParamByName m (Some c) XPNR_TYPE_COUNT) as [q'| |]; try discriminate. cbn [obind] in H. destruct (param_getInt m q' (Some c)) as [tc0| |]; try discriminate. cbn [obind] in H. cbv zeta in H.
    destruct (getBinary m (Some c)) as [[[refs size]|]| |] eqn:Eb; try discriminate; cbn [obind] in H; try discriminate.
    destruct (Z.ltb_spec (refs + size) (refs + 4 * count + (if tc0 =? INT32_NULL then 0 else tc0))); [discriminate|].
    destruct (check_names (Z.to_nat count) m c refs 0 (refs + 4 * count + (if tc0 =? INT32_NULL then 0 else tc0)) (refs + size)) as [[|]| |] eqn:En; try discriminate; cbn [obind] in H; try discriminate.
    inversion H; subst t; cbn [sy_item sy_count sy_refs sy_type_count]. split; [reflexivity|]. right. exists refs, size. split; [exact Hc0|]. split; [reflexivity|]. split; [reflexivity|].
    intros i Hi. apply (check_names_ok _ _ _ _ _ _ _ En). lia.
Qed.

Lemma cstr_nonzero l : Forall (fun c => c <> 0) (cstr l).
Proof. induction l as [|x l IH]; [constructor|]. cbn [cstr]. destruct (Z.eqb_spec x 0); constructor; assumption. Qed.

Lemma loaded_name m c t i : Load m c = Ok t -> 0 <= sy_type_count t -> 0 <= i < sy_count t ->
  exists refs size p s, getBinary m c = Ok (Some (refs, size)) /\ getSymbol m t i = Ok s /\
    has m p (s ++ [0]) /\ Forall (fun x => x <> 0) s /\ refs <= p /\ p + zlen (s ++ [0]) <= refs + size.
Proof.
  intros H Ht Hi. destruct (Load_inv m c t H) as (x & -> & Ex & [[E _]|(refs & size & Hc & Er & Eb & Hn)]); [lia|].
  destruct (Hn i Hi) as (r & s & E1 & E2 & Hlo & Hhi). exists refs, size, (x + r), s. split; [exact Eb|].
  apply rd_str_inv in E2 as E3. destruct E3 as [Hs Ec]. split.
  - unfold getSymbol. destruct (Z.ltb_spec i 0); [lia|]. destruct (Z.leb_spec (sy_count t) i); [lia|]. unfold symbol_at. rewrite Er, E1. cbn [obind]. rewrite Ex. exact E2.
  - split; [exact Hs|]. split; [rewrite Ec; apply cstr_nonzero|]. rewrite zlen_app. change (zlen [0]) with 1. lia.
Qed.

(** A negative count of types moves the start of the string area before the block. *)
Definition negative_types : list Z :=
  le 2 (-3) ++ le 2 2 ++ le 4 0 ++ le 4 44 ++ (le 2 (-5) ++ [4; 0] ++ le 4 1) ++ (le 2 (-7) ++ [4; 0] ++ le 4 (-30)) ++ [3; 0; 0; 0] ++ le 4 8 ++ le 4 10 ++ [0; 0; 0; 0].
Lemma negative_types_accepted : exists t refs size p, Load negative_types (Some 0) = Ok t /\ 0 < sy_count t /\
  getBinary negative_types (Some 0) = Ok (Some (refs, size)) /\ rd_s32 negative_types refs = Ok p /\ p < refs /\
  Check 1 negative_types (mkcounts 0 0) (Some 0) false = rret true.
Proof. eexists. exists 36, 8, 10. split; [vm_compute; reflexivity|]. vm_compute. repeat split; reflexivity. Qed.

(** The size of the block is not compared with the file. *)
Definition outside_block : list Z :=
  le 2 (-3) ++ le 2 2 ++ le 4 0 ++ le 4 44 ++ (le 2 (-5) ++ [4; 0] ++ le 4 1) ++ (le 2 (-7) ++ [4; 0] ++ le 4 1) ++ [3; 0; 0; 0] ++ le 4 800 ++ le 4 42 ++ [1; 65; 66; 67].
Lemma outside_block_read : Load outside_block (Some 0) = Ub /\ Check 1 outside_block (mkcounts 0 0) (Some 0) false = rret true.
Proof. vm_compute. split; reflexivity. Qed.

Definition small_table_ : list Z :=
  le 2 (-3) ++ le 2 2 ++ le 4 0 ++ le 4 64 ++ (le 2 (-5) ++ [4; 0] ++ le 4 3) ++ (le 2 (-7) ++ [4; 0] ++ le 4 3) ++ [3; 0; 0; 0] ++ le 4 26
  ++ le 4 51 ++ le 4 53 ++ le 4 57 ++ [4; 2; 0] ++ lit "B" ++ [0] ++ lit "ite" ++ [0] ++ lit "item" ++ [0; 0; 0].
Lemma small_table_loaded : exists t, Load small_table_ (Some 0) = Ok t /\ table_names small_table_ t [lit "B"; lit "ite"; lit "item"] /\
  strictly_ordered [lit "B"; lit "ite"; lit "item"] /\ getID small_table_ t (lit "ite") = rret 1 /\ getType small_table_ t 1 = Ok XBT_STRING.
Proof.
  eexists. split; [vm_compute; reflexivity|]. split; [|split; [|split; vm_compute; reflexivity]].
  - split; [reflexivity|]. intros i Hi. change (zlen [lit "B"; lit "ite"; lit "item"]) with 3 in Hi. assert (i = 0 \/ i = 1 \/ i = 2) as [->|[->| ->]] by lia; vm_compute; reflexivity.
  - repeat constructor; apply memcmp_before; vm_compute; reflexivity.
Qed.
