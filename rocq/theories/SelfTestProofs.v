(** Proofs about the self test. *)
From Verif Require Import Base BaseFacts NumSpec Scan Base64 Dates Types SelfTest SelfTestSpec.

Lemma skipn_twice {A} (a b : nat) : forall l : list A, skipn (a + b) l = skipn a (skipn b l).
Proof. induction b as [|b IH]; intros l; [rewrite Nat.add_0_r; reflexivity|]. rewrite Nat.add_succ_r. destruct l as [|x l]; [cbn [skipn]; rewrite ?skipn_nil; reflexivity|]. cbn [skipn]. apply IH. Qed.

(** Failures are never taken back. *)
Lemma pieces_more fl fuel ty src data : forall offset so f so' f', test_pieces fl fuel ty src data offset so f = Some (Ok (so', f')) -> f <= f'.
Proof.
  induction fuel as [|k IH]; intros offset so f so' f' E; cbn [test_pieces] in E; [discriminate|].
  destruct (XBT_ToStringChunk fl ty data offset (zrepeat 0 4096)) as [c| |]; [|injection E; lia|discriminate].
  destruct (ck_ret c <=? 0); [injection E; lia|]. apply IH in E.
  destruct (zlen src <? ck_ret c + so); [lia|]. destruct (negb _) in E; lia.
Qed.

Lemma pieces_zero fl fuel ty src data : forall offset so, 0 <= so <= zlen src ->
  test_pieces fl fuel ty src data offset so 0 = Some (Ok (zlen src, 0)) -> printed fl ty data offset (zskip so src).
Proof.
  induction fuel as [|k IH]; intros offset so Hso E; cbn [test_pieces] in E; [discriminate|].
  destruct (XBT_ToStringChunk fl ty data offset (zrepeat 0 4096)) as [c| |] eqn:Ec; [| |discriminate].
  - destruct (Z.leb_spec (ck_ret c) 0) as [L|G].
    + injection E as ->. replace (zskip (zlen src) src) with (@nil Z) by (unfold zskip, zlen; rewrite Nat2Z.id, skipn_all; reflexivity). apply printed_end with c; assumption.
    + destruct (Z.ltb_spec (zlen src) (ck_ret c + so)) as [L2|G2]; [apply pieces_more in E; lia|].
      destruct (list_eq_dec Z.eq_dec _ _) as [Et|Et]; cbn [negb] in E; [|apply pieces_more in E; lia].
      specialize (IH (ck_offset c) (so + ck_ret c) ltac:(lia) E).
      replace (zskip so src) with (ztake (ck_ret c) (ck_dst c) ++ zskip (so + ck_ret c) src).
      * apply printed_piece; [exact Ec|apply (f_equal zlen) in Et; unfold zlen, ztake, zskip in *; rewrite !firstn_length, skipn_length in Et; lia|exact IH].
      * rewrite <- Et. unfold ztake, zskip. replace (Z.to_nat (so + ck_ret c)) with (Z.to_nat (ck_ret c) + Z.to_nat so)%nat by lia. rewrite skipn_twice. apply firstn_skipn.
  - injection E as ->. replace (zskip (zlen src) src) with (@nil Z) by (unfold zskip, zlen; rewrite Nat2Z.id, skipn_all; reflexivity). apply printed_refused; assumption.
Qed.

Lemma pieces_all fl ty src data offset t : printed fl ty data offset t -> forall so, 0 <= so -> t = zskip so src -> so + zlen t = zlen src ->
  exists fuel, test_pieces fl fuel ty src data offset so 0 = Some (Ok (zlen src, 0)).
Proof.
  induction 1 as [offset c Ec Hr|offset Ec|offset c t Ec Hr _ IH]; intros so Hso Et El.
  - exists 1%nat. cbn [test_pieces]. rewrite Ec. destruct (Z.leb_spec (ck_ret c) 0); [|lia]. change (zlen (@nil Z)) with 0 in El. do 3 f_equal. lia.
  - exists 1%nat. cbn [test_pieces]. rewrite Ec. change (zlen (@nil Z)) with 0 in El. do 3 f_equal. lia.
  - rewrite zlen_app in El. assert (L : zlen (ztake (ck_ret c) (ck_dst c)) = ck_ret c) by (unfold zlen, ztake in *; rewrite firstn_length; lia).
    pose proof (zlen_nonneg t). rewrite L in El. set (A := ztake (ck_ret c) (ck_dst c)) in *.
    assert (E1 : ztake (ck_ret c) (zskip so src) = A). { rewrite <- Et. unfold ztake. replace (Z.to_nat (ck_ret c)) with (List.length A) by (unfold zlen in L; lia). rewrite firstn_app, Nat.sub_diag, firstn_all. cbn [firstn]. apply app_nil_r. }
    assert (E2 : t = zskip (so + ck_ret c) src). { unfold zskip in *. replace (Z.to_nat (so + ck_ret c)) with (Z.to_nat (ck_ret c) + Z.to_nat so)%nat by lia. rewrite skipn_twice, <- Et. replace (Z.to_nat (ck_ret c)) with (List.length A) by (unfold zlen in L; lia). rewrite skipn_app, Nat.sub_diag, skipn_all. reflexivity. }
    destruct (IH (so + ck_ret c) ltac:(lia) E2 ltac:(lia)) as (k & Hk). exists (S k). cbn [test_pieces]. rewrite Ec. destruct (Z.leb_spec (ck_ret c) 0); [lia|].
    destruct (Z.ltb_spec (zlen src) (ck_ret c + so)); [lia|]. rewrite E1. fold A. destruct (list_eq_dec Z.eq_dec A A) as [_|N]; [|destruct N; reflexivity]. cbn [negb]. exact Hk.
Qed.

(** A test without failures means that the text was stored, has the expected image and is printed again. *)
Lemma test_zero fl fuel junk left ty src hex : XBT_TestType fl fuel junk left ty src hex = Some (Ok 0) ->
  exists bs, XBT_FromString fl src ty 0 (zlen src * 2) = Ok (mkstored 0 bs (zlen bs)) /\ zlen bs <= zlen src * 2 /\
    (forall h, hex = Some h -> h = Hex2Str bs) /\ printed fl ty (bs ++ zskip (zlen bs) (ztake (zlen src * 2) junk)) 0 src.
Proof.
  unfold XBT_TestType. cbv zeta. intros E. pose proof (zlen_nonneg src) as S0.
  destruct (XBT_FromString fl src ty 0 (zlen src * 2)) as [s| |] eqn:Es; [| |discriminate].
  - destruct (Z.ltb_spec (zlen src * 2) (st_wp s)) as [L|G]; [discriminate|].
    assert (F : st_pos s = 0 /\ st_wp s = zlen (st_bytes s)).
    { unfold XBT_FromString in Es. cbv zeta in Es. change (align_up 4 0) with 0 in Es. change (align_up 8 0) with 0 in Es. unfold obind in Es.
      repeat match type of Es with
      | (if ?b then _ else _) = _ => destruct b; [try discriminate; try (injection Es as <-; cbn [st_pos st_wp st_bytes]; split; lia)|]
      | match src with [] => _ | _ => _ end = _ => destruct src; [|discriminate]
      end; try discriminate;
      repeat (match type of Es with
              | context [match ?x with Ok _ => _ | Fail => _ | Ub => _ end] => destruct x as [[]| |] eqn:?
              | context [match ?x with Ok _ => _ | Fail => _ | Ub => _ end] => destruct x as [?| |] eqn:?
              | context [match ?x with pair _ _ => _ end] => destruct x as [[? ?] ?]
              | (if ?b then _ else _) = _ => destruct b
              end; try discriminate); try (injection Es as <-; cbn [st_pos st_wp st_bytes]; split; lia).
      injection Es as <-. split; reflexivity. }
    destruct F as (F1 & F2). exists (st_bytes s). destruct s as [pos bs wp]. cbn [st_pos st_wp st_bytes] in *. subst pos wp. split; [reflexivity|]. split; [lia|].
    destruct hex as [h|].
    + destruct (list_eq_dec Z.eq_dec h (Hex2Str bs)) as [Eh|Eh].
      * split; [intros h' [= <-]; exact Eh|]. destruct (test_pieces _ _ _ _ _ 0 0 0) as [[[so f]| |]|] eqn:Et; try discriminate.
        pose proof (pieces_more _ _ _ _ _ _ _ _ _ _ Et) as M. destruct (Z.eqb_spec so (zlen src)) as [->|N]; [|injection E; lia]. injection E as ->.
        apply pieces_zero in Et; [exact Et|lia].
      * destruct (test_pieces _ _ _ _ _ 0 0 (0 + 1)) as [[[so f]| |]|] eqn:Et; try discriminate. pose proof (pieces_more _ _ _ _ _ _ _ _ _ _ Et) as M. destruct (so =? zlen src); injection E; lia.
    + split; [discriminate|]. destruct (test_pieces _ _ _ _ _ 0 0 0) as [[[so f]| |]|] eqn:Et; try discriminate.
      pose proof (pieces_more _ _ _ _ _ _ _ _ _ _ Et) as M. destruct (Z.eqb_spec so (zlen src)) as [->|N]; [|injection E; lia]. injection E as ->.
      apply pieces_zero in Et; [exact Et|lia].
  - destruct (test_pieces _ _ _ _ _ 0 0 _) as [[[so f]| |]|] eqn:Et; try discriminate. pose proof (pieces_more _ _ _ _ _ _ _ _ _ _ Et) as M.
    assert (1 <= f). { destruct hex as [h|]; [destruct (list_eq_dec Z.eq_dec h _) in M|]; lia. } destruct (so =? zlen src); injection E; lia.
Qed.

Lemma test_good fl junk left ty src hex bs : XBT_FromString fl src ty 0 (zlen src * 2) = Ok (mkstored 0 bs (zlen bs)) -> zlen bs <= zlen src * 2 ->
  (forall h, hex = Some h -> h = Hex2Str bs) -> printed fl ty (bs ++ zskip (zlen bs) (ztake (zlen src * 2) junk)) 0 src ->
  exists fuel, XBT_TestType fl fuel junk left ty src hex = Some (Ok 0).
Proof.
  intros Es Hl Hh Hp. destruct (pieces_all fl ty src _ 0 src Hp 0 ltac:(lia) eq_refl ltac:(lia)) as (fuel & Hf). exists fuel.
  unfold XBT_TestType. cbv zeta. rewrite Es. cbn [st_wp st_bytes]. destruct (Z.ltb_spec (zlen src * 2) (zlen bs)); [lia|].
  assert (H0 : match hex with Some h => if list_eq_dec Z.eq_dec h (Hex2Str bs) then 0 else 0 + 1 | None => 0 end = 0).
  { destruct hex as [h|]; [|reflexivity]. destruct (list_eq_dec Z.eq_dec h (Hex2Str bs)) as [_|N]; [reflexivity|]. destruct N. apply Hh. reflexivity. }
  rewrite H0, Hf, Z.eqb_refl. reflexivity.
Qed.

(** The verdict is true exactly if every test has failed. *)
Lemma tests_verdict fl fuel junk left tests : forall ok, run_tests fl fuel junk left tests ok = Some (Ok true) ->
  ok = true /\ Forall (fun '(ty, src, hex) => exists n, XBT_TestType fl fuel junk left ty src (Some hex) = Some (Ok n) /\ n <> 0) tests.
Proof.
  induction tests as [|[[ty src] hex] ts IH]; intros ok E; cbn [run_tests] in E; [injection E as ->; auto|].
  destruct (XBT_TestType fl fuel junk left ty src (Some hex)) as [[n| |]|] eqn:En; try discriminate.
  destruct (IH _ E) as [Hok Hts]. apply andb_prop in Hok. destruct Hok as [Hn ->]. split; [reflexivity|]. constructor; [|exact Hts].
  exists n. split; [exact En|]. intros ->. discriminate.
Qed.

Lemma tests_true fl fuel junk left tests : forall ok, ok = true ->
  Forall (fun '(ty, src, hex) => exists n, XBT_TestType fl fuel junk left ty src (Some hex) = Some (Ok n) /\ n <> 0) tests -> run_tests fl fuel junk left tests ok = Some (Ok true).
Proof.
  induction tests as [|[[ty src] hex] ts IH]; intros ok -> Hf; cbn [run_tests]; [reflexivity|]. inversion Hf as [|? ? H1 Hts]; subst. cbv beta iota in H1. destruct H1 as (n & En & Hn). rewrite En.
  apply IH; [|exact Hts]. destruct (Z.eqb_spec n 0); [contradiction|reflexivity].
Qed.

Lemma tests_zero fl fuel junk left tests : forall ok, tests <> [] ->
  Forall (fun '(ty, src, hex) => XBT_TestType fl fuel junk left ty src (Some hex) = Some (Ok 0)) tests -> run_tests fl fuel junk left tests ok = Some (Ok false).
Proof.
  intros ok Hne Hf. assert (G : forall ts, Forall (fun '(ty, src, hex) => XBT_TestType fl fuel junk left ty src (Some hex) = Some (Ok 0)) ts -> run_tests fl fuel junk left ts false = Some (Ok false)).
  { induction ts as [|[[ty src] hex] ts IH]; intros H; cbn [run_tests]; [reflexivity|]. inversion H as [|? ? En Hts]; subst. cbv beta iota in En. rewrite En. apply IH. exact Hts. }
  destruct tests as [|[[ty src] hex] ts]; [contradiction|]. cbn [run_tests]. inversion Hf as [|? ? En Hts]; subst. cbv beta iota in En. rewrite En. cbn [Z.eqb negb andb]. apply G. exact Hts.
Qed.

(** The tests of the library that pass. *)
Definition passing : list (Z * list Z * list Z) :=
  firstn 13 self_tests ++ firstn 2 (skipn 16 self_tests).

Lemma vectors fl junk left : Forall (fun '(ty, src, hex) => XBT_TestType fl 3 junk left ty src (Some hex) = Some (Ok 0)) passing.
Proof. unfold passing. cbn [firstn skipn self_tests app]. repeat constructor; vm_compute; reflexivity. Qed.

Lemma never_true fl fuel junk left : (3 <= fuel)%nat -> XBT_Test fl fuel junk left <> Some (Ok true).
Proof.
  intros Hf E. apply tests_verdict in E. destruct E as [_ E]. unfold self_tests in E. inversion E as [|? ? H1 _]; subst. cbv beta iota in H1. destruct H1 as (n & En & Hn). apply Hn.
  do 3 (destruct fuel as [|fuel]; [lia|]). 
  assert (V : XBT_TestType fl (S (S (S fuel))) junk left XBT_STRING (lit "Petr Kundrata") (Some (lit "50657472204b756e647261746100")) = Some (Ok 0)) by (vm_compute; reflexivity).
  pose proof (eq_trans (eq_sym En) V) as W. injection W. auto.
Qed.

Definition fl0 : floats := mkfloats (fun _ => 0) (fun _ => []).
Lemma test_false : XBT_Test fl0 3 [] 0 = Some (Ok false).
Proof. vm_compute. reflexivity. Qed.
(** GUIDs are printed without their dashes. *)
Lemma guid_fails fl junk left : XBT_TestType fl 3 junk left XBT_GUID (lit "fcac7dbb-08c7-478d-bf97-7e595ca39aab") (Some (lit "fcac7dbb08c7478dbf977e595ca39aab")) = Some (Ok 2).
Proof. vm_compute. reflexivity. Qed.
(** A short text of a number does not leave room for the number. *)
Lemma short_text fl junk left : XBT_TestType fl 3 junk left XBT_INT32 (lit "7") None = Some Ub.
Proof. vm_compute. reflexivity. Qed.
