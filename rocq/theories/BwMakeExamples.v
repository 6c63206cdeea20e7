(** Small documents converted into a new pool. *)
From Verif Require Import Base Types Sort Symtab SymtabSpec Xb XbWrite Bw BwSym BwFile BwMake BwMakeSpec BwKeysExamples.

(** <a n="5"><b>7</b><c>some text</c></a> *)
Definition plain_doc := Node (lit "a") None [(lit "n", lit "5")] [Node (lit "b") (Some (lit "7")) [] []; Node (lit "c") (Some (lit "some text")) [] []].
(** <a><b/><b>1</b></a> *)
Definition half_doc := Node (lit "a") None [] [Node (lit "b") None [] []; Node (lit "b") (Some (lit "1")) [] []].
(** <a><b>3000000000</b></a> *)
Definition big_doc := Node (lit "a") None [] [Node (lit "b") (Some (lit "3000000000")) [] []].
(** <a><et-tecera/></a> *)
Definition reserved_doc := Node (lit "a") None [] [Node (lit "et-tecera") None [] []].
Definition made (r : run (bool * list Z)) : bool := match r with Some (Ok (b, _)) => b | _ => false end.
Lemma made_ok r : made r = true -> exists m, r = rret (true, m).
Proof. destruct r as [[[b m]| |]|]; cbn; try discriminate. intros ->. exists m. reflexivity. Qed.
Lemma plain_made : exists m, Make_xbw fl0 0 true 100 plain_doc [] = rret (true, m).
Proof. apply made_ok. vm_compute. reflexivity. Qed.
Lemma plain_numbered : numbered plain_doc.
Proof. split; [vm_compute; discriminate|]. split; [vm_compute; discriminate|]. split; vm_compute; intros H; repeat (destruct H as [H|H]; [discriminate|]); exact H. Qed.
Lemma half_crash fl fuel : Make_xbw fl fuel true 100 half_doc [] = Some Ub.
Proof. vm_compute. reflexivity. Qed.
Lemma big_exit fl fuel : Make_xbw fl fuel true 100 big_doc [] = Some Fail.
Proof. vm_compute. reflexivity. Qed.
Lemma large_refused fl fuel : exists m, Make_xbw fl fuel true 134213632 plain_doc [] = rret (false, m).
Proof.
  assert (H : match Make_xbw fl fuel true 134213632 plain_doc [] with Some (Ok (false, _)) => true | _ => false end = true) by (vm_compute; reflexivity).
  destruct (Make_xbw fl fuel true 134213632 plain_doc []) as [[[[|] m]| |]|]; try discriminate. exists m. reflexivity.
Qed.
Lemma reserved_dropped fl fuel : exists m x, Make_xbw fl fuel true 100 reserved_doc [] = rret (true, m) /\ p_root m = Ok x /\ x <> 0 /\ el_child m x = Ok 0.
Proof.
  assert (H : match Make_xbw fl fuel true 100 reserved_doc [] with Some (Ok (true, m)) => match p_root m with Ok x => negb (x =? 0) && match el_child m x with Ok c => c =? 0 | _ => false end | _ => false end | _ => false end = true) by (vm_compute; reflexivity).
  destruct (Make_xbw fl fuel true 100 reserved_doc []) as [[[[|] m]| |]|]; try discriminate. destruct (p_root m) as [x| |] eqn:R; try discriminate. destruct (el_child m x) as [c| |] eqn:C; try (rewrite andb_false_r in H; discriminate).
  apply andb_prop in H as [H1 H2]. exists m, x. split; [reflexivity|]. split; [exact R|]. split; [lia|]. rewrite C. f_equal. lia.
Qed.
