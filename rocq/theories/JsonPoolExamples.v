(** A JSON text converted over a pool with contents. *)
From Verif Require Import Base Types Sort Symtab Xb XbWrite Bw BwSym BwFile BwMake BwKeysExamples BwMakeExamples Jsmn JsonSpec JsonMake JsonMakeExamples JsonPool.

Definition contents (r : run (bool * list Z)) : list Z := match r with Some (Ok (_, m)) => m | _ => [] end.
(** The pool of <a n="5"><b>7</b><c>some text</c></a> *)
Definition old_pool := Eval vm_compute in contents (Make_xbw fl0 0 true 100 plain_doc []).
Definition rewritten (r : run (bool * list Z)) : bool := match r with Some (Ok (false, m)) => match p_root m with Ok x => x =? 0 | _ => false end | _ => false end.
Lemma rewritten_ok r : rewritten r = true -> exists m, r = rret (false, m) /\ p_root m = Ok 0.
Proof. destruct r as [[[[|] m]| |]|]; cbn; try discriminate. destruct (p_root m) as [x| |] eqn:E; try discriminate. intros X. apply Z.eqb_eq in X. subst x. exists m. auto. Qed.
Lemma old_made : Make_xbw fl0 0 true 100 plain_doc [] = rret (true, old_pool) /\ exists x, p_root old_pool = Ok x /\ x <> 0.
Proof. split; [vm_compute; reflexivity|]. eexists. split; [vm_compute; reflexivity|discriminate]. Qed.
Lemma old_lost fl o : exists m, JsonMake_xbw o fl 200 true (vtext list3) (zrepeat 170 60) old_pool = rret (false, m) /\ p_root m = Ok 0.
Proof. apply rewritten_ok. destruct o; vm_compute; reflexivity. Qed.
