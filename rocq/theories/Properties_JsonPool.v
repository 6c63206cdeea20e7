(** C92: converting a JSON text into a writable pool. *)
From Verif Require Import Base Types Sort Xb XbWrite Bw BwFile BwMake BwMakeExamples BwKeysExamples Jsmn JsonSpec JsonMake JsonMakeExamples JsonPool JsonPoolProofs JsonPoolExamples.

(** No conversion of a JSON text into a pool succeeds, whatever the text, the compiler, the file and the disk: the outermost value has no name, and an element without a name is not stored. *)
Theorem C92_refuted : forall o fl fuel disk js fill f ok f', JsonMake_xbw o fl fuel disk js fill f = rret (ok, f') -> ok = false.
Proof. exact no_json_pool. Qed.
Print Assumptions C92_refuted.
(** A well-formed text, the one of C76_met; what the pool file had before is lost. *)
Theorem C92_lost_refuted : forall fl o, json list3 /\ keyed list3 /\ Make_xbw fl0 0 true 100 plain_doc [] = rret (true, old_pool) /\ (exists x, p_root old_pool = Ok x /\ x <> 0) /\
  exists m, JsonMake_xbw o fl 200 true (vtext list3) (zrepeat 170 60) old_pool = rret (false, m) /\ p_root m = Ok 0.
Proof. intros fl o. destruct list3_json as [J K]. split; [exact J|]. split; [exact K|]. destruct old_made as [M R]. split; [exact M|]. split; [exact R|apply old_lost]. Qed.
Print Assumptions C92_lost_refuted.
(** The file keeps its bytes if the text is refused. *)
Theorem C92_partial : forall o fl fuel disk js fill f, Jsmn.Initialize fuel js fill = rret None -> JsonMake_xbw o fl fuel disk js fill f = rret (false, f).
Proof. intros o fl fuel disk js fill f E. unfold JsonMake_xbw. rewrite E. reflexivity. Qed.
Print Assumptions C92_partial.
Example C92_partial_met : Jsmn.Initialize 20 (lit "{""a"":[1}") (zrepeat 170 20) = rret None.
Proof. vm_compute. reflexivity. Qed.
