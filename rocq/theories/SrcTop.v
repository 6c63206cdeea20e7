(** What goes wrong when sources are printed. *)
From Verif Require Import Base BaseFacts Types BwFileProofs ScalarProofs RingProofs Sort DocSpec ReadSpec XmlOut XmlSpec Xb XbWrite XbBin Bw BwSpec BwHist BwSym BwNamesSpec BwLifeSpec BwSource BwSourceSpec BwExamples BwFileExamples BwNamesTop BwSetExamples BwAttrExamples SrcStream SrcSpec SrcLayout SrcExamples.

Lemma hex_spoils : exists k s m T P F x name v fl buf text, life k s m T P F /\ p_root m = Ok x /\ tree_at k s m T P F x (BNode name XBT_HEX v [] []) /\ complete XBT_HEX v /\ xml_name name /\ floats_ok fl /\ 256 < zlen buf /\
  pool_print 9 fl buf m = rret text /\ In 0 text /\ XmlSpec.says text = None.
Proof.
  exists kh, sh, h3, tags1, params4, Fh, hex, (lit "root"), [2; 0; 0; 0; 1; 171; 0; 0], nofl, (zrepeat 0 257), (lit "<root>01ab" ++ [10; 0] ++ lit "</root>" ++ [10]).
  split; [exact h3_life|]. split; [vm_compute; reflexivity|]. split; [exact h3_tree|]. split; [right; left; split; [cbn; auto|vm_compute; discriminate]|].
  split; [split; [exists 114, (lit "oot"); split; reflexivity|reflexivity]|]. split; [exact nofl_ok|]. split; [reflexivity|]. split; [vm_compute; reflexivity|]. split; [vm_compute; tauto|]. vm_compute; reflexivity.
Qed.
Lemma value_lost : exists t fl buf text, (forall u, In u (elements t) -> expressible u) /\ value_of t <> None /\ 256 < zlen buf /\ text_stream 9 fl buf t 0 0 = rret text /\
  XmlSpec.says text <> None /\ XmlSpec.says text <> Some (normal t).
Proof. exists word, nofl, (zrepeat 0 257), (lit "<root/>" ++ [10]). split; [exact word_expressible|]. repeat split; try reflexivity; vm_compute; discriminate. Qed.
Lemma unknown_aborts fl chunks data buf : (0 < chunks)%nat -> 256 < zlen buf -> XBT_ToXMLStream fl chunks XBT_UNKNOWN data buf = rub.
Proof. intros C B. destruct chunks as [|chunks]; [lia|]. unfold XBT_ToXMLStream. cbn [chunk_loop]. unfold XBT_ToStringChunk. rewrite guard by assumption. reflexivity. Qed.
Lemma children_abort (chunks : nat) (fl : floats) (buf : list Z) (t : node) (deep siblings : Z) : (0 < chunks)%nat -> 256 < zlen buf -> kids_of t <> [] -> text_stream chunks fl buf t deep siblings = rub.
Proof.
  intros C B. revert deep siblings. induction t as [n v a k IH] using WriteProofs.node_ind'. intros deep siblings K. cbn [kids_of] in K. cbn [text_stream].
  assert (KID : forall L, Forall (fun t => forall deep siblings, kids_of t <> [] -> text_stream chunks fl buf t deep siblings = rub) L -> forall count, exists ks,
    (fix children (L : list node) (count : Z) : run (list Z) :=
    match L with
    | [] => rret []
    | y :: L => rbind (text_stream chunks fl buf y (deep + 1) count) (fun s => rbind (children L (count + 1)) (fun r => rret (s ++ r)))
    end) L count = ks /\ (ks = rub \/ exists w, ks = rret w)).
  { induction 1 as [|y L HY _ IHL]; intro count; [eexists; split; [reflexivity|right; eauto]|]. destruct (IHL (count + 1)) as (ks & E & H). rewrite E.
    assert (Y : text_stream chunks fl buf y (deep + 1) count = rub \/ exists w, text_stream chunks fl buf y (deep + 1) count = rret w).
    { destruct y as [n' v' a' [|z k']]; [right; eexists; reflexivity|left; apply HY; discriminate]. }
    destruct Y as [->|(w & ->)]; [eexists; split; [reflexivity|left; reflexivity]|]. rewrite rbind_rret. destruct H as [->|(w' & ->)]; [eexists; split; [reflexivity|left; reflexivity]|]. rewrite rbind_rret. eexists. split; [reflexivity|right; eauto]. }
  destruct (KID k IH 0) as (ks & E & H). rewrite E. destruct H as [->|(w & ->)]; [reflexivity|]. rewrite rbind_rret. replace (zlen k =? 0) with false by (destruct k; [contradiction|]; unfold zlen; cbn [List.length]; lia). rewrite unknown_aborts by assumption. reflexivity.
Qed.
Lemma lone_printed (chunks : nat) (fl : floats) (buf : list Z) (t : node) : kids_of t = [] -> value_of t = None -> expressible t -> exists text, text_stream chunks fl buf t 0 0 = rret text /\ XmlSpec.says text = Some t.
Proof.
  destruct t as [n v a k]. cbn [kids_of value_of]. intros -> -> H. exists (slayout 0 (Node n None a [])). split.
  - cbn [text_stream]. rewrite rbind_rret. change (zlen (@nil node) =? 0) with true. cbv beta iota zeta. unfold slayout, rret. cbn [sbare]. do 2 f_equal. rewrite app_nil_r, <- !app_assoc. reflexivity.
  - rewrite slayout_says; [reflexivity|]. intros u [<-|[]]. exact H.
Qed.
Lemma lone_expressible : expressible (Node (lit "root") None [(lit "id", lit "<9>")] []).
Proof.
  split; [split; [exists 114, (lit "oot"); split; reflexivity|reflexivity]|]. split; [repeat constructor; intros []|]. split; [|intros v X; discriminate X]. intros a [<-|[]]. split; [split; [exists 105, (lit "d"); split; reflexivity|reflexivity]|]. intros c I. cbn in I. intuition lia.
Qed.
