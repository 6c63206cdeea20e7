(** C80: choosing the source and the result of a conversion. *)
From Verif Require Import Base Text Creator CreatorSpec CreatorProofs.

(** The source is chosen by the extension, and by nothing else; pools are a source if the library is built with them. *)
Theorem C80_source : forall pools path k, selector pools path = Some k <-> (exists base e, path = base ++ e /\ In (e, k) extensions) /\ (k = PoolSource -> pools = true).
Proof. exact selector_any. Qed.
Print Assumptions C80_source.
(** A conversion of files with a known source makes what was asked for, in the file with the name given and the extension of the result (C25). *)
Theorem C80_target_partial : forall pools src dst t k, selector pools src = Some k -> exists c base, creator_by_name pools src (Some dst) t = Ok c /\
  AllocFilenameChangeExt dst (Some (result_extension t)) None = Ok (base ++ result_extension t) /\ DoAll c = Ok (Some (t, (k, src), base ++ result_extension t)).
Proof. exact by_name_converts. Qed.
Print Assumptions C80_target_partial.
(** The same for a source that is given; without a name for the result it is that of the source. *)
Theorem C80_given_partial : forall src dst t, exists c base, creator_by_source src dst t = Ok c /\
  AllocFilenameChangeExt (match dst with Some d => d | None => snd src end) (Some (result_extension t)) None = Ok (base ++ result_extension t) /\ DoAll c = Ok (Some (t, src, base ++ result_extension t)).
Proof. exact by_source_converts. Qed.
Print Assumptions C80_given_partial.
Example C80_met : selector true (lit "in.d/a.json") = Some JsonSource /\ exists c, creator_by_name true (lit "in.d/a.json") (Some (lit "out/b.raw")) TargetXb = Ok c /\
  DoAll c = Ok (Some (TargetXb, (JsonSource, lit "in.d/a.json"), lit "out/b.xb")).
Proof. split; [vm_compute; reflexivity|]. eexists. split; vm_compute; reflexivity. Qed.
(** Without a name for the result nothing happens. *)
Theorem C80_nothing : forall pools src t, (exists c, creator_by_name pools src None t = Ok c /\ DoAll c = Ok None) /\ forall s, DoAll (mkcr s (Some [])) = Ok None.
Proof. intros. split; [eexists; split; reflexivity|reflexivity]. Qed.
Print Assumptions C80_nothing.
(** A file of an unknown kind, or with an extension in capitals: the conversion does not fail but calls a null pointer. *)
Theorem C80_unknown_refuted : exists c, creator_by_name true (lit "A.XML") (Some (lit "b")) TargetXb = Ok c /\ DoAll c = Ub.
Proof. eexists. split; vm_compute; reflexivity. Qed.
Print Assumptions C80_unknown_refuted.
(** The constructor without a destination uses the member before it is set. *)
Theorem C80_no_destination_refuted : forall src t, creator_without_dst src t = Ub.
Proof. reflexivity. Qed.
Print Assumptions C80_no_destination_refuted.
(** A pool converted into a pool without another name is written over itself. *)
Theorem C80_itself_refuted : exists c, creator_by_source (PoolSource, lit "a.xbw") None TargetXbw = Ok c /\ DoAll c = Ok (Some (TargetXbw, (PoolSource, lit "a.xbw"), lit "a.xbw")).
Proof. eexists. split; vm_compute; reflexivity. Qed.
Print Assumptions C80_itself_refuted.
