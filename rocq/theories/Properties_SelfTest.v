(** C85: the self test of the value types. *)
From Verif Require Import Base NumSpec Scan Types SelfTest SelfTestSpec SelfTestProofs.

(** The test of one value counts no failure exactly if the text can be stored, its image is the
    expected one, and printing what was stored gives the text again. *)
Theorem C85_partial : forall fl fuel junk left ty src hex, XBT_TestType fl fuel junk left ty src hex = Some (Ok 0) ->
  exists bs, XBT_FromString fl src ty 0 (zlen src * 2) = Ok (mkstored 0 bs (zlen bs)) /\ zlen bs <= zlen src * 2 /\
    (forall h, hex = Some h -> h = Hex2Str bs) /\ printed fl ty (bs ++ zskip (zlen bs) (ztake (zlen src * 2) junk)) 0 src.
Proof. exact test_zero. Qed.
Print Assumptions C85_partial.
Theorem C85_no_failure : forall fl junk left ty src hex bs, XBT_FromString fl src ty 0 (zlen src * 2) = Ok (mkstored 0 bs (zlen bs)) -> zlen bs <= zlen src * 2 ->
  (forall h, hex = Some h -> h = Hex2Str bs) -> printed fl ty (bs ++ zskip (zlen bs) (ztake (zlen src * 2) junk)) 0 src ->
  exists fuel, XBT_TestType fl fuel junk left ty src hex = Some (Ok 0).
Proof. exact test_good. Qed.
Print Assumptions C85_no_failure.

(** Of the nineteen values the library tests itself with, these fifteen have no failure. *)
Theorem C85_values : forall fl junk left, Forall (fun '(ty, src, hex) => XBT_TestType fl 3 junk left ty src (Some hex) = Some (Ok 0)) passing.
Proof. exact vectors. Qed.
Print Assumptions C85_values.

Example C85_met : List.length passing = 15%nat /\ List.length self_tests = 19%nat /\ In (XBT_IPv4, lit "127.0.0.1", lit "0100007f") passing.
Proof. repeat split. cbn. tauto. Qed.

(** The verdict over all values is inverted: it is true exactly if every value fails, and false
    if none does.  The self test of the library is never true. *)
Theorem C85_inverted_refuted : forall fl fuel junk left tests,
  Forall (fun '(ty, src, hex) => exists n, XBT_TestType fl fuel junk left ty src (Some hex) = Some (Ok n) /\ n <> 0) tests -> run_tests fl fuel junk left tests true = Some (Ok true).
Proof. exact (fun fl fuel junk left tests => tests_true fl fuel junk left tests true eq_refl). Qed.
Print Assumptions C85_inverted_refuted.
Theorem C85_all_pass_refuted : forall fl fuel junk left tests ok, tests <> [] ->
  Forall (fun '(ty, src, hex) => XBT_TestType fl fuel junk left ty src (Some hex) = Some (Ok 0)) tests -> run_tests fl fuel junk left tests ok = Some (Ok false).
Proof. exact (fun fl fuel junk left tests => tests_zero fl fuel junk left tests). Qed.
Print Assumptions C85_all_pass_refuted.
Theorem C85_never_true_refuted : forall fl fuel junk left, (3 <= fuel)%nat -> XBT_Test fl fuel junk left <> Some (Ok true).
Proof. exact never_true. Qed.
Print Assumptions C85_never_true_refuted.
Theorem C85_verdict_refuted : XBT_Test fl0 3 [] 0 = Some (Ok false).
Proof. exact test_false. Qed.
Print Assumptions C85_verdict_refuted.

(** A GUID with dashes fails, and a text that is too short is stored behind the buffer. *)
Theorem C85_guid_refuted : forall fl junk left, XBT_TestType fl 3 junk left XBT_GUID (lit "fcac7dbb-08c7-478d-bf97-7e595ca39aab") (Some (lit "fcac7dbb08c7478dbf977e595ca39aab")) = Some (Ok 2).
Proof. exact guid_fails. Qed.
Print Assumptions C85_guid_refuted.
Theorem C85_short_refuted : forall fl junk left, XBT_TestType fl 3 junk left XBT_INT32 (lit "7") None = Some Ub.
Proof. exact short_text. Qed.
Print Assumptions C85_short_refuted.
