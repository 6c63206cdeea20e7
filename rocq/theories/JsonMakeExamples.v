(** JSON texts that are converted. *)
From Verif Require Import Base Types Sort RingProofs RoundtripProofs SymtabSpec Xb XbWrite DocSpec ReadSpec DocExamples Jsmn JsonSpec JsonExamples JsonMake JsonMakeSpec.

(** Convert [js] with the buffers the program has, open the image and read all of it. *)
Definition json_back fl o (fuel : nat) js : run node :=
  rbind (JsonMake_xb o fuel fl js (zrepeat 170 (zlen js + 5)) (zrepeat 0 (json_buffer js)) (lit "f") 0) (fun img => rbind (Xb.Initialize 3 img) (fun R =>
  match rd_root R with
  | None => Some Fail
  | Some x => rbind (read_node 10 fl img R x [] ring0) (fun '(t, _) => rret t)
  end)).

(** { "a":1, "books":["Dune",7], "c":{} } *)
Definition list3 : value :=
  Obj [32] (MCons [] (lit "a") [] [] (Prim (lit "1")) [] (MCons [32] (lit "books") [] [] (Arr [] (ICons [] (Str (lit "Dune")) [] (ICons [] (Prim (lit "7")) [] INil))) []
           (MCons [32] (lit "c") [] [] (Obj [] MNil) [32] MNil))).
Example list3_text : vtext list3 = lit "{ ""a"":1, ""books"":[""Dune"",7], ""c"":{} }".
Proof. vm_compute. reflexivity. Qed.
Lemma list3_json : json list3 /\ keyed list3.
Proof.
  assert (W0 : white []) by constructor. assert (W1 : white [32]) by (constructor; [lia|constructor]).
  assert (P : forall s, s <> [] -> forallb is_alnum s = true -> primitive s). { intros s N F. split; [exact N|]. rewrite forallb_forall in F. apply Forall_forall. auto. }
  split; [|cbn -[lit]; repeat split; discriminate].
  cbn -[lit]. repeat split; try exact W0; try exact W1; try (apply plain; reflexivity); try discriminate; try (apply P; [discriminate|reflexivity]).
  all: cbn; repeat constructor.
Qed.
Lemma list3_steady : steady (tree list3).
Proof.
  assert (I1 : steady_text (lit "1")) by (apply (steady_int 1); [unfold int32; lia|reflexivity]).
  assert (I7 : steady_text (lit "7")) by (apply (steady_int 7); [unfold int32; lia|reflexivity]).
  assert (D : steady_text (lit "Dune")) by (apply steady_str; reflexivity).
  intros u v U E. vm_compute in U. repeat (destruct U as [<-|U]; [cbn [evalue] in E; try discriminate E; injection E as <-; right; assumption|]). contradiction.
Qed.
(** [n + 1] empty objects in an array *)
Definition empties (n : nat) : list Z := lit "[" ++ List.concat (List.repeat (lit "{},") n) ++ lit "{}]".
