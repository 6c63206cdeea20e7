(** A growing document as example. *)
From Verif Require Import Base Types RingProofs RoundtripProofs Sort SortProofs Xb XbWrite DocSpec ReadSpec DocExamples Append AppendSpec.

Definition log : node := xml "log" None [] [xml "entry" (Some "start"%string) [("id", "1")%string] []; xml "et-tecera" None [] []].
Definition more : node := xml "entry" (Some "more"%string) [("id", "2")%string] [].
Definition last : node := xml "entry" (Some "yes"%string) [("id", "3")%string] [].

(** The document is converted, [k] bytes of the append of [more] reach the file, then [last] is appended; the loop over the
    children and what it shows. *)
Definition torn_log fl k fuel : run (list (run node)) :=
  rbind (Make_xb fl (zrepeat 0 400) (lit "f") 0 log) (fun img => rbind (MakeSymbolTable log) (fun cr =>
  rbind (Some (append_bytes fl cr (zrepeat 0 400) img more)) (fun '(data, bs) =>
  rbind (Some (Append fl cr data (img ++ ztake k bs) last)) (fun '(_, f) =>
  rbind (Initialize 3 f) (fun R =>
  match rd_root R with
  | None => Some Fail
  | Some x => rbind (all_children fuel f x 0) (fun ys => rret (map (fun y => rbind (read_node 5 fl f R y [] ring0) (fun '(t, _) => rret t)) ys))
  end))))).

Lemma log_steady : steady_document log /\ Forall (belongs log) [more; last].
Proof.
  assert (I1 : steady_text (lit "1")) by (apply (steady_int 1); [unfold int32; lia|reflexivity]).
  assert (I2 : steady_text (lit "2")) by (apply (steady_int 2); [unfold int32; lia|reflexivity]).
  assert (I3 : steady_text (lit "3")) by (apply (steady_int 3); [unfold int32; lia|reflexivity]).
  assert (S1 : steady_text (lit "start")) by (apply steady_str; reflexivity).
  assert (S2 : steady_text (lit "more")) by (apply steady_str; reflexivity).
  assert (S3 : steady_text (lit "yes")) by (apply steady_str; reflexivity).
  split; [|constructor; [|constructor; [|constructor]]].
  all: intros u Hu; cbn [elements log more last xml flat_map app In option_map map] in Hu.
  all: repeat (destruct Hu as [<-|Hu]; [|]); try contradiction.
  all: try (split; [apply fitsb_ok; vm_compute; reflexivity|split; [|split; [vm_compute; tauto|]]]).
  all: try match goal with |- no_hex_attr _ => intros n v Hv; cbn in Hv; repeat (destruct Hv as [Hv|Hv]; [inversion Hv; subst; vm_compute; discriminate|]); contradiction end.
  all: split; [intros v Hv; cbn in Hv; inversion Hv; subst; right; assumption|].
  all: try (split; [intros n v Hv; cbn in Hv; repeat (destruct Hv as [Hv|Hv]; [inversion Hv; subst; vm_compute; discriminate|]); contradiction|]).
  all: intros a Ha; cbn [attrs_of In fst snd] in Ha; repeat (destruct Ha as [<-|Ha]; [|]); try contradiction.
  all: try (split; [vm_compute; tauto|]).
  all: unfold steady_attr; cbv zeta; (split; [vm_compute; discriminate|]); cbn [fst snd].
  all: right; right; (split; [vm_compute; reflexivity|split; [assumption|vm_compute; discriminate]]).
Qed.

(** The torn byte and the next element make an element of length 0: the loop stands still. *)
Lemma torn_endless fl fuel : torn_log fl 1 fuel = None.
Proof.
  assert (P : exists f, rbind (Make_xb fl (zrepeat 0 400) (lit "f") 0 log) (fun img => rbind (MakeSymbolTable log) (fun cr =>
    rbind (Some (append_bytes fl cr (zrepeat 0 400) img more)) (fun '(data, bs) => rbind (Some (Append fl cr data (img ++ ztake 1 bs) last)) (fun '(_, f) => rret f)))) = rret f /\
    exists R x, Initialize 3 f = rret R /\ rd_root R = Some x /\ getNextChild f (Some x) 0 = Ok (Some 240, 1) /\ getNextChild f (Some x) 1 = Ok (Some 284, -284) /\ getNextChild f (Some x) (-284) = Ok (Some 284, -284)).
  { eexists. split; [vm_compute; reflexivity|]. do 2 eexists. split; [vm_compute; reflexivity|]. split; [reflexivity|]. repeat split; vm_compute; reflexivity. }
  destruct P as (f & E & R & x & ER & Ex & E0 & E1 & E2). unfold torn_log.
  destruct (Make_xb fl (zrepeat 0 400) (lit "f") 0 log) as [[img| |]|]; cbn [rbind] in E |- *; try discriminate E.
  destruct (MakeSymbolTable log) as [[cr| |]|]; cbn [rbind] in E |- *; try discriminate E.
  destruct (append_bytes fl cr (zrepeat 0 400) img more) as [[data bs]| |]; cbn [rbind] in E |- *; try discriminate E.
  destruct (Append fl cr data (img ++ ztake 1 bs) last) as [[data' f']| |]; cbn [rbind] in E |- *; try discriminate E. inversion E; subst f'. clear E.
  rewrite ER, rbind_ret. cbv beta. rewrite Ex.
  assert (L : forall n, all_children n f x (-284) = None) by (induction n as [|n IH]; [reflexivity|]; cbn [all_children]; rewrite E2; cbn [rbind]; rewrite IH; reflexivity).
  destruct fuel as [|n]; [reflexivity|]. cbn [all_children]. rewrite E0. cbn [rbind]. destruct n as [|n]; [reflexivity|]. cbn [all_children]. rewrite E1. cbn [rbind]. rewrite L. reflexivity.
Qed.
