(** Documents used as examples for the packer. *)
From Verif Require Import Base NumSpec Types CalSpec RingProofs RoundtripProofs SymtabSpec Sort Sha1Spec Xb XbWrite DocSpec ReadSpec NavSpec CheckSpec DocExamples Packer PackSpec.
From Coq Require Import Relations.

(** All children of the nodes in [l] are in [l]. *)
Definition memZ x (l : list Z) : bool := existsb (Z.eqb x) l.
Definition closedb m (l : list Z) : bool :=
  forallb (fun x => match it_childcount m x with
    | Ok c => forallb (fun i => match getChildByIndex m (Some x) (Z.of_nat i) with Ok (Some y) => memZ y l | _ => true end) (seq 0 (Z.to_nat c))
    | _ => true end) l.
Fixpoint eqb_bytes (a b : list Z) : bool := match a, b with [], [] => true | x :: a, y :: b => (x =? y) && eqb_bytes a b | _, _ => false end.
Definition node_bytes m x : option (list Z) := match it_length m x with Ok n => match rd m x n with Ok bs => Some bs | _ => None end | _ => None end.
(** The nodes of [l] are as different as their SHA-1. *)
Definition separatedb m (l : list Z) : bool :=
  let t := map (fun x => match node_bytes m x with Some a => Some (a, sha1 a) | None => None end) l in
  forallb (fun p => forallb (fun q => match p, q with Some (a, h), Some (b, g) => negb (eqb_bytes h g) || eqb_bytes a b | _, _ => true end) t) t.

Lemma memZ_in x l : memZ x l = true <-> In x l.
Proof. unfold memZ. rewrite existsb_exists. split; [intros (y & H & E); apply Z.eqb_eq in E; subst; exact H|intros H; exists x; split; [exact H|apply Z.eqb_refl]]. Qed.
Lemma eqb_bytes_eq a : forall b, eqb_bytes a b = true <-> a = b.
Proof.
  induction a as [|x a IH]; intros [|y b]; cbn [eqb_bytes]; try (split; [discriminate|discriminate]); [split; reflexivity|].
  rewrite andb_true_iff, Z.eqb_eq, IH. split; [intros (-> & ->); reflexivity|intros E; inversion E; auto].
Qed.
Lemma closed_reach m l x y : closedb m l = true -> In x l -> reach m x y -> In y l.
Proof.
  intros C Hx R. induction R as [|x z y (i & Hi) R IH]; [exact Hx|]. apply IH. unfold closedb in C. rewrite forallb_forall in C. specialize (C x Hx).
  unfold getChildByIndex in Hi. destruct (it_childcount m x) as [c| |] eqn:Ec; [|discriminate Hi|discriminate Hi]. cbn [obind] in Hi. destruct (Z.ltb_spec i 0); [discriminate Hi|]. destruct (Z.leb_spec c i); [discriminate Hi|]. cbn [orb] in Hi.
  rewrite forallb_forall in C. specialize (C (Z.to_nat i) ltac:(apply in_seq; lia)). rewrite Z2Nat.id in C by lia. unfold getChildByIndex in C. rewrite Ec in C. cbn [obind] in C.
  destruct (Z.ltb_spec i 0); [lia|]. destruct (Z.leb_spec c i); [lia|]. cbn [orb] in C. rewrite Hi in C. apply memZ_in, C.
Qed.
Lemma stored_bytes m x a : stored_as m x a -> node_bytes m x = Some a.
Proof. intros (n & A & B). unfold node_bytes. rewrite A, B. reflexivity. Qed.
Lemma separatedb_ok m l : memZ 0 l = true -> closedb m l = true -> separatedb m l = true -> sha1_separates m.
Proof.
  intros H0 C S x y a b Rx Ry Sa Sb E. apply memZ_in in H0. pose proof (closed_reach _ _ _ _ C H0 Rx) as Hx. pose proof (closed_reach _ _ _ _ C H0 Ry) as Hy.
  unfold separatedb in S. cbv zeta in S. rewrite forallb_forall in S. apply stored_bytes in Sa, Sb.
  specialize (S (Some (a, sha1 a)) ltac:(apply in_map_iff; exists x; rewrite Sa; auto)). rewrite forallb_forall in S. specialize (S (Some (b, sha1 b)) ltac:(apply in_map_iff; exists y; rewrite Sb; auto)). cbv beta iota in S.
  apply orb_true_iff in S. destruct S as [S|S]; [|apply eqb_bytes_eq, S]. apply negb_true_iff in S. rewrite (proj2 (eqb_bytes_eq _ _) E) in S. discriminate S.
Qed.
(** The nodes below [x]. *)
Fixpoint below (fuel : nat) m x : list Z :=
  match fuel with
  | O => []
  | S k => x :: match it_childcount m x with
      | Ok c => flat_map (fun i => match getChildByIndex m (Some x) (Z.of_nat i) with Ok (Some y) => below k m y | _ => [] end) (seq 0 (Z.to_nat c))
      | _ => [] end
  end.

(** The plain and the packed image. *)
Definition plain fl root : run (list Z) := Make_xb fl (zrepeat 0 800) (lit "f") 0 root.
Definition packed_image fl root : run (list Z) := Make_packed (zrepeat 0 64) (zrepeat 0 (4 + zlen (elements root))) (zrepeat 0 800) 9 fl (zrepeat 0 800) (lit "f") 0 root.
Definition at_path (img : run (list Z)) path : run Z :=
  rbind img (fun img => rbind (Initialize 3 img) (fun R => match rd_root R with
  | Some x => match walk img x path with Ok (Some y) => rret y | _ => Some Fail end
  | None => Some Fail end)).
Definition int64_at (img : run (list Z)) path : run (option Z) :=
  rbind img (fun m => rbind (at_path img path) (fun y => Some (getInt64 m (Some y)))).

(** Equal subtrees, one inside another one. *)
Definition shelves : node :=
  let dune := xml "b" (Some "Dune"%string) [("id", "1")%string] [] in
  let box := xml "c" None [] [dune; xml "d" None [] []] in
  xml "l" None [] [dune; box; dune; box].
Lemma shelves_steady : steady_document shelves.
Proof.
  assert (I1 : steady_text (lit "1")) by (apply (steady_int 1); [unfold int32; lia|reflexivity]).
  assert (D : steady_text (lit "Dune")) by (apply steady_str; reflexivity).
  intros u Hu. cbn [elements shelves xml flat_map app In option_map map] in Hu.
  repeat (destruct Hu as [<-|Hu]; [|]); try contradiction.
  all: split; [intros v Hv; cbn in Hv; inversion Hv; subst; right; assumption|].
  all: split; [intros n v Hv; cbn in Hv; repeat (destruct Hv as [Hv|Hv]; [inversion Hv; subst; vm_compute; discriminate|]); contradiction|].
  all: intros a Ha; cbn [attrs_of In fst snd] in Ha; repeat (destruct Ha as [<-|Ha]; [|]); try contradiction.
  all: unfold steady_attr; cbv zeta; (split; [vm_compute; discriminate|]).
  all: cbn [fst snd]; right; right; (split; [vm_compute; reflexivity|split; [assumption|vm_compute; discriminate]]).
Qed.
(** A 64-bit value behind two equal elements, and equal elements with such a value. *)
Definition one : node := xml "a" (Some "1"%string) [] [].
Definition big : node := xml "n" (Some "12345678901"%string) [] [].
Definition behind : node := xml "r" None [] [one; one; big; xml "z" (Some "end"%string) [] []].
Definition apart : node := xml "r" None [] [big; one; big].
