(** Documents whose numbers are fetched by the getters that return pointers. *)
From Verif Require Import Base NumSpec Types RoundtripProofs Sort SymtabSpec Xb XbSpec XbWrite DocSpec NavSpec DocExamples IntPtr.

(** The converted and opened document, and its root. *)
Definition opened fl root : outcome (list Z * Z) :=
  match Make_xb fl (zrepeat 0 800) (lit "f.xml") 0 root with
  | Some (Ok img) => match Initialize 9 img with Some (Ok R) => match rd_root R with Some x => Ok (img, x) | None => Fail end | _ => Fail end
  | _ => Fail end.
(** The number read through a pointer at once, and after one more call; and the number the second call delivers. *)
Definition twice (c1 c2 : call) : outcome (Z * Z * Z) :=
  obind (fetch vars0 c1) (fun '(p, st) => obind (fetch st c2) (fun '(p2, st2) =>
  match p, p2 with
  | Some p, Some p2 => obind (deref st p) (fun v => obind (deref st2 p) (fun v' => obind (deref st2 p2) (fun v2 => Ok (v, v', v2))))
  | _, _ => Fail
  end)).
(** Two attributes or two values of a document. *)
Definition twice_attrs fl root (get : list Z -> option Z -> option Z -> call) path1 i1 path2 i2 : outcome (Z * Z * Z) :=
  obind (opened fl root) (fun '(img, x) =>
  obind (walk img x path1) (fun y1 => obind (getParamByIndex img y1 i1) (fun q1 =>
  obind (walk img x path2) (fun y2 => obind (getParamByIndex img y2 i2) (fun q2 => twice (get img q1 y1) (get img q2 y2)))))).
Definition twice_values fl root (get : list Z -> option Z -> call) path1 path2 : outcome (Z * Z * Z) :=
  obind (opened fl root) (fun '(img, x) => obind (walk img x path1) (fun y1 => obind (walk img x path2) (fun y2 => twice (get img y1) (get img y2)))).

(** Two numbers and a text under the same name; the column is a column of texts. *)
Definition sizes : node :=
  xml "r" None [] [xml "k" None [("a", "12")%string] []; xml "k" None [("a", "15")%string] []; xml "k" None [("a", "wide")%string] []].
(** Numbers with a unit. *)
Definition lengths : node :=
  xml "r" None [] [xml "k" (Some "12 mm"%string) [] []; xml "k" (Some "15 mm"%string) [] []].
(** Numbers. *)
Definition counts : node :=
  xml "r" None [("n", "3")%string] [xml "k" (Some "12"%string) [("n", "-4")%string] []; xml "k" (Some "15"%string) [] []].
Lemma counts_no_hex : no_hex counts.
Proof. intros u Hu n v Hv; cbn in Hu; repeat (destruct Hu as [<-|Hu]; [cbn in Hv; repeat (destruct Hv as [Hv|Hv]; [injection Hv as <- <-; vm_compute; discriminate|]); contradiction|]); contradiction. Qed.
Lemma counts_fit : document_fits counts.
Proof. apply document_fitsb_ok. reflexivity. Qed.
Lemma counts_columns w v : In w (elements counts) -> In (lit "n", v) (attrs_of w) -> exists j, int32 j /\ v = sdec j.
Proof.
  intros Hw Hv. cbn in Hw. destruct Hw as [<-|[<-|[<-|[]]]]; cbn in Hv; repeat (destruct Hv as [Hv|Hv]); try contradiction; injection Hv as <-; [exists 3|exists (-4)]; (split; [unfold int32, INT_MIN, INT_MAX; lia|reflexivity]).
Qed.
