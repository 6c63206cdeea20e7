(** A pool with a root and two children, one with an attribute and one with a value, printed; a pool with a HEX value; a text source. *)
From Verif Require Import Base BaseFacts Types NumSpec Sort DocSpec ReadSpec RingProofs XmlOut XmlSpec Xb XbWrite XbBin BinSpec Bw BwSpec BwHist BwSym BwFile BwReg BwFileSpec BwExamples BwFileExamples BwNamesSpec BwNamesTop BwLifeSpec BwSet BwSetExamples BwAttr BwAttrSpec BwAttrProofs BwAttrExamples BwSource BwSourceSpec BwSourceExamples SrcStream SrcSpec.

Definition u1 := Eval vm_compute in amem (fresh true r6 0 XBT_STRING 3 ELEMENT).
Definition kid2 := Eval vm_compute in fresh_at (fresh true r6 0 XBT_STRING 3 ELEMENT).
Definition u2 := Eval vm_compute in mem_of (wr u1 (kid2 + 24) (lit "a<b" ++ [0])).
Definition u3 := Eval vm_compute in trace_of u2 (add u2 root kid2).
Definition ku := set kr2 kid2 true.
Definition su := set sr2 kid2 28.
Definition Fu : forest := [(Some (root, true), [kid; kid2]); (Some (kid, false), [at1]); (None, [root])].
Lemma u3_life : life ku su u3 tags1 params4 Fu.
Proof.
  assert (L1 : life ku su u1 tags1 params4 ((None, [kid2]) :: Fr2)) by (apply (life_new _ _ r6 tags1 params4 Fr2 true 0 XBT_STRING 3 4 ELEMENT kid2 u1 r6_life); small).
  assert (L2 : life ku su u2 tags1 params4 ((None, [kid2]) :: Fr2)) by (apply (life_write _ _ u1 _ _ _ kid2 (kid2 + 24) (lit "a<b" ++ [0]) _ L1); [left; reflexivity|small|vm_compute; discriminate|vm_compute; reflexivity]).
  destruct (add u2 root kid2) as [[ok tr]| |] eqn:E; try (vm_compute in E; discriminate). replace u3 with (final u2 tr) by (vm_compute in E; injection E as <- <-; vm_compute; reflexivity).
  eapply life_add; [exact L2|right; right; right; left; reflexivity| |exact E]. apply (adds_last ku root kid2 ((None, [kid2]) :: Fr2) [] [] [kid] [(Some (kid, false), [at1]); (None, [root])]). apply perm_skip. apply perm_swap.
Qed.
Definition tree3 : bnode := BNode (lit "root") XBT_NULL [] [] [BNode (lit "root") XBT_NULL [] [(lit "id", XBT_INT32, [9; 0; 0; 0])] []; BNode (lit "root") XBT_STRING [97; 60; 98; 0] [] []].
Lemma u3_tree : tree_at ku su u3 tags1 params4 Fu root tree3.
Proof.
  apply (tree_here _ _ _ _ _ _ root [] [kid; kid2]).
  - right; right; right; left; reflexivity.
  - reflexivity.
  - exists 0%nat, XBT_NULL. repeat split; try (vm_compute; reflexivity). vm_compute; discriminate.
  - right. split; [reflexivity|]. intros L [Q|[Q|[Q|[]]]]; discriminate.
  - left. left. reflexivity.
  - constructor.
  - constructor; [|constructor; [|constructor]].
    + apply (tree_here _ _ _ _ _ _ kid [at1] []).
      * left; reflexivity.
      * reflexivity.
      * exists 0%nat, XBT_NULL. repeat split; try (vm_compute; reflexivity). vm_compute; discriminate.
      * left. right. left. reflexivity.
      * right. split; [reflexivity|]. intros L [Q|[Q|[Q|[]]]]; discriminate.
      * constructor; [|constructor]. split; [reflexivity|]. exists 0%nat, XBT_INT32. repeat split; try (vm_compute; reflexivity). vm_compute; discriminate.
      * constructor.
    + apply (tree_here _ _ _ _ _ _ kid2 [] []).
      * right; left; reflexivity.
      * reflexivity.
      * exists 0%nat, XBT_NULL. repeat split; try (vm_compute; reflexivity). vm_compute; discriminate.
      * right. split; [reflexivity|]. intros L [Q|[Q|[Q|[]]]]; discriminate.
      * right. split; [reflexivity|]. intros L [Q|[Q|[Q|[]]]]; discriminate.
      * constructor.
      * constructor.
Qed.
Definition nofl := mkfloats (fun _ => 0) (fun _ => []).
Lemma nofl_ok : floats_ok nofl.
Proof. intros n. split; [constructor|vm_compute; discriminate]. Qed.
Definition doc3 : node := Node (lit "root") None [] [Node (lit "root") None [(lit "id", [57])] []; Node (lit "root") (Some (lit "a<b")) [] []].
Lemma tree3_pictures : pictures nofl tree3 doc3.
Proof.
  constructor; [left; auto|constructor|]. constructor; [|constructor; [|constructor]]; constructor.
  - left; auto.
  - constructor; [|constructor]. split; [reflexivity|]. right. apply (sf_int32 nofl 9 []). unfold int32. lia.
  - constructor.
  - right. exists (lit "a<b"). split; [|reflexivity]. apply (sf_string nofl (lit "a<b") []). repeat constructor; discriminate.
  - constructor.
  - constructor.
Qed.
Lemma doc3_expressible u : In u (elements doc3) -> expressible u.
Proof.
  assert (NR : xml_name (lit "root")) by (split; [exists 114, (lit "oot"); split; reflexivity|reflexivity]). assert (NI : xml_name (lit "id")) by (split; [exists 105, (lit "d"); split; reflexivity|reflexivity]).
  intros [<-|[<-|[<-|[]]]]; (split; [exact NR|]).
  - split; [constructor|]. split; [intros a []|]. intros v X. discriminate X.
  - split; [repeat constructor; intros []|]. split; [intros a [<-|[]]; split; [exact NI|]; intros c [<-|[]]; lia|]. intros v X. discriminate X.
  - split; [constructor|]. split; [intros a []|]. intros v X. injection X as <-. split; [intros c I; do 2 right; cbn in I; intuition lia|]. reflexivity.
Qed.

(** HEX *)
Definition h1 := Eval vm_compute in amem (fresh true q1 0 XBT_HEX 2 ELEMENT).
Definition hex := Eval vm_compute in fresh_at (fresh true q1 0 XBT_HEX 2 ELEMENT).
Definition h2 := Eval vm_compute in mem_of (wr h1 (hex + 24) (le 4 2 ++ [1; 171])).
Definition h3 := Eval vm_compute in mem_of (setRoot h2 hex).
Definition kh := set kr hex true.
Definition sh := set sr hex 32.
Definition Fh : forest := (None, [hex]) :: Fr.
Lemma h3_life : life kh sh h3 tags1 params4 Fh.
Proof.
  apply (life_root _ _ h2 _ _ _ hex); [|left; reflexivity|vm_compute; reflexivity].
  assert (L1 : life kh sh h1 tags1 params4 Fh) by (apply (life_new _ _ q1 tags1 params4 Fr true 0 XBT_HEX 2 6 ELEMENT hex h1 q1_life); small).
  apply (life_write _ _ h1 _ _ _ hex (hex + 24) (le 4 2 ++ [1; 171]) _ L1); [left; reflexivity|small|vm_compute; discriminate|vm_compute; reflexivity].
Qed.
Definition hex_tree : bnode := BNode (lit "root") XBT_HEX [2; 0; 0; 0; 1; 171; 0; 0] [] [].
Lemma h3_tree : tree_at kh sh h3 tags1 params4 Fh hex hex_tree.
Proof.
  apply (tree_here _ _ _ _ _ _ hex [] []).
  - left; reflexivity.
  - reflexivity.
  - exists 0%nat, XBT_NULL. repeat split; try (vm_compute; reflexivity). vm_compute; discriminate.
  - right. split; [reflexivity|]. intros L [Q|[Q|[]]]; discriminate.
  - right. split; [reflexivity|]. intros L [Q|[Q|[]]]; discriminate.
  - constructor.
  - constructor.
Qed.

(** A text source with a value *)
Definition word : node := Node (lit "root") (Some (lit "a")) [] [].
Lemma word_expressible u : In u (elements word) -> expressible u.
Proof.
  intros [<-|[]]. split; [split; [exists 114, (lit "oot"); split; reflexivity|reflexivity]|]. split; [constructor|]. split; [intros a []|]. intros v X. injection X as <-. split; [intros c I; cbn in I; intuition lia|]. reflexivity.
Qed.

(** DOUBLE and IPv6 *)
Definition wide_of ty := fresh true q1 0 ty 0 ELEMENT.
Definition w1 ty := amem (wide_of ty).
Definition wide := Eval vm_compute in fresh_at (wide_of XBT_DOUBLE).
Definition w2 ty := mem_of (setRoot (w1 ty) wide).
Definition kw := set kr wide true.
Definition sw ty := set sr wide (if ty =? XBT_DOUBLE then 32 else 40).
Definition Fw : forest := (None, [wide]) :: Fr.
Lemma w2_life ty : ty = XBT_DOUBLE \/ ty = XBT_IPv6 -> life kw (sw ty) (w2 ty) tags1 params4 Fw.
Proof.
  intros [-> | ->].
  - apply (life_root _ _ (w1 XBT_DOUBLE) _ _ _ wide); [|left; reflexivity|vm_compute; reflexivity].
    apply (life_new _ _ q1 tags1 params4 Fr true 0 XBT_DOUBLE 0 8 ELEMENT wide _ q1_life); small.
  - apply (life_root _ _ (w1 XBT_IPv6) _ _ _ wide); [|left; reflexivity|vm_compute; reflexivity].
    apply (life_new _ _ q1 tags1 params4 Fr true 0 XBT_IPv6 0 16 ELEMENT wide _ q1_life); small.
Qed.
Lemma w2_tree ty : ty = XBT_DOUBLE \/ ty = XBT_IPv6 -> tree_at kw (sw ty) (w2 ty) tags1 params4 Fw wide (BNode (lit "root") ty (zrepeat 0 (if ty =? XBT_DOUBLE then 8 else 16)) [] []).
Proof.
  intros [-> | ->].
  - apply (tree_here _ _ _ _ _ _ wide [] []).
    + left; reflexivity.
    + reflexivity.
    + exists 0%nat, XBT_NULL. repeat split; try (vm_compute; reflexivity). vm_compute; discriminate.
    + right. split; [reflexivity|]. intros L [Q|[Q|[]]]; discriminate.
    + right. split; [reflexivity|]. intros L [Q|[Q|[]]]; discriminate.
    + constructor.
    + constructor.
  - apply (tree_here _ _ _ _ _ _ wide [] []).
    + left; reflexivity.
    + reflexivity.
    + exists 0%nat, XBT_NULL. repeat split; try (vm_compute; reflexivity). vm_compute; discriminate.
    + right. split; [reflexivity|]. intros L [Q|[Q|[]]]; discriminate.
    + right. split; [reflexivity|]. intros L [Q|[Q|[]]]; discriminate.
    + constructor.
    + constructor.
Qed.
Lemma w2_aborts ty fl : ty = XBT_DOUBLE \/ ty = XBT_IPv6 -> pool_print 9 fl (zrepeat 0 257) (w2 ty) = Some Ub.
Proof. intros [-> | ->]; vm_compute; reflexivity. Qed.
