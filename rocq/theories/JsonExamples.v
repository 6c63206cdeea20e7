(** A JSON text as an example. *)
From Verif Require Import Base BaseFacts Types Sort Jsmn JsonSpec.

(** [ { "books" : [ {"id":1, "tags":["x"," "]} , [true] ] , "shelfList":[2], "n":null } ] with a line end behind *)
Definition book : value := Obj [] (MCons [] (lit "id") [] [] (Prim (lit "1")) [] (MCons [32] (lit "tags") [] [] (Arr [] (ICons [] (Str (lit "x")) [] (ICons [] (Str (lit " ")) [] INil))) [] MNil)).
Definition shelf : value :=
  Obj [32] (MCons [] (lit "books") [32] [32] (Arr [32] (ICons [] book [32] (ICons [32] (Arr [] (ICons [] (Prim (lit "true")) [] INil)) [32] INil))) [32]
           (MCons [32] (lit "shelfList") [] [] (Arr [] (ICons [] (Prim (lit "2")) [] INil)) [] (MCons [32] (lit "n") [] [] (Prim (lit "null")) [32] MNil))).
Lemma plain s : forallb (fun c => (0 <? c) && (c <? 256) && negb (c =? 34) && negb (c =? 92)) s = true -> chars s.
Proof. induction s as [|c s IH]; cbn [forallb]; intros H; [constructor|]. apply andb_prop in H as [H1 H2]. apply chars_plain; [lia|lia|lia|auto]. Qed.
Lemma shelf_json : json shelf.
Proof.
  assert (W0 : white []) by constructor. assert (W1 : white [32]) by (constructor; [lia|constructor]).
  assert (P : forall s, s <> [] -> forallb is_alnum s = true -> primitive s). { intros s N F. split; [exact N|]. rewrite forallb_forall in F. apply Forall_forall. auto. }
  cbn -[lit]. repeat split; try exact W0; try exact W1; try (apply plain; reflexivity); try discriminate; try (apply P; [discriminate|reflexivity]).
  all: cbn; repeat constructor.
Qed.
Lemma shelf_keyed : keyed shelf.
Proof. cbn -[lit]. repeat split; discriminate. Qed.
Example shelf_text : vtext shelf = lit "{ ""books"" : [ {""id"":1, ""tags"":[""x"","" ""]} , [true] ] , ""shelfList"":[2], ""n"":null }".
Proof. vm_compute. reflexivity. Qed.
Example shelf_tree : tree shelf = El None None
  [El (Some (lit "books")) None
     [El (Some (lit "book")) None [El (Some (lit "id")) (Some (lit "1")) []; El (Some (lit "tags")) None [El (Some (lit "tag")) (Some (lit "x")) []; El (Some (lit "tag")) (Some (lit " ")) []]];
      El (Some (lit "book")) None [El (Some (lit "__ARRAY_ITEM_NAME__")) (Some (lit "true")) []]];
   El (Some (lit "shelfList")) None [El (Some (lit "shelf")) (Some (lit "2")) []];
   El (Some (lit "n")) (Some (lit "null")) []].
Proof. vm_compute. reflexivity. Qed.
