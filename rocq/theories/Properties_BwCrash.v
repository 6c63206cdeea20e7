(** Theorems about pools whose program is killed while it links elements (C100, C101, C102).

    The stores of an operation are a list of memories, the file after each of them; a program that is killed leaves the file it had
    before the first or after any of them. *)
From Verif Require Import Base Types Sort Xb XbWrite Bw BwSpec BwHist BwProofs BwSym BwFile BwReg BwFileSpec BwNamesSpec BwLifeSpec BwCrash BwSetExamples BwCrashExamples.

(** ** C100: whenever the program is killed, the next one opens the pool; its root, its names, and the ids, types and values of all
    elements are as they were.  Missing: pools with more than 128 names in a table. *)
Theorem C100_add_partial : forall k s m T P F p t F' ok tr, life k s m T P F -> In p (members F) -> adds k p t F F' -> add m p t = Ok (ok, tr) ->
  forall mi, In mi (m :: tr) -> opens_as mi mi /\ only_links (members F) m mi.
Proof. exact add_killed. Qed.
Print Assumptions C100_add_partial.
Theorem C100_join_partial : forall k s m T P F a b F' ok tr, life k s m T P F -> joins a b F F' -> join m a b = Ok (ok, tr) ->
  forall mi, In mi (m :: tr) -> opens_as mi mi /\ only_links (members F) m mi.
Proof. exact join_killed. Qed.
Print Assumptions C100_join_partial.
Theorem C100_remove_partial : forall k s m T P F p t F' ok tr, life k s m T P F -> removes k p t F F' -> remove m p t = Ok (ok, tr) ->
  forall mi, In mi (m :: tr) -> opens_as mi mi /\ only_links (members F) m mi.
Proof. exact remove_killed. Qed.
Print Assumptions C100_remove_partial.
Theorem C100_replace_partial : forall k s m T P F p old new c F' ok tr, life k s m T P F -> replaces p old new c F F' -> replace m p old new = Ok (ok, tr) ->
  forall mi, In mi (m :: tr) -> opens_as mi mi /\ only_links (members F) m mi.
Proof. exact replace_killed. Qed.
Print Assumptions C100_replace_partial.
Example C100_example : (exists tr, add x6 164 272 = Ok (true, tr) /\ forall mi, In mi tr -> opens_as mi mi) /\ (exists tr, join x6 216 272 = Ok (true, tr) /\ forall mi, In mi tr -> opens_as mi mi) /\
  (exists tr, remove x6 164 216 = Ok (true, tr) /\ forall mi, In mi tr -> opens_as mi mi) /\ (exists tr, replace x6 164 216 272 = Ok (true, tr) /\ forall mi, In mi tr -> opens_as mi mi).
Proof.
  assert (IR : In 164 (members Fx)) by (cbn; tauto). pose proof (life_elements _ _ _ _ _ _ x6_life) as I. split; [|split; [|split]].
  - destruct (inv_add _ _ _ _ _ _ _ I IR Fx_adds) as (pre & m' & E & _). exists (pre ++ [m']). split; [exact E|]. intros mi J. apply (C100_add_partial _ _ _ _ _ _ _ _ _ _ _ x6_life IR Fx_adds E). right. exact J.
  - destruct (inv_join _ _ _ _ _ _ _ I Fx_joins) as (m1 & m2 & m3 & m4 & E & _). eexists. split; [exact E|]. intros mi J. apply (C100_join_partial _ _ _ _ _ _ _ _ _ _ _ x6_life Fx_joins E). right. exact J.
  - destruct (inv_remove _ _ _ _ _ _ _ I Fx_removes) as (tr & E & _). exists tr. split; [exact E|]. intros mi J. apply (C100_remove_partial _ _ _ _ _ _ _ _ _ _ _ x6_life Fx_removes E). right. exact J.
  - destruct (inv_replace _ _ _ _ _ _ _ _ _ I Fx_replaces) as (tr & E & _); [cbn; intuition congruence|]. exists tr. split; [exact E|]. intros mi J. apply (C100_replace_partial _ _ _ _ _ _ _ _ _ _ _ _ _ x6_life Fx_replaces E). right. exact J.
Qed.

(** ** C101: after a kill while an element was added the document takes further elements.  True when it was the first child: the pool
    is then one with or without it. *)
Theorem C101_first_partial : forall k s m T P F p t F' ok tr, life k s m T P F -> In p (members F) -> (forall L, ~ In (Some (p, k t), L) F) -> adds k p t F F' -> add m p t = Ok (ok, tr) ->
  forall mi, In mi (m :: tr) -> life k s mi T P F \/ life k s mi T P F'.
Proof. exact first_killed. Qed.
Print Assumptions C101_first_partial.
Example C101_first_example : In 272 (members Fx) /\ (forall L, ~ In (Some (272, kx 296), L) Fx) /\ (exists F', adds kx 272 296 Fx F') /\ exists tr, add x6 272 296 = Ok (true, tr) /\ forall mi, In mi tr -> exists F', life kx zx mi tags6 [] F'.
Proof.
  assert (I2 : In 272 (members Fx)) by (cbn; tauto). assert (U : forall L, ~ In (Some (272, kx 296), L) Fx) by (intros L [E|[E|[E|[E|[]]]]]; discriminate).
  assert (AD : adds kx 272 296 Fx ((Some (272, kx 296), [296]) :: [(None, [272]); (Some (164, true), [188; 216; 244]); (None, [164])])).
  { apply (adds_first kx 272 296 Fx [] [] [(None, [272]); (Some (164, true), [188; 216; 244]); (None, [164])]); [reflexivity|]. intros L [E|[E|[E|[]]]]; discriminate. }
  split; [exact I2|]. split; [exact U|]. split; [eauto|]. destruct (inv_add _ _ _ _ _ _ _ (life_elements _ _ _ _ _ _ x6_life) I2 AD) as (pre & m' & E & _). exists (pre ++ [m']). split; [exact E|].
  intros mi J. destruct (C101_first_partial _ _ _ _ _ _ _ _ _ _ _ x6_life I2 U AD E mi (or_intror J)); eauto.
Qed.
(** Refuted for every parent with children: adding stores four times; after a kill before the last store, adding the next element
    reports success, but the children are the old ones. *)
Theorem C101_later_refuted : forall k s m T P F p x A b c R, life k s m T P F -> Permutation F ((Some (p, true), x :: A) :: (None, [b]) :: (None, [c]) :: R) -> k b = true -> k c = true ->
  exists pre m', add m p b = Ok (true, pre ++ [m']) /\ List.length pre = 3%nat /\
  forall mi, In mi pre -> exists tr, add mi p c = Ok (true, tr) /\ forall n, (List.length (x :: A) < n)%nat -> forward n (final mi tr) p 0 = rret (x :: A).
Proof. exact later_lost. Qed.
Print Assumptions C101_later_refuted.
Example C101_later_example : exists pre m', add x6 164 272 = Ok (true, pre ++ [m']) /\ forall mi, In mi pre -> exists tr, add mi 164 296 = Ok (true, tr) /\ forward 4 (final mi tr) 164 0 = rret [188; 216; 244].
Proof.
  destruct (C101_later_refuted _ _ _ _ _ _ _ _ _ _ _ _ x6_life Fx_two) as (pre & m' & E & _ & X); [reflexivity|reflexivity|]. exists pre, m'. split; [exact E|]. intros mi J. destruct (X mi J) as (tr & E2 & Y). exists tr. split; [exact E2|]. apply Y. cbn. lia.
Qed.

(** ** C102: after a kill while an element was removed or replaced, the children of every element are those from before or those from
    after.  If the element is not the first of several children: *)
Theorem C102_remove_partial : forall k s m T P F p t F' q L L' n ok tr, life k s m T P F -> removes k p t F F' -> (forall y A, ~ In (Some (p, true), t :: y :: A) F) -> remove m p t = Ok (ok, tr) ->
  In q (members F) -> owned F q true L -> owned F' q true L' -> (List.length L < n)%nat -> (List.length L' < n)%nat ->
  forall mi, In mi (m :: tr) -> forward n mi q 0 = rret L \/ forward n mi q 0 = rret L'.
Proof. exact remove_read. Qed.
Print Assumptions C102_remove_partial.
(** If it is not the first child, nor the only attribute: *)
Theorem C102_replace_partial : forall k s m T P F p old new c F' q L L' n ok tr, life k s m T P F -> replaces p old new c F F' -> ~ In (Some (p, c), [old]) F -> (forall A, ~ In (Some (p, true), old :: A) F) -> replace m p old new = Ok (ok, tr) ->
  In q (members F) -> owned F q true L -> owned F' q true L' -> (List.length L < n)%nat -> (List.length L' < n)%nat ->
  forall mi, In mi (m :: tr) -> forward n mi q 0 = rret L \/ forward n mi q 0 = rret L'.
Proof. exact replace_read. Qed.
Print Assumptions C102_replace_partial.
Example C102_example : (exists tr, remove x6 164 216 = Ok (true, tr) /\ forall mi, In mi tr -> forward 4 mi 164 0 = rret [188; 216; 244] \/ forward 4 mi 164 0 = rret [188; 244]) /\
  (exists tr, replace x6 164 216 272 = Ok (true, tr) /\ forall mi, In mi tr -> forward 4 mi 164 0 = rret [188; 216; 244] \/ forward 4 mi 164 0 = rret [188; 272; 244]).
Proof.
  assert (IR : In 164 (members Fx)) by (cbn; tauto). pose proof (life_elements _ _ _ _ _ _ x6_life) as I. assert (O : owned Fx 164 true [188; 216; 244]) by (left; cbn; tauto). split.
  - destruct (inv_remove _ _ _ _ _ _ _ I Fx_removes) as (tr & E & _). exists tr. split; [exact E|]. intros mi J. eapply (C102_remove_partial _ _ _ _ _ _ _ _ _ 164 _ _ 4 _ _ x6_life Fx_removes); [|exact E|exact IR|exact O|left; cbn; tauto|cbn; lia|cbn; lia|right; exact J].
    intros y A [X|[X|[X|[X|[]]]]]; discriminate.
  - assert (NO : ~ In (Some (164, true), [216]) Fx) by (intros [X|[X|[X|[X|[]]]]]; discriminate). destruct (inv_replace _ _ _ _ _ _ _ _ _ I Fx_replaces NO) as (tr & E & _). exists tr. split; [exact E|]. intros mi J.
    eapply (C102_replace_partial _ _ _ _ _ _ _ _ _ _ _ 164 _ _ 4 _ _ x6_life Fx_replaces NO); [|exact E|exact IR|exact O|left; cbn; tauto|cbn; lia|cbn; lia|right; exact J]. intros A [X|[X|[X|[X|[]]]]]; discriminate.
Qed.
(** Refuted for the first of several children.  After the first store of its removal it is the last child: *)
Theorem C102_remove_first_refuted : forall k s m T P F p t y A R, life k s m T P F -> Permutation F ((Some (p, true), t :: y :: A) :: R) -> k t = true ->
  exists m0 tr, remove m p t = Ok (true, m0 :: tr) /\ forall n, (List.length (t :: y :: A) < n)%nat -> forward n m0 p 0 = rret (y :: A ++ [t]).
Proof. exact remove_turned. Qed.
Print Assumptions C102_remove_first_refuted.
(** After the fourth store of its replacement the iteration over the children never ends: *)
Theorem C102_replace_first_refuted : forall k s m T P F p old new y A R, life k s m T P F -> Permutation F ((Some (p, true), old :: y :: A) :: (None, [new]) :: R) ->
  exists m1 m2 m3 m4 tr, replace m p old new = Ok (true, m1 :: m2 :: m3 :: m4 :: tr) /\ forall n, forward n m4 p 0 = None.
Proof. exact replace_endless. Qed.
Print Assumptions C102_replace_first_refuted.
Example C102_first_example : (exists m0 tr, remove x6 164 188 = Ok (true, m0 :: tr) /\ forward 4 m0 164 0 = rret [216; 244; 188]) /\
  (exists m4 pre tr, replace x6 164 188 272 = Ok (true, pre ++ m4 :: tr) /\ opens_as m4 m4 /\ forall n, forward n m4 164 0 = None).
Proof.
  split.
  - destruct (C102_remove_first_refuted _ _ _ _ _ _ _ _ _ _ _ x6_life Fx_owner) as (m0 & tr & E & X); [reflexivity|]. exists m0, tr. split; [exact E|]. apply X. cbn. lia.
  - destruct (C102_replace_first_refuted _ _ _ _ _ _ _ _ _ _ _ _ x6_life Fx_two) as (m1 & m2 & m3 & m4 & tr & E & X). exists m4, [m1; m2; m3], tr. split; [exact E|]. split; [|exact X].
    apply (C100_replace_partial _ _ _ _ _ _ _ _ _ _ _ _ _ x6_life (replaces_at 164 188 272 true Fx [] [216; 244] _ Fx_two) E). right. right. right. right. left. reflexivity.
Qed.
