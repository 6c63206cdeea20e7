(** C27, C28: the symbol tables of a loaded document. *)
From Verif Require Import Base Types Sort Symtab SymtabSpec Xb XbSpec XbSymProofs.

(** C27: looking up a name finds exactly the index at which it stands; getSymbol inverts it. *)
Theorem C27_getID : forall m t names s, table_names m t names -> strictly_ordered names ->
  exists i, getID m t s = rret i /\
   ((0 <= i < zlen names /\ nth_error names (Z.to_nat i) = Some s) \/ (i = -1 /\ ~ In s names)).
Proof. exact getID_ok. Qed.
Print Assumptions C27_getID.

Theorem C27_getSymbol_inverse : forall m t names i, table_names m t names -> strictly_ordered names -> 0 <= i < sy_count t ->
  exists s, getSymbol m t i = Ok s /\ getID m t s = rret i.
Proof. exact getSymbol_inverts. Qed.
Print Assumptions C27_getSymbol_inverse.

(** A table of three names, as the converter writes it. *)
Definition small_table : list Z :=
  le 2 (-3) ++ le 2 2 ++ le 4 0 ++ le 4 64 ++ (le 2 (-5) ++ [4; 0] ++ le 4 3) ++ (le 2 (-7) ++ [4; 0] ++ le 4 3) ++ [3; 0; 0; 0] ++ le 4 26
  ++ le 4 51 ++ le 4 53 ++ le 4 57 ++ [4; 2; 0] ++ lit "B" ++ [0] ++ lit "ite" ++ [0] ++ lit "item" ++ [0; 0; 0].
Example C27_met : exists t, Load small_table (Some 0) = Ok t /\ table_names small_table t [lit "B"; lit "ite"; lit "item"] /\
  strictly_ordered [lit "B"; lit "ite"; lit "item"] /\ getID small_table t (lit "ite") = rret 1 /\ getType small_table t 1 = Ok XBT_STRING.
Proof. exact small_table_loaded. Qed.

(** C28: every name of an accepted table stands with its NUL inside the block, when the count of types
    is not negative. *)
Theorem C28_names_inside_partial : forall m c t i, Load m c = Ok t -> 0 <= sy_type_count t -> 0 <= i < sy_count t ->
  exists refs size p s, getBinary m c = Ok (Some (refs, size)) /\ getSymbol m t i = Ok s /\
    has m p (s ++ [0]) /\ Forall (fun x => x <> 0) s /\ refs <= p /\ p + zlen (s ++ [0]) <= refs + size.
Proof. exact loaded_name. Qed.
Print Assumptions C28_names_inside_partial.
Example C28_met : exists t, Load small_table (Some 0) = Ok t /\ 0 <= sy_type_count t /\ 0 <= 2 < sy_count t.
Proof. destruct C27_met as (t & E & _). exists t. split; [exact E|]. vm_compute in E. inversion E. cbn. lia. Qed.

(** With a negative count of types a table whose name lies before the block is accepted. *)
Theorem C28_negative_types_refuted : exists m t refs size p, Load m (Some 0) = Ok t /\ 0 < sy_count t /\
  getBinary m (Some 0) = Ok (Some (refs, size)) /\ rd_s32 m refs = Ok p /\ p < refs /\
  Check 1 m (mkcounts 0 0) (Some 0) false = rret true.
Proof. exact (ex_intro _ negative_types negative_types_accepted). Qed.
Print Assumptions C28_negative_types_refuted.

(** The size of the block is not compared with the file: loading may read behind the end of the file. *)
Theorem C28_outside_file_refuted : exists m, Load m (Some 0) = Ub /\ Check 1 m (mkcounts 0 0) (Some 0) false = rret true.
Proof. exact (ex_intro _ outside_block outside_block_read). Qed.
Print Assumptions C28_outside_file_refuted.
