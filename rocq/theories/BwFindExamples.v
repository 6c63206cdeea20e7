(** Children looked for by the values of their attributes; the pools are those of BwSourceExamples. *)
From Verif Require Import Base Types Sort Xb XbWrite XbBin BinSpec Bw BwSpec BwHist BwSym BwFile BwReg BwFileSpec BwExamples BwFileExamples BwNamesSpec BwLifeSpec BwSet BwSetExamples BwAttr BwAttrExamples BwSource BwSourceSpec BwSourceExamples BwCopySpec BwKeysSpec BwFind BwFindSpec.

Definition nine : list Z := [9; 0; 0; 0].
Lemma nine_at : attr_at sr2 r6 at1 (0, XBT_INT32, nine).
Proof. exists nine. split; [vm_compute; reflexivity|]. split; [vm_compute; reflexivity|]. split; [vm_compute; reflexivity|]. split; [|vm_compute; reflexivity]. split; [vm_compute; tauto|]. split; [vm_compute; discriminate|]. intros [Q|Q]; discriminate. Qed.
Lemma r6_own_attr A : owned Fr2 kid false A -> A = [at1].
Proof. intros [J|[_ N]]; [destruct J as [J|[J|[J|[]]]]; congruence|]. exfalso. apply (N [at1]). left. reflexivity. Qed.
Lemma r6_valued : valued sr2 r6 Fr2 [kid] 0 0 XBT_INT32.
Proof. intros c A a [<-|[]] _ OA J _. apply r6_own_attr in OA as ->. destruct J as [<-|[]]. exists nine. exact nine_at. Qed.
Lemma r6_kids : owned Fr2 root true [kid].
Proof. left. right. left. reflexivity. Qed.
Lemma nine_handed : handed XBT_INT32 nine nine 4.
Proof. split; [exists []; reflexivity|]. split; [reflexivity|]. split; [reflexivity|right; reflexivity]. Qed.
Lemma r6_found : having sr2 r6 Fr2 0 0 XBT_INT32 nine kid /\ findChildByParam 9 r6 root 0 0 XBT_INT32 nine 4 = rret (Some kid) /\ findChildByParam 9 r6 root 0 0 XBT_INT32 [8; 0; 0; 0] 4 = rret None.
Proof. split; [|split; vm_compute; reflexivity]. split; [vm_compute; reflexivity|]. exists [at1], at1. split; [left; left; reflexivity|]. split; [left; reflexivity|exact nine_at]. Qed.

(** The root with a child with an attribute of another type *)
Definition with_attr ty n bs := let m1 := amem (fresh true r2 0 ty n 0) in let m2 := mem_of (wr m1 (at1 + 24) bs) in trace_of m2 (add m2 kid at1).
Definition kid_has m ty bs : Prop := el_id m kid = Ok 0 /\ el_child m root = Ok kid /\ el_attr m kid = Ok at1 /\ el_id m at1 = Ok 0 /\ el_type m at1 = Ok ty /\ rd m (at1 + 24) (zlen bs) = Ok bs.
Definition hash : list Z := [1; 2; 3; 4; 5; 6; 7; 8; 9; 10; 11; 12; 13; 14; 15; 16; 17; 18; 19; 20].
Definition m_sha := Eval vm_compute in with_attr XBT_SHA1 0 hash.
Definition m_hex := Eval vm_compute in with_attr XBT_HEX 2 (le 4 2 ++ [171; 205]).
Definition m_blob := Eval vm_compute in with_attr XBT_BLOB 2 (le 4 2 ++ [171; 205]).
Definition m_text := Eval vm_compute in with_attr XBT_BLOB_STRING 3 (le 4 3 ++ lit "abc" ++ [0]).
Definition m_float := Eval vm_compute in with_attr XBT_FLOAT 0 (le 4 1065353216).
Ltac has := unfold kid_has; repeat split; vm_compute; reflexivity.
Lemma sha_missed data : kid_has m_sha XBT_SHA1 hash /\ findChildByParam 9 m_sha root 0 0 XBT_SHA1 data 20 = rret None.
Proof. split; [has|vm_compute; reflexivity]. Qed.
Lemma sha_over : findChildByParam 9 m_sha root 0 0 XBT_SHA1 hash 24 = Some Ub.
Proof. vm_compute. reflexivity. Qed.
Lemma hex_wrong : kid_has m_hex XBT_HEX (le 4 2 ++ [171; 205]) /\ findChildByParam 9 m_hex root 0 0 XBT_HEX (le 4 2 ++ [171; 205]) 6 = rret None /\ findChildByParam 9 m_hex root 0 0 XBT_HEX (le 4 2 ++ [0; 0]) 4 = rret (Some kid).
Proof. split; [has|split; vm_compute; reflexivity]. Qed.
Lemma blob_missed data size : kid_has m_blob XBT_BLOB (le 4 2 ++ [171; 205]) /\ findChildByParam 9 m_blob root 0 0 XBT_BLOB data size = rret None.
Proof. split; [has|]. destruct size as [|p|p]; [vm_compute; reflexivity| |vm_compute; reflexivity]. do 3 (destruct p as [p|p|]; try (vm_compute; reflexivity)). Qed.
Lemma text_wrong : kid_has m_text XBT_BLOB_STRING (le 4 3 ++ lit "abc" ++ [0]) /\ findChildByParam 9 m_text root 0 0 XBT_BLOB_STRING (lit "abc" ++ [0]) 4 = rret None /\ findChildByParam 9 m_text root 0 0 XBT_BLOB_STRING [3; 0] 2 = rret (Some kid).
Proof. split; [has|split; vm_compute; reflexivity]. Qed.
Lemma float_wrong : kid_has m_float XBT_FLOAT (le 4 1065353216) /\ findChildByParam 9 m_float root 0 0 XBT_FLOAT (le 4 2143289344) 4 = rret (Some kid).
Proof. split; [has|vm_compute; reflexivity]. Qed.
