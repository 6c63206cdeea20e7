(** Comparing the keys of an item and of an element of a pool. *)
From Verif Require Import Base BaseFacts Types ListFacts SizeProofs CompareProofs Sort Xb XbSpec XbFacts XbWrite WriteProofs XbBin BinSpec Bw BwFacts BwRing BwSpec BwHist BwAlloc BwProofs BwRead BwTop BwSym BwReg BwFileSpec BwFileProofs BwNamesSpec BwNamesFacts BwNamesInv BwNamesReg BwNamesOps BwNamesIndex BwNamesProofs BwLifeSpec BwLife BwOnly JsonSource BwSet BwNamesTop BwAttr BwAttrSpec BwAttrProofs BwAttrTop BwTag BwTagSpec BwTagProofs BwTagTop BwSource BwSourceSpec BwSourceProofs BwCopy BwCopySpec BwCopyProofs BwCopyTop BwKeys BwKeysSpec.

(** ** Values *)
Lemma known_cases ty : In ty known_types ->
  (exists c, (forall src, value_size ty src = c) /\ 0 <= c /\ (ty =? XBT_STRING) = false /\ (XBT_IS_4 ty = true /\ c = 4 \/ XBT_IS_4 ty = false /\ XBT_IS_VARSIZE ty = false /\ XBT_FIXEDSIZE ty = c)) \/
  ty = XBT_STRING \/ (ty = XBT_BLOB \/ ty = XBT_HEX).
Proof.
  unfold known_types, four_bytes, eight_bytes. cbn [app In]. intro H.
  repeat destruct H as [<-|H]; try contradiction; try (right; left; reflexivity); try (right; right; auto; fail); left.
  all: match goal with |- context [value_size ?t] => exists (value_size t []) end; (split; [intro; reflexivity|]); (split; [vm_compute; discriminate|]); (split; [reflexivity|]); first [left; split; reflexivity|right; repeat split; reflexivity].
Qed.
Lemma has_text m p s : Forall (fun c => c <> 0) s -> has m p (s ++ [0]) -> rd_str m p = Ok s.
Proof.
  intros Hs H. pose proof (has_range _ _ _ H) as Hr. rewrite zlen_app in Hr. change (zlen [0]) with 1 in Hr. pose proof (zlen_nonneg s). unfold rd_str. replace ((0 <=? p) && (p <? zlen m)) with true by lia. destruct (has_skip _ _ _ H) as (b & ->). rewrite <- app_assoc. cbn [app].
  rewrite cstr_app_nz by exact Hs. cbn [cstr]. change (0 =? 0) with true. cbv iota. rewrite app_nil_r. replace (p + zlen s <? zlen m) with true by lia. reflexivity.
Qed.
Lemma get_there s m a id ty v : attr_at s m a (id, ty, v) -> 24 <= s a -> zlen m <= INT_MAX -> exists c, bw_getData m a = Ok (ty, v, c).
Proof.
  intros (w & EI & ET & RW & (KT & VS & BL) & ->) S24 ZM. unfold bw_getData. rewrite ET. cbn [obind]. apply rd_inv in RW as (A0 & A1 & HW & ZW); [|lia].
  assert (PRE : forall n, 0 <= n <= zlen w -> rd m (a + 24) n = Ok (ztake n w)). { intros n N. rewrite <- (ztake_zskip n w) in HW. apply has_app in HW as [HW _]. apply has_rd in HW. rewrite zlen_take in HW by lia. replace (Z.min n (zlen w)) with n in HW by lia. exact HW. }
  unfold value_bytes. destruct (known_cases ty KT) as [(c & VC & C0 & NS & [(I4 & ->)|(I4 & IV & FX)])|[->|BH]].
  - rewrite NS, I4. rewrite VC in *. rewrite PRE by lia. cbn [obind]. eauto.
  - rewrite NS, I4, IV, FX. rewrite VC in *. replace (c <? 0) with false by lia. rewrite PRE by lia. cbn [obind]. eauto.
  - change (XBT_STRING =? XBT_STRING) with true. cbv iota. change (value_size XBT_STRING w) with (zlen (cstr w) + 1) in *. pose proof (cstr_split w ltac:(lia)) as (r & SP).
    rewrite SP in HW. replace (cstr w ++ 0 :: r) with ((cstr w ++ [0]) ++ r) in HW by (rewrite <- app_assoc; reflexivity). apply has_app in HW as [HW _].
    rewrite (has_text m (a + 24) (cstr w) (cstr_nz w) HW). cbn [obind]. replace (ztake (zlen (cstr w) + 1) w) with (cstr w ++ [0]); [eauto|]. assert (SP' : w = (cstr w ++ [0]) ++ r) by (rewrite <- app_assoc; exact SP). symmetry. rewrite SP' at 2. apply ztake_app_len. rewrite zlen_app. reflexivity.
  - specialize (BL BH). assert (VE : value_size ty w = 4 + unle (ztake 4 w)) by (destruct BH as [->| ->]; reflexivity). rewrite VE in *.
    replace (ty =? XBT_STRING) with false by (destruct BH as [->| ->]; reflexivity). replace (XBT_IS_4 ty) with false by (destruct BH as [->| ->]; reflexivity). replace (XBT_IS_VARSIZE ty) with true by (destruct BH as [->| ->]; reflexivity).
    unfold rd_s32 at 1. rewrite PRE by lia. cbn [obind]. rewrite s32_small by (unfold INT_MAX, int32 in *; lia). rewrite PRE by lia. cbn [obind].
    destruct (rd_some m (a + 28) (unle (ztake 4 w))) as [c RC]; [lia|lia|]. rewrite RC. cbn [obind]. eauto.
Qed.
(** A value of a document in the space of a new attribute *)
Lemma there_of ty w v : In ty known_types -> value_bytes ty w = v -> (forall pad, value_bytes ty (v ++ pad) = v) -> holdable ty v -> there ty w.
Proof.
  intros KT VB FV [_ HB]. split; [exact KT|]. pose proof (zlen_nonneg w) as W0. unfold value_bytes in *. destruct (known_cases ty KT) as [(c & VC & C0 & NS & KD)|[->|BH]].
  - rewrite VC in *. split.
    + pose proof (f_equal zlen (FV (zrepeat 0 c))) as Q. rewrite VC, zlen_take, zlen_app, zlen_repeat in Q by lia. pose proof (zlen_nonneg v). rewrite <- VB, zlen_take in Q by lia. lia.
    + intros [->| ->]; destruct KD as [[K _]|(_ & K & _)]; vm_compute in K; discriminate.
  - split; [|intros [?|?]; discriminate]. change (value_size XBT_STRING w) with (zlen (cstr w) + 1) in *. destruct (Z.le_gt_cases (zlen (cstr w) + 1) (zlen w)) as [|G]; [assumption|exfalso]. pose proof (cstr_len w).
    assert (CW : cstr w = w) by (destruct (cstr_prefix w) as (r0 & ER & _); pose proof (f_equal zlen ER) as Q; rewrite zlen_app in Q; destruct r0; [rewrite app_nil_r in ER; congruence|rewrite zlen_cons in Q; pose proof (zlen_nonneg r0); lia]). assert (E : v = w) by (rewrite <- VB; apply ztake_all; lia). subst v. rewrite E in FV. specialize (FV [1]). assert (C1 : cstr (w ++ [1]) = w ++ [1]). { clear - CW. revert CW. induction w as [|c w IH]; cbn; [reflexivity|]. destruct (c =? 0); [discriminate|]. intro Q. injection Q as Q. rewrite IH by exact Q. reflexivity. }
    change (value_size XBT_STRING (w ++ [1])) with (zlen (cstr (w ++ [1])) + 1) in FV. rewrite C1 in FV. rewrite ztake_all in FV by lia. apply (f_equal zlen) in FV. rewrite zlen_app in FV. change (zlen [1]) with 1 in FV. lia.
  - specialize (HB BH). assert (VE : forall w, value_size ty w = 4 + unle (ztake 4 w)) by (intro; destruct BH as [->| ->]; reflexivity). rewrite VE in *. assert (G4 : 4 <= 4 + unle (ztake 4 w)). { pose proof (f_equal zlen VB) as Q. destruct (Z.le_gt_cases (4 + unle (ztake 4 w)) 0); [rewrite ztake_0 in Q by lia; change (zlen []) with 0 in Q; lia|]. rewrite zlen_take in Q by lia. lia. }
    split; [|auto]. destruct (Z.le_gt_cases (4 + unle (ztake 4 w)) (zlen w)) as [|G]; [assumption|exfalso]. rewrite ztake_all in VB by lia. subst v. specialize (FV (zrepeat 0 (4 + unle (ztake 4 w)))). rewrite VE, (ztake_app_l 4 w) in FV by lia. apply (f_equal zlen) in FV. rewrite zlen_take, zlen_app, zlen_repeat in FV by lia. lia.
Qed.

(** ** The comparison as a function of the two lists of attributes *)
Section Pure.
Variables (fl : floats) (key : Z -> bool).
Fixpoint found (I E : list attr) (checked : list Z) : outcome (option (list Z)) :=
  match I with
  | [] => Ok (Some checked)
  | (id, ty, v) :: rest => if negb (key id) then found rest E checked else
      match find (fun a => attr_id a =? id) E with
      | None => Ok None
      | Some (_, ty', v') => obind (XBT_Equal fl ty v ty' v') (fun b => if negb b then Ok None else if negb (zlen checked <? MAX_PARAM_KEYS) then Ok None else found rest E (checked ++ [id]))
      end
  end.
Definition equal_keys I E : outcome bool :=
  obind (found I E []) (fun c => match c with None => Ok false | Some c => Ok (forallb (fun a => negb (key (attr_id a)) || isin (attr_id a) c) E) end).

Lemma find_none s m A E id : Forall2 (attr_at s m) A E -> find (fun a => attr_id a =? id) E = None -> forall a, In a A -> el_id m a <> Ok id.
Proof.
  intros FA FN a J. induction FA as [|a' [[i ty] v] A E H FA IH]; [destruct J|]. cbn [find attr_id fst] in FN. destruct (Z.eqb_spec i id) as [|NE] in FN; [discriminate|]. destruct J as [<-|J]; [|auto]. destruct H as (w & EI & _). congruence.
Qed.
Lemma find_some s m A E id ty v : Forall2 (attr_at s m) A E -> find (fun a => attr_id a =? id) E = Some (ty, v) -> exists l1 a l2, A = l1 ++ a :: l2 /\ attr_at s m a (ty, v) /\ el_id m a = Ok id /\ forall e, In e l1 -> el_id m e <> Ok id.
Proof.
  intros FA. induction FA as [|a [[i t] w] A E H FA IH]; [discriminate|]. cbn [find attr_id fst]. destruct (Z.eqb_spec i id) as [->|NE].
  - intro Q. injection Q as <- <-. exists [], a, A. split; [reflexivity|]. split; [exact H|]. split; [|intros e []]. destruct H as (? & EI & _). exact EI.
  - intro Q. destruct (IH Q) as (l1 & b & l2 & -> & HB & EB & NO). exists (a :: l1), b, l2. split; [reflexivity|]. split; [exact HB|]. split; [exact EB|]. intros e [<-|J]; [|auto]. destruct H as (? & EI & _). congruence.
Qed.
Lemma keys_in_ok s m x A E d y fuel : lists m x (x + 20) A -> Forall2 (attr_at s m) A E -> (forall a, In a A -> 24 <= s a) -> zlen m <= INT_MAX -> (List.length A <= fuel)%nat ->
  forall n i I checked, attrs_from n d y i = Ok I -> keys_in key n fuel fl d m x y i checked = Some (found I E checked).
Proof.
  intros LS FA S24 ZM FU. assert (HI : forall e, In e A -> has_id m e). { intros e J. clear - FA J. induction FA as [|a [[i t] w] A E H FA IH]; [destruct J|]. destruct J as [<-|J]; [|auto]. destruct H as (? & EI & _). exists i. exact EI. }
  induction n as [|n IH]; intros i I checked RA; cbn [attrs_from] in RA.
  - injection RA as <-. reflexivity.
  - apply obind_inv in RA as (q & GP & RA). destruct q as [q|]; [|discriminate]. apply obind_inv in RA as (id & PN & RA). apply obind_inv in RA as (r & GD & RA). apply obind_inv in RA as (v & RB & RA). apply obind_inv in RA as (l & RL & RA). injection RA as <-.
    cbn [keys_in found]. rewrite GP, rbind_ok, PN, rbind_ok. destruct (key id); cbn [negb]; [|apply IH, RL].
    destruct (find (fun a => attr_id a =? id) E) as [[[i' ty'] v']|] eqn:FE.
    + destruct (find_some _ _ _ _ _ _ _ FA FE) as (l1 & a & l2 & EA & HA & EI & NO). unfold attrGet. rewrite EA in LS, HI, FU, S24. rewrite (get_found _ _ _ _ _ _ _ _ LS HI EI NO FU). rewrite rbind_rret, GD, rbind_ok.
      destruct (dr_data r) as [p|] eqn:DP; [|discriminate RB]. destruct (get_there s m a i' ty' v' HA ltac:(apply S24; apply in_or_app; right; left; reflexivity) ZM) as (c & GD'). rewrite GD', rbind_ok, RB, rbind_ok.
      destruct (XBT_Equal fl (dr_type r) v ty' v') as [b| |]; cbn [obind rbind]; try reflexivity. destruct b; cbn [negb]; [|reflexivity]. destruct (zlen checked <? MAX_PARAM_KEYS); cbn [negb]; [|reflexivity]. apply IH, RL.
    + unfold attrGet. rewrite (get_none _ _ _ _ _ _ LS HI (find_none _ _ _ _ _ FA FE) FU). reflexivity.
Qed.
Lemma only_checked_ok s m x A checked : lists m x (x + 20) A -> (forall e, In e A -> bwe m x e = Ok e) -> forall l2 E2 l1 e fuel, A = l1 ++ e :: l2 -> Forall2 (attr_at s m) (e :: l2) E2 -> (List.length l2 < fuel)%nat ->
  only_checked key fuel m x checked e = rret (forallb (fun a => negb (key (attr_id a)) || isin (attr_id a) checked) E2).
Proof.
  intros (SO & SC & ND & NX) HF. induction l2 as [|y l2 IH]; intros E2 l1 e fuel E FA FU; (destruct fuel as [|fuel]; [cbn in FU; lia|]); cbn [only_checked]; destruct (NX l1 e _ E) as [_ EN]; cbn [hd] in EN; inversion FA as [|? [[i t] w] ? E3 H FA' EQ1 EQ2]; subst; destruct H as (ww & EI & _); rewrite EI, rbind_ok; cbn [forallb attr_id fst].
  - inversion FA'; subst. cbn [forallb]. rewrite andb_true_r. destruct (key i); cbn [andb negb orb].
    + destruct (isin i checked); cbn [negb]; [|reflexivity]. rewrite EN, rbind_ok. unfold el_attr. rewrite SC, rbind_ok, Z.eqb_refl. reflexivity.
    + rewrite EN, rbind_ok. unfold el_attr. rewrite SC, rbind_ok, Z.eqb_refl. reflexivity.
  - set (A := l1 ++ e :: y :: l2) in *. assert (E' : A = (l1 ++ [e]) ++ y :: l2) by (unfold A; rewrite <- app_assoc; reflexivity).
    assert (NF : y <> hd 0 A). { unfold A in *. destruct l1 as [|z l1]; cbn [app hd]; cbn [app] in ND; inversion ND as [|? ? N1 N2]; subst; intros ->; apply N1; [left; reflexivity|]. apply in_or_app. right. right. left. reflexivity. }
    assert (GO : rbind (Some (el_next m e)) (fun n => rbind (Some (el_attr m x)) (fun first => if n =? first then rret true else rbind (Some (bwe m x n)) (fun c => only_checked key fuel m x checked c))) =
      rret (forallb (fun a => negb (key (attr_id a)) || isin (attr_id a) checked) E3)).
    { rewrite EN, rbind_ok. unfold el_attr. rewrite SC, rbind_ok. destruct (Z.eqb_spec y (hd 0 A)); [congruence|]. rewrite HF, rbind_ok by (rewrite E'; apply in_or_app; right; left; reflexivity). apply (IH E3 (l1 ++ [e]) y fuel E' FA'). cbn in FU. lia. }
    destruct (key i); cbn [andb negb orb]; [|exact GO]. destruct (isin i checked); cbn [negb andb]; [exact GO|reflexivity].
Qed.
Lemma equal_keys_ok k s m T P F x A E d y I fuel : life k s m T P F -> In x (members F) -> owned F x false A -> Forall2 (attr_at s m) A E -> item_attrs d y = Ok I -> (List.length A <= fuel)%nat -> EqualKeys key fuel fl d m x y = Some (equal_keys I E).
Proof.
  intros LI IX OW FA IA FU. pose proof (life_whole _ _ _ _ _ _ LI) as (B & a & I0 & EL & _). destruct (names_pool _ _ _ _ _ _ _ I0) as [PO _]. pose proof (inv_list _ _ _ _ _ _ _ EL IX OW) as LS. change (x + field_of false) with (x + 20) in LS.
  assert (ZM : zlen m <= INT_MAX). { destruct (pool_len _ _ PO) as [IZ _]. unfold int32, INT_MAX in *. lia. }
  assert (S24 : forall e, In e A -> 24 <= s e). { intros e J. destruct (inv_in _ _ _ _ _ e EL PO (owned_members _ _ _ _ _ OW J)) as (_ & ? & _). assumption. }
  unfold item_attrs in IA. apply obind_inv in IA as (pc & PC & RA). unfold EqualKeys. rewrite PC, rbind_ok. rewrite (keys_in_ok s m x A E d y fuel LS FA S24 ZM FU _ _ _ [] RA). unfold equal_keys. destruct (found I E []) as [[c|]| |]; cbn [obind]; rewrite ?rbind_ok; try reflexivity.
  pose proof LS as (SO & SC & ND & NX). unfold el_attr. rewrite SC, rbind_ok. destruct A as [|e A]; cbn [hd].
  - inversion FA; subst. reflexivity.
  - destruct (NX [] e A eq_refl) as [E0 _]. replace (e =? 0) with false by lia. assert (HF : forall e', In e' (e :: A) -> bwe m x e' = Ok e'). { intros e' J. apply (follow_ok k s m T P F LI x e' IX). exact (owned_members _ _ _ _ _ OW J). }
    rewrite HF, rbind_ok by (left; reflexivity). apply (only_checked_ok s m x (e :: A) c LS HF A E [] e fuel eq_refl FA). cbn in FU. lia.
Qed.
End Pure.
