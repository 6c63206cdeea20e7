(** Appended elements are found, in order, after the children the document was converted with. *)
From Verif Require Import Base BaseFacts ListFacts Scan Types CalSpec RingProofs RoundtripProofs Sort SortProofs Symtab SymtabSpec SymtabProofs
  Xb XbSpec XbFacts XbSymProofs XbWrite DocSpec ReadSpec WriteProofs FillProofs InitProofs OpenProofs ReadProofs Append AppendSpec.

(** ** The same bytes further on *)
Definition shifts m m' d lo hi : Prop := forall q cs, has m q cs -> lo <= q -> q + zlen cs <= hi -> has m' (q + d) cs.
Lemma shifts_in m m' d lo hi lo' hi' : shifts m m' d lo hi -> lo <= lo' -> hi' <= hi -> shifts m m' d lo' hi'.
Proof. intros S A B q cs H C D. apply S; [exact H|lia|lia]. Qed.
Lemma inside_shift m m' d lo hi p bs : shifts m m' d lo hi -> inside m lo hi p bs -> inside m' (lo + d) (hi + d) (p + d) bs.
Proof. intros S (H & A & B). split; [apply S; assumption|lia]. Qed.

Definition moved (d : Z) (st : stored) : stored := mkstored (st_pos st + d) (st_bytes st) (st_wp st + d).
Lemma align_shift a d p : 0 < a -> d mod a = 0 -> align_up a (p + d) = align_up a p + d.
Proof. intros Ha Hd. pose proof (Z.div_mod d a ltac:(lia)) as E. rewrite Hd, Z.add_0_r in E. rewrite E, (Z.mul_comm a). apply align_up_add, Ha. Qed.
(** A distance that keeps the places of values of the type aligned. *)
Definition suits (d ty : Z) : Prop := d mod 4 = 0 /\ (d mod 8 = 0 \/ (ty <> XBT_INT64 /\ ty <> XBT_UINT64)).
Lemma FromString_shift fl v ty p limit d : suits d ty ->
  XBT_FromString fl v ty (p + d) (limit + d) = match XBT_FromString fl v ty p limit with Ok st => Ok (moved d st) | Fail => Fail | Ub => Ub end.
Proof.
  intros [D4 Hd]. unfold XBT_FromString.
  assert (E8 : align_up 8 (p + d) = align_up 8 p + d \/ (ty =? XBT_INT64) = false /\ (ty =? XBT_UINT64) = false).
  { destruct Hd as [Hd|[A B]]; [left; apply align_shift; [lia|exact Hd]|right; split; apply Z.eqb_neq; assumption]. }
  rewrite !(align_shift 4) by (lia || assumption). cbv zeta. destruct E8 as [->|[-> ->]].
  all: cbv iota.
  all: (
  replace (limit + d - (align_up 4 p + d + 4)) with (limit - (align_up 4 p + 4)) by lia;
  replace (limit + d <? align_up 4 p + d + 4) with (limit <? align_up 4 p + 4) by (destruct (Z.ltb_spec (limit + d) (align_up 4 p + d + 4)), (Z.ltb_spec limit (align_up 4 p + 4)); lia);
  assert (P : forall q bs, Ok (mkstored (q + d) bs (q + d + zlen bs)) = Ok (moved d (mkstored q bs (q + zlen bs)))) by (intros; unfold moved; cbn; do 2 f_equal; lia);
  repeat match goal with |- (if ?b then _ else _) = _ => destruct b end;
    repeat first [ rewrite P; reflexivity | reflexivity
      | match goal with |- context [obind (obind ?o _) _] => destruct o; cbn [obind] end
      | match goal with |- context [obind ?o _] => destruct o as [[? ?]| |]; cbn [obind] end
      | match goal with |- context [obind ?o _] => destruct o; cbn [obind] end
      | match goal with |- context [match ?l with [] => _ | _ => _ end] => destruct l end ]).
  all: try (destruct (ScanHex v 16) as [[? ?] ?]; destruct (_ =? _); rewrite ?P; reflexivity).
  all: try (destruct (ScanHex v 20) as [[? ?] ?]; destruct (_ =? _); rewrite ?P; reflexivity).
  all: destruct (ScanHex v _) as [[? ?] ?]; rewrite P; reflexivity.
Qed.

Section SHIFT.
Context (fl : floats) (cr : creator) (m m' : list Z) (d : Z).
Context (Hd : d mod 4 = 0) (Hd0 : 0 <= d).

Lemma value_shift p v limit e : (forall t, v = Some t -> suits d (XBT_Detect t)) -> shifts m m' d p e -> value_at fl m p v limit e -> value_at fl m' (p + d) v (limit + d) (e + d).
Proof using.
  intros Hv S (L & H). split; [lia|]. destruct v as [v|].
  - destruct H as (A & st & B & C & D). split; [apply inside_shift with (m := m); assumption|]. exists (moved d st).
    replace (p + d + 1) with (p + 1 + d) by lia. rewrite FromString_shift by (apply Hv; reflexivity). rewrite B. split; [reflexivity|]. unfold moved. cbn [st_pos st_bytes st_wp].
    split; [apply inside_shift with (m := m); assumption|lia].
  - destruct H as (A & B). split; [apply inside_shift with (m := m); assumption|lia].
Qed.
Lemma attr_shift x q a limit wp e : shifts m m' d q (q + 8) -> shifts m m' d wp e ->
  attr_at fl cr m x q a limit wp e -> attr_at fl cr m' (x + d) (q + d) a (limit + d) (wp + d) (e + d).
Proof using Hd.
  intros S S' (L & id & A & B & C). split; [lia|]. exists id. split; [exact A|].
  assert (I : forall p bs, inside m q (q + 8) p bs -> inside m' (q + d) (q + d + 8) (p + d) bs) by (intros p bs H; replace (q + d + 8) with (q + 8 + d) by lia; apply inside_shift with (m := m); assumption).
  assert (I2 : forall bs, inside m q (q + 8) (q + 2) bs -> inside m' (q + d) (q + d + 8) (q + d + 2) bs) by (intros bs H; replace (q + d + 2) with (q + 2 + d) by lia; auto).
  assert (I4 : forall bs, inside m q (q + 8) (q + 4) bs -> inside m' (q + d) (q + d + 8) (q + d + 4) bs) by (intros bs H; replace (q + d + 4) with (q + 4 + d) by lia; auto).
  split; [apply I, B|].
  assert (E4 : forall ty, XBT_Size2 ty 0 = Ok 4 -> XBT_FromString fl (snd a) ty (q + d + 4) (limit + d) = match XBT_FromString fl (snd a) ty (q + 4) limit with Ok st => Ok (moved d st) | Fail => Fail | Ub => Ub end)
    by (intros ty Ty; replace (q + d + 4) with (q + 4 + d) by lia; apply FromString_shift; split; [exact Hd|]; right; split; intros ->; discriminate Ty).
  destruct C as [(C & D & E & F)|(C & ty & T & D)]; [left|right].
  - split; [exact C|]. split; [apply I2, D|]. split; [apply I4, E|lia].
  - split; [exact C|]. exists ty. split; [exact T|]. destruct D as [(D & E & F & st & G & J)|(D & E & F & G & J)]; [left|right].
    + split; [exact D|]. split; [apply I2, E|]. split; [lia|]. exists (moved d st). rewrite E4, G by exact D. split; [reflexivity|]. apply I, J.
    + split.
      { destruct D as [D|D]; [left; exact D|]. assert (Sz : XBT_Size2 ty 0 = Ok 4 \/ XBT_Size2 ty 0 <> Ok 4).
        { destruct (XBT_Size2 ty 0) as [z| |]; [destruct (Z.eq_dec z 4) as [->|N]; [left; reflexivity|right; congruence]|right; discriminate|right; discriminate]. }
        destruct Sz as [Sz|Sz]; [right; rewrite E4, D by exact Sz; reflexivity|left; exact Sz]. }
      split; [apply I2, E|]. replace (wp + d - (x + d)) with (wp - x) by lia. split; [apply I4, F|].
      split; [apply inside_shift with (m := m); assumption|lia].
Qed.
Lemma attrs_shift x limit l : forall q wp e, shifts m m' d q (q + 8 * zlen l) -> shifts m m' d wp e ->
  attrs_at fl cr m x q l limit wp e -> attrs_at fl cr m' (x + d) (q + d) l (limit + d) (wp + d) (e + d).
Proof using Hd.
  induction l as [|a l IH]; intros q wp e S S'; cbn [attrs_at]; [lia|]. intros (e1 & A & B). rewrite zlen_cons in S. pose proof (zlen_nonneg l).
  pose proof (attrs_mono _ _ _ _ _ _ _ _ _ B). assert (wp <= e1) by apply A. exists (e1 + d).
  split; [apply attr_shift; [eapply shifts_in; [exact S|lia|lia]|eapply shifts_in; [exact S'|lia|lia]|exact A]|].
  replace (q + d + 8) with (q + 8 + d) by lia. apply IH; [eapply shifts_in; [exact S|lia|lia]|eapply shifts_in; [exact S'|lia|lia]|exact B].
Qed.
Lemma node_shift t : d mod 8 = 0 -> forall limit x e, shifts m m' d x e -> node_at fl cr m limit x e t -> node_at fl cr m' (limit + d) (x + d) (e + d) t.
Proof using Hd Hd0.
  intros H8. induction t as [n v a k IH] using node_ind'. intros limit x e S N. cbn [node_at] in *.
  destruct N as (id & e1 & e2 & N1 & N2 & N3 & N4 & N5 & N6 & N7 & N8 & N9 & N10). pose proof (zlen_nonneg a). pose proof (zlen_nonneg k).
  pose proof (attrs_mono _ _ _ _ _ _ _ _ _ N9) as Ma. pose proof (kids_mono _ _ _ _ _ _ _ N10) as Mk. assert (Mv : x + 12 + 8 * zlen a + 4 * zlen k < e1) by apply N8.
  exists id, (e1 + d), (e2 + d). split; [exact N1|]. split; [lia|]. split; [lia|]. split; [exact N4|]. split; [exact N5|].
  split; [replace (x + d + 8) with (x + 8 + d) by lia; apply inside_shift with (m := m); [eapply shifts_in; [exact S|lia|lia]|exact N6]|].
  split; [replace (x + d + 8) with (x + 8 + d) by lia; replace (x + d + 12) with (x + 12 + d) by lia; replace (e + d - (x + d)) with (e - x) by lia; apply inside_shift with (m := m); [eapply shifts_in; [exact S|lia|lia]|exact N7]|].
  split; [replace (x + d + 12 + 8 * zlen a + 4 * zlen k) with (x + 12 + 8 * zlen a + 4 * zlen k + d) by lia; apply value_shift; [intros w _; split; [exact Hd|left; exact H8]|eapply shifts_in; [exact S|lia|lia]|exact N8]|].
  split; [replace (x + d + 12) with (x + 12 + d) by lia; apply attrs_shift; [eapply shifts_in; [exact S|lia|lia]|eapply shifts_in; [exact S|lia|lia]|exact N9]|].
  replace (x + d + 12 + 8 * zlen a) with (x + 12 + 8 * zlen a + d) by lia.
  assert (K : forall l c wp, Forall (fun t => In t k) l -> x <= c -> c + 4 * zlen l <= e1 -> e1 <= wp -> kids_at (fun y e t => node_at fl cr m limit y e t) m x c l wp e ->
     kids_at (fun y e t => node_at fl cr m' (limit + d) y e t) m' (x + d) (c + d) l (wp + d) (e + d)).
  { clear N9 N10 Ma Mk e2. induction l as [|t l IHl]; intros c wp Hl Hc Hc1 Hw Hk; cbn [kids_at] in *; [lia|].
    destruct Hk as (e3 & K1 & K2 & K3 & K4). inversion Hl as [|? ? Ht Hl']; subst. rewrite zlen_cons in Hc1. pose proof (zlen_nonneg l). pose proof (align_up_ge 4 wp ltac:(lia)) as Wg.
    pose proof (kids_mono _ _ _ _ _ _ _ K4) as Mk. rewrite (align_shift 4) by lia. exists (e3 + d). rewrite Forall_forall in IH.
    split; [apply IH; [exact Ht|eapply shifts_in; [exact S|lia|lia]|exact K1]|]. split; [lia|].
    split; [replace (c + d + 4) with (c + 4 + d) by lia; replace (align_up 4 wp + d - (x + d)) with (align_up 4 wp - x) by lia; apply inside_shift with (m := m); [eapply shifts_in; [exact S|lia|lia]|exact K3]|].
    replace (c + d + 4) with (c + 4 + d) by lia. apply IHl; [exact Hl'|lia|lia|lia|exact K4]. }
  apply K; [apply Forall_forall; auto|lia|lia|lia|exact N10].
Qed.
End SHIFT.

(** ** One append *)
Lemma has_after f g q cs : has g q cs -> has (f ++ g) (zlen f + q) cs.
Proof. intros (a & b & -> & <-). exists (f ++ a), b. rewrite zlen_app. split; [|reflexivity]. rewrite <- app_assoc. reflexivity. Qed.
Lemma has_before f g q cs : has f q cs -> has (f ++ g) q cs.
Proof. intros (a & b & -> & <-). exists a, (b ++ g). rewrite <- !app_assoc. auto. Qed.
Lemma before_moves f g lo hi : moves f (f ++ g) lo hi.
Proof. intros q cs H _ _. apply has_before, H. Qed.
Lemma has_zskip m p q cs : 0 <= p <= q -> has m q cs -> has (zskip p m) (q - p) cs.
Proof.
  intros Hp (a & b & -> & <-). exists (zskip p a), b. rewrite zlen_skip by lia. split; [|lia]. rewrite zskip_app_le by lia. reflexivity.
Qed.
Lemma slice_shifts m f lo n : 0 <= lo -> 0 <= n -> shifts m (f ++ slice m lo n) (zlen f - lo) lo (lo + n).
Proof.
  intros Hl Hn q cs H A B. replace (q + (zlen f - lo)) with (zlen f + (q - lo)) by lia. apply has_after. unfold slice. apply has_take; [|lia]. apply has_zskip; [lia|exact H].
Qed.

Section APPEND.
Context (fl : floats) (cr : creator) (T : types_ok (cr_params cr)).

Lemma append_ok data f t data' bs : (forall u, In u (elements t) -> element_fits u /\ no_hex_attr u) -> append_bytes fl cr data f t = Ok (data', bs) ->
  zlen data' = zlen data /\ (bytes data -> bytes data' /\ bytes bs) /\
  exists limit, node_at fl cr (f ++ bs) limit (align_up 4 (zlen f)) (zlen f + zlen bs) t.
Proof using T.
  intros G H. unfold append_bytes in H. cbv zeta in H. set (fa := zlen f mod 16) in *. pose proof (zlen_nonneg f) as F0. assert (Fa : 0 <= fa < 16) by (unfold fa; lia).
  destruct (WriteNode fl cr data (align_up 4 fa) t) as [[[d' wp] x]| |] eqn:E; [|discriminate H|discriminate H]. cbn [obind] in H.
  apply (f_equal (fun o => match o with Ok p => p | _ => ([], []) end)) in H. injection H as <- <-.
  pose proof (align_up_ge 4 fa ltac:(lia)) as Ag.
  destruct (WriteNode_ok fl cr t T G data (align_up 4 fa) d' wp x ltac:(lia) E) as (Ex & B & (L & By & _) & N).
  assert (E2 : align_up 4 (align_up 4 fa) = align_up 4 fa) by (apply align_up_id; [lia|apply align_up_mod; lia]). rewrite E2 in Ex. subst x.
  split; [exact L|]. split; [intros Hb; split; [apply By, Hb|unfold slice; apply bytes_take, bytes_skip, By, Hb]|].
  assert (Ls : zlen (slice d' fa (wp - fa)) = wp - fa) by (unfold slice; rewrite zlen_take, zlen_skip by lia; lia).
  exists (zlen data + (zlen f - fa)). assert (Dm : (zlen f - fa) mod 16 = 0) by (unfold fa; lia).
  replace (align_up 4 (zlen f)) with (align_up 4 fa + (zlen f - fa)) by (rewrite <- align_shift by lia; f_equal; lia).
  replace (zlen f + zlen (slice d' fa (wp - fa))) with (wp + (zlen f - fa)) by lia.
  eapply node_shift; [clear - Dm; lia|unfold fa; lia|clear - Dm; lia| |exact N]. replace wp with (fa + (wp - fa)) at 2 by lia. eapply shifts_in; [apply slice_shifts; lia|lia|lia].
Qed.

(** The elements [l] stand one after the other from [o] to [e], each at the next multiple of four. *)
Fixpoint chain m o (l : list node) e : Prop :=
  match l with
  | [] => e = o
  | t :: r => exists limit e1, node_at fl cr m limit (align_up 4 o) e1 t /\ chain m e1 r e
  end.
Lemma chain_mono m l : forall o e, chain m o l e -> o <= e.
Proof using.
  induction l as [|t l IH]; intros o e; cbn [chain]; [lia|]. intros (limit & e1 & A & B). apply IH in B. apply node_mono in A. pose proof (align_up_ge 4 o ltac:(lia)). lia.
Qed.
Lemma chain_frame m m' l : forall o e, moves m m' o e -> chain m o l e -> chain m' o l e.
Proof using.
  induction l as [|t l IH]; intros o e S; cbn [chain]; [auto|]. intros (limit & e1 & A & B). pose proof (chain_mono _ _ _ _ B). pose proof (node_mono _ _ _ _ _ _ _ A) as (A1 & _).
  pose proof (align_up_ge 4 o ltac:(lia)). exists limit, e1. split; [eapply node_frame; [eapply moves_in; [exact S|lia|lia]|exact A]|]. apply IH; [eapply moves_in; [exact S|lia|lia]|exact B].
Qed.
Lemma chain_app m l : forall l' o e1 e2, chain m o l e1 -> chain m e1 l' e2 -> chain m o (l ++ l') e2.
Proof using.
  induction l as [|t l IH]; intros l' o e1 e2 A B; cbn [app chain] in *; [subst; exact B|]. destruct A as (limit & e & A1 & A2). exists limit, e. split; [exact A1|]. eapply IH; eassumption.
Qed.

Lemma Appends_ok l : Forall (fun t => forall u, In u (elements t) -> element_fits u /\ no_hex_attr u) l ->
  forall data f data' f', Appends fl cr data f l = Ok (data', f') ->
  zlen data' = zlen data /\ (bytes data -> bytes data') /\ exists g, f' = f ++ g /\ (bytes data -> bytes g) /\ chain f' (zlen f) l (zlen f').
Proof using T.
  induction 1 as [|t l G _ IH]; intros data f data' f' H; cbn [Appends] in H.
  - apply (f_equal (fun o => match o with Ok p => p | _ => ([], []) end)) in H. injection H as <- <-. split; [reflexivity|]. split; [auto|]. exists []. rewrite app_nil_r. split; [reflexivity|]. split; [constructor|reflexivity].
  - unfold Append in H. destruct (append_bytes fl cr data f t) as [[d1 bs]| |] eqn:E; [|discriminate H|discriminate H]. cbn [obind] in H.
    destruct (append_ok _ _ _ _ _ G E) as (L1 & B1 & limit & N). destruct (IH _ _ _ _ H) as (L2 & B2 & g & -> & B3 & C).
    split; [lia|]. split; [intros Hb; apply B2, B1, Hb|]. exists (bs ++ g). rewrite <- app_assoc. split; [reflexivity|]. split; [intros Hb; rewrite bytes_app; split; [apply B1, Hb|apply B3, B1, Hb]|].
    cbn [chain]. exists limit, (zlen f + zlen bs). rewrite <- app_assoc in C. rewrite zlen_app in C. split; [|exact C]. rewrite app_assoc. eapply node_frame; [apply before_moves|exact N].
Qed.
End APPEND.

(** ** The loop of the client *)
(** After [e] there is nothing, or the beginning of an element that is not complete. *)
Definition no_more m e : Prop :=
  zlen m < align_up 4 e + 12 \/ exists len, has m (align_up 4 e + 8) (le 4 len) /\ int32 len /\ zlen m < align_up 4 e + len <= INT_MAX.

Section LOOP.
Context (fl : floats) (cr : creator) (m : list Z) (x cc : Z).
Context (Hm : zlen m + 16 <= INT_MAX) (Hcc : it_childcount m x = Ok cc) (Hcc1 : 1 <= cc).

Lemma size_s32 : s32 (zlen m) = zlen m.
Proof using Hm. pose proof (zlen_nonneg m). unfold INT_MAX in *. unfold s32. lia. Qed.

Definition appended_at i : outcome (option Z * Z) :=
  if s32 (zlen m) <? align_up 4 (- i) + 12 then Ok (None, i)
  else obind (it_length m (align_up 4 (- i))) (fun len =>
       if negb (int32b (align_up 4 (- i) + len)) then Ub
       else if s32 (zlen m) <? align_up 4 (- i) + len then Ok (None, i)
       else Ok (Some (align_up 4 (- i)), - align_up 4 (align_up 4 (- i) + len))).
Lemma next_appended i : i < 0 -> getNextChild m (Some x) i = appended_at i.
Proof using Hcc Hcc1. intros Hi. unfold getNextChild. rewrite Hcc. cbn [obind]. destruct (Z.leb_spec cc i); [lia|]. destruct (Z.leb_spec 0 i); [lia|]. reflexivity. Qed.

Lemma appended_some i limit e t : node_at fl cr m limit (align_up 4 (- i)) e t -> e <= zlen m -> appended_at i = Ok (Some (align_up 4 (- i)), - align_up 4 e).
Proof using Hm.
  intros N He. pose proof (node_mono _ _ _ _ _ _ _ N) as (A & B & C). destruct t as [n v a k]. cbn [node_at] in N. destruct N as (id & e1 & e2 & _ & _ & _ & _ & _ & _ & (N & _) & _).
  set (o := align_up 4 (- i)) in *. unfold appended_at. fold o. rewrite size_s32. destruct (Z.ltb_spec (zlen m) (o + 12)); [lia|]. unfold it_length.
  rewrite (has_s32 _ _ (e - o) ltac:(unfold int32, INT_MIN, INT_MAX in *; lia) N). cbn [obind]. replace (o + (e - o)) with e by lia.
  destruct (Z.ltb_spec (zlen m) e); [lia|]. assert (I : int32b e = true) by (unfold int32b, INT_MIN, INT_MAX in *; lia). rewrite I. reflexivity.
Qed.
Lemma appended_none i e : align_up 4 (- i) = align_up 4 e -> 0 <= e <= zlen m -> no_more m e -> appended_at i = Ok (None, i).
Proof using Hm.
  intros E He N. unfold appended_at. rewrite E, size_s32. pose proof (align_up_ge 4 e ltac:(lia)) as Ag. destruct (Z.ltb_spec (zlen m) (align_up 4 e + 12)); [reflexivity|].
  destruct N as [N|(len & N1 & N2 & N3)]; [lia|]. unfold it_length. rewrite (has_s32 _ _ len N2 N1). cbn [obind].
  assert (I : int32b (align_up 4 e + len) = true) by (unfold int32b, INT_MIN, INT_MAX in *; lia). rewrite I. destruct (Z.ltb_spec (zlen m) (align_up 4 e + len)); [reflexivity|lia].
Qed.

Definition stands y (t : node) : Prop := exists limit e, node_at fl cr m limit y e t /\ e <= zlen m.

(** From the first appended element on. *)
Lemma loop_chain l : forall o e i c, 0 < o -> chain fl cr m o l e -> e <= zlen m -> no_more m e -> align_up 4 (- i) = align_up 4 o ->
  (forall j, j < 0 -> align_up 4 (- j) = align_up 4 o -> getNextChild m (Some x) j = appended_at j) -> getNextChild m (Some x) c = appended_at i ->
  exists ys, Forall2 stands ys l /\ forall fuel, (List.length l < fuel)%nat -> all_children fuel m x c = rret ys.
Proof using Hm Hcc Hcc1.
  induction l as [|t l IH]; intros o e i c Ho C He Nm Hi Hj Hc; cbn [chain] in C.
  - subst e. exists []. split; [constructor|]. intros fuel Hf. destruct fuel as [|k]; [cbn in Hf; lia|]. cbn [all_children]. rewrite Hc.
    rewrite (appended_none i o Hi ltac:(lia) Nm). change (Some (Ok (@None Z, i))) with (rret (@None Z, i)). rewrite rbind_ret. reflexivity.
  - destruct C as (limit & e1 & N & C). pose proof (chain_mono _ _ _ _ _ _ C) as Mc. pose proof (node_mono _ _ _ _ _ _ _ N) as (N1 & _).
    pose proof (align_up_ge 4 o ltac:(lia)) as Ag. pose proof (align_up_ge 4 e1 ltac:(lia)) as Ag1.
    assert (E2 : align_up 4 (- - align_up 4 e1) = align_up 4 e1) by (rewrite Z.opp_involutive; apply align_up_id; [lia|apply align_up_mod; lia]).
    destruct (IH e1 e (- align_up 4 e1) (- align_up 4 e1) ltac:(lia) C He Nm E2) as (ys & F & K); [intros j Hj0 _; apply next_appended, Hj0|apply next_appended; lia|].
    exists (align_up 4 o :: ys). split; [constructor; [exists limit, e1; split; [exact N|lia]|exact F]|]. intros fuel Hf. destruct fuel as [|k]; [lia|]. cbn [List.length] in Hf. cbn [all_children].
    rewrite Hc. rewrite <- Hi in N. rewrite (appended_some i limit e1 t N ltac:(lia)). rewrite Hi. change (Some (Ok (Some (align_up 4 o), - align_up 4 e1))) with (rret (Some (align_up 4 o), - align_up 4 e1)).
    rewrite rbind_ret. cbv beta iota. rewrite (K k ltac:(lia)). rewrite rbind_ret. reflexivity.
Qed.

(** The children of the element itself, then the appended ones. *)
Lemma loop_kids pc size old last l : it_paramcount m x = Ok pc -> 0 <= x -> 0 <= pc -> 0 < size -> it_length m 0 = Ok size -> cc = zlen old + 1 ->
  (forall t id, In t old -> find_ (name_of t) (cr_tags cr) = Ok id -> int32 id /\ s16 id = id /\ id <> XTNR_ET_TECERA) -> find_ (name_of last) (cr_tags cr) = Ok XTNR_ET_TECERA ->
  forall e, chain fl cr m size l e -> e <= zlen m -> no_more m e ->
  forall limit old2 i wp e', 0 <= i -> zlen old2 + i = zlen old -> incl old2 old -> 0 <= wp -> e' <= zlen m ->
  kids_at (fun y e t => node_at fl cr m limit y e t) m x (x + 12 + 8 * pc + 4 * i) (old2 ++ [last]) wp e' ->
  exists ys, Forall2 stands ys (old2 ++ l) /\ forall fuel, (List.length (old2 ++ l) < fuel)%nat -> all_children fuel m x i = rret ys.
Proof using Hm Hcc Hcc1.
  intros Hpc Hx Hpc0 Hs Hl Ecc Hold Hlast e C He Nm limit.
  assert (Step : forall t i y e1, 0 <= i < cc -> has m (x + 12 + 8 * pc + 4 * i) (le 4 (y - x)) -> node_at fl cr m limit y e1 t -> e1 <= zlen m -> x <= zlen m ->
     exists id, find_ (name_of t) (cr_tags cr) = Ok id /\ (s16 id = id -> getNextChild m (Some x) i = if id =? XTNR_ET_TECERA then appended_at (- size) else Ok (Some y, i + 1))).
  { intros t i y e1 Hi H N He1 Hxm. pose proof (node_mono _ _ _ _ _ _ _ N) as (N1 & _ & N0). destruct t as [n v a k]. cbn [node_at] in N. destruct N as (id & e2 & e3 & F & _ & _ & _ & _ & (N & _) & _).
    exists id. split; [exact F|]. intros Hid. unfold getNextChild. rewrite Hcc. cbn [obind]. destruct (Z.leb_spec cc i); [lia|]. destruct (Z.leb_spec 0 i); [|lia].
    unfold children_pos. rewrite Hpc. cbn [obind].
    rewrite (has_s32 _ _ (y - x) ltac:(unfold int32, INT_MIN, INT_MAX in *; lia) H). cbn [obind].
    replace (x + (y - x)) with y by lia. apply head_split in N. destruct N as (N & _). unfold it_name at 1. rewrite (has_s16 _ _ id ltac:(unfold s16 in Hid; lia) N). cbn [obind].
    destruct (Z.eqb_spec id XTNR_ET_TECERA); cbn [negb]; [|reflexivity]. rewrite Hl. cbn [obind]. unfold appended_at. reflexivity. }
  induction old2 as [|t r IH]; intros i wp e' Hi Hi2 Hincl Hw He' K.
  - cbn [app kids_at] in K. destruct K as (e1 & K1 & K2 & (K3 & _) & ->). cbn [app]. change (zlen (@nil node)) with 0 in Hi2.
    pose proof (node_mono _ _ _ _ _ _ _ K1) as (_ & _ & K0). assert (Hxm : x <= zlen m) by (pose proof (has_range _ _ _ K3) as Hr; rewrite le_zlen in Hr; lia).
    destruct (Step last i _ _ ltac:(lia) K3 K1 ltac:(lia) Hxm) as (id & F & E). rewrite Hlast in F. inversion F; subst id. specialize (E eq_refl). change (XTNR_ET_TECERA =? XTNR_ET_TECERA) with true in E. cbv iota in E.
    apply (loop_chain l size e (- size) i Hs C He Nm); [rewrite Z.opp_involutive; reflexivity|intros j Hj _; apply next_appended, Hj|exact E].
  - cbn [app kids_at] in K. destruct K as (e1 & K1 & K2 & (K3 & _) & K4). rewrite zlen_cons in Hi2. pose proof (zlen_nonneg r). pose proof (kids_mono _ _ _ _ _ _ _ K4) as Mk.
    pose proof (node_mono _ _ _ _ _ _ _ K1) as (K5 & _ & K0). assert (Hxm : x <= zlen m) by (pose proof (has_range _ _ _ K3) as Hr; rewrite le_zlen in Hr; lia).
    destruct (Step t i _ _ ltac:(lia) K3 K1 ltac:(lia) Hxm) as (id & F & E). destruct (Hold t id (Hincl t (or_introl eq_refl)) F) as (_ & H16 & Hne). specialize (E H16).
    destruct (Z.eqb_spec id XTNR_ET_TECERA); [contradiction|]. replace (x + 12 + 8 * pc + 4 * i + 4) with (x + 12 + 8 * pc + 4 * (i + 1)) in K4 by lia.
    destruct (IH (i + 1) e1 e' ltac:(lia) ltac:(lia) (fun u Hu => Hincl u (or_intror Hu)) ltac:(lia) He' K4) as (ys & F2 & A).
    exists (align_up 4 wp :: ys). split; [constructor; [exists limit, e1; split; [exact K1|lia]|exact F2]|]. intros fuel Hf. destruct fuel as [|k]; [lia|]. cbn [List.length app] in Hf. cbn [all_children].
    rewrite E. change (Some (Ok (Some (align_up 4 wp), i + 1))) with (rret (Some (align_up 4 wp), i + 1)). rewrite rbind_ret. cbv beta iota. rewrite (A k ltac:(lia)). rewrite rbind_ret. reflexivity.
Qed.
End LOOP.

(** ** The document *)
Lemma find_not_end t s id : name_limits t -> s <> lit "et-tecera" -> find_ s t = Ok id -> int32 id /\ s16 id = id /\ id <> XTNR_ET_TECERA.
Proof.
  intros (G & L & _) Hs F. unfold find_ in F. destruct (find_ok s t G Hs) as (i & Fi & [[Hi _]|[Hi _]]); rewrite Fi in F; inversion F; subst i;
    unfold int32, INT_MIN, INT_MAX, s16, XTNR_ET_TECERA; lia.
Qed.
Lemma chain_from fl cr m l o o' e : align_up 4 o = align_up 4 o' -> (l = [] -> o' = e) -> chain fl cr m o l e -> chain fl cr m o' l e.
Proof. intros E H. destruct l as [|t l]; cbn [chain]; [intros; symmetry; apply H; reflexivity|]. rewrite E. auto. Qed.

(** The record of the root element, with one child more than [old]. *)
Definition root_at fl cr m x root (old : list node) : Prop :=
  exists limit id e1 e2, find_ (name_of root) (cr_tags cr) = Ok id /\ 0 <= x /\ zlen (attrs_of root) <= 32767 /\ zlen old + 1 <= INT_MAX /\
  has m x (le 2 id ++ le 2 (zlen (attrs_of root)) ++ le 4 (zlen old + 1)) /\
  value_at fl m (x + 12 + 8 * zlen (attrs_of root) + 4 * (zlen old + 1)) (value_of root) limit e1 /\ attrs_at fl cr m x (x + 12) (attrs_of root) limit e1 e2.

Lemma grown_places fl m filename modified root old img cr data ts data' f junk : bytes m -> bytes data -> bytes junk -> cstring filename ->
  document_fits root -> (forall u, In u (elements root) -> no_hex_attr u) -> open_ended root old -> Make_xb fl m filename modified root = rret img -> MakeSymbolTable root = rret cr ->
  Forall (named_in root) ts -> Appends fl cr data img ts = Ok (data', f) -> zlen (f ++ junk) + 16 <= INT_MAX -> no_more (f ++ junk) (zlen f) ->
  forall k, exists R x ys, Initialize (S k) (f ++ junk) = rret R /\ rd_root R = Some x /\ Forall2 (stands fl cr (f ++ junk)) ys (old ++ ts) /\ made root cr /\ bytes (f ++ junk) /\
    table_names (f ++ junk) (rd_tags R) (names (cr_tags cr)) /\ table_names (f ++ junk) (rd_params R) (names (cr_params cr)) /\
    (forall fuel, (List.length (old ++ ts) < fuel)%nat -> all_children fuel (f ++ junk) x 0 = rret ys) /\ root_at fl cr (f ++ junk) x root old.
Proof.
  intros Hb Hbd Hbj Hf F S (O1 & last & O2 & O3) H Ecr Bl HA Hm Nm k.
  destruct (Make_xb_tables _ _ _ _ _ _ F Hf H) as (cr' & size & y1 & e1 & y2 & e2 & y3 & x & M & D & L & _ & Bi & Li & Ecr').
  rewrite Ecr in Ecr'. inversion Ecr'; subst cr'. clear Ecr'. pose proof M as (A1 & A2 & A3 & A4 & A5 & A6 & A7).
  assert (T : types_ok (cr_params cr)) by (apply A6; exact S).
  destruct (Appends_ok fl cr T ts) with (data := data) (f := img) (data' := data') (f' := f) as (_ & _ & g & Eg & Bg & C); [|exact HA|].
  { eapply Forall_impl; [|exact Bl]. intros t Ht u Hu. destruct (Ht u Hu) as (B1 & B2 & _). auto. }
  set (m' := f ++ junk) in *. assert (Em : m' = img ++ (g ++ junk)) by (unfold m'; rewrite Eg, app_assoc; reflexivity).
  assert (Bm : bytes m') by (rewrite Em, !bytes_app; auto). pose proof (zlen_nonneg g). pose proof (zlen_nonneg junk).
  assert (Lm : zlen m' = zlen img + (zlen g + zlen junk)) by (rewrite Em, !zlen_app; lia). assert (Lf : zlen f = zlen img + zlen g) by (rewrite Eg, zlen_app; lia).
  assert (Hi : int32 (zlen m')) by (pose proof (zlen_nonneg m'); unfold int32, INT_MIN, INT_MAX in *; lia).
  assert (D' : doc_at fl cr m' (zlen m) size filename root y1 e1 y2 e2 y3 x) by (rewrite Em; eapply doc_frame; [apply before_moves|exact D]).
  destruct (Initialize_doc fl cr m' (zlen m) size filename root y1 e1 y2 e2 y3 x D' Hf ltac:(lia) Hi A1 A2 k) as (R & E & Ex & T1 & T2).
  destruct (doc_head fl cr m' (zlen m) size filename root y1 e1 y2 e2 y3 x D' ltac:(lia) Hi) as (_ & _ & _ & Hlen).
  assert (P : payload_at fl cr m' (zlen m) y3 x size root) by apply D'. destruct P as (_ & P1 & _ & P2 & _ & _ & _ & _ & _ & N).
  assert (Hg : good_source cr root) by (split; [exact T|exact S]). specialize (N Hg).
  assert (Q : 58 <= y3) by (pose proof (doc_order fl cr m' (zlen m) size filename root y1 e1 y2 e2 y3 x D' ltac:(lia) Hi) as O; lia).
  assert (C' : chain fl cr m' size ts (zlen f) \/ ts = [] /\ zlen f = zlen img).
  { destruct ts as [|t ts]; [right; split; [reflexivity|]; cbn [chain] in C; exact C|left]. apply (chain_from fl cr m' (t :: ts) (zlen img) size (zlen f)).
    - rewrite Li. apply align_up_id; [lia|apply align_up_mod; lia].
    - discriminate.
    - unfold m'. eapply chain_frame; [apply before_moves|exact C]. }
  assert (C2 : exists e, chain fl cr m' size ts e /\ e <= zlen m' /\ no_more m' e).
  { destruct C' as [C'|(-> & C')]; [exists (zlen f); split; [exact C'|split; [lia|exact Nm]]|]. exists size. split; [reflexivity|]. split; [lia|]. unfold no_more in *. rewrite C' in Nm.
    assert (Es : align_up 4 size = align_up 4 (zlen img)) by (rewrite Li; symmetry; apply align_up_id; [lia|apply align_up_mod; lia]). rewrite Es. exact Nm. }
  destruct C2 as (e & C2 & C3 & C4). destruct root as [rn rv ra rk]. cbn [kids_of] in O3. subst rk. cbn [node_at] in N.
  destruct N as (id & e3 & e4 & N1 & N2 & N3 & N4 & N5 & (N6 & _) & (N7 & _) & N8 & N9 & N10). pose proof N6 as N6'. apply head_split in N6. destruct N6 as (_ & H2 & H3).
  pose proof (zlen_nonneg ra). pose proof (zlen_nonneg old).
  assert (Lk : zlen (old ++ [last]) = zlen old + 1) by (rewrite zlen_app; reflexivity). rewrite Lk in *.
  assert (E2 : it_paramcount m' x = Ok (zlen ra)) by (apply has_s16; [lia|exact H2]).
  assert (E3 : it_childcount m' x = Ok (zlen old + 1)) by (apply has_s32; [unfold int32, INT_MIN, INT_MAX in *; lia|exact H3]).
  destruct (loop_kids fl cr m' x (zlen old + 1) Hm E3 ltac:(lia) (zlen ra) size old last ts E2 N3 ltac:(lia) ltac:(lia) Hlen eq_refl) with (e := e) (limit := zlen m) (old2 := old) (i := 0) (wp := e4) (e' := size) as (ys & K1 & K2); try assumption; try lia.
  - intros t id' Ht. apply find_not_end; [exact A1|apply O1, Ht].
  - unfold find_. rewrite O2, find_et_tecera. reflexivity.
  - intros u Hu. exact Hu.
  - pose proof (attrs_mono _ _ _ _ _ _ _ _ _ N9). assert (x + 12 + 8 * zlen ra + 4 * (zlen old + 1) < e3) by apply N8. lia.
  - replace (x + 12 + 8 * zlen ra + 4 * 0) with (x + 12 + 8 * zlen ra) by lia. exact N10.
  - assert (Rt : root_at fl cr m' x (Node rn rv ra (old ++ [last])) old) by (exists (zlen m), id, e3, e4; auto 10). exists R, x, ys. auto 12.
Qed.

Lemma named_tables root cr old ts : made root cr -> Forall (named_in root) ts -> incl old (kids_of root) -> document_fits root ->
  forall t, In t (old ++ ts) -> forall u, In u (elements t) -> element_fits u /\ In (name_of u) (names (cr_tags cr)) /\ forall n v, In (n, v) (attrs_of u) -> In n (names (cr_params cr)).
Proof.
  intros (A1 & A2 & A3 & A4 & A5 & A6 & A7) Bl Ho F t Ht u Hu. apply in_app_or in Ht. destruct Ht as [Ht|Ht].
  - destruct root as [rn rv ra rk]. assert (Hr : In u (elements (Node rn rv ra rk))) by (eapply elements_kids; [|exact Hu]; apply (Ho t Ht)).
    split; [apply (proj1 F _ Hr)|]. apply (A5 _ Hr).
  - rewrite Forall_forall in Bl. destruct (Bl t Ht u Hu) as (B1 & _ & B3 & B4). split; [exact B1|].
    split; [apply in_map_iff in B3; destruct B3 as (w & <- & Hw); apply (A5 _ Hw)|]. intros n v Ha. specialize (B4 _ Ha). apply in_map_iff in B4. destruct B4 as ((n' & v') & En & Hw). cbn [fst] in En. subst n'.
    apply in_flat_map in Hw. destruct Hw as (w & Hw & Hv). apply (proj2 (A5 _ Hw) _ _ Hv).
Qed.

Lemma node_looks fl cr m limit R y e t : name_limits (cr_tags cr) -> table_names m (rd_tags R) (names (cr_tags cr)) -> In (name_of t) (names (cr_tags cr)) -> node_at fl cr m limit y e t -> looks_like m R y t.
Proof.
  intros A1 T1 Hn N. destruct t as [n v a k]. cbn [node_at name_of attrs_of kids_of] in *. destruct N as (id & e1 & e2 & N1 & N2 & N3 & N4 & N5 & (N6 & _) & _).
  pose proof (zlen_nonneg a). pose proof (zlen_nonneg k). destruct (find_symbol m (rd_tags R) _ _ id A1 T1 (or_introl Hn) N1) as (I1 & I2). assert (Hid : zlen (cr_tags cr) <= 32768) by apply A1.
  apply head_split in N6. destruct N6 as (H1 & H2 & H3). unfold looks_like. cbn [name_of attrs_of kids_of]. unfold it_name. rewrite (has_s16 _ _ id ltac:(lia) H1). cbn [obind]. split; [exact I2|].
  split; [apply has_s16; [lia|exact H2]|apply has_s32; [unfold int32, INT_MIN, INT_MAX in *; lia|exact H3]].
Qed.

Lemma Forall2_right {A B} (P Q : A -> B -> Prop) xs ys : Forall2 P xs ys -> (forall x y, In y ys -> P x y -> Q x y) -> Forall2 Q xs ys.
Proof. induction 1 as [|x y xs ys H _ IH]; intros K; constructor; [apply K; [left; reflexivity|exact H]|apply IH; intros; apply K; [right; assumption|assumption]]. Qed.

Lemma grown_looks fl m filename modified root old img cr data ts data' f junk : bytes m -> bytes data -> bytes junk -> cstring filename ->
  document_fits root -> (forall u, In u (elements root) -> no_hex_attr u) -> open_ended root old -> Make_xb fl m filename modified root = rret img -> MakeSymbolTable root = rret cr ->
  Forall (named_in root) ts -> Appends fl cr data img ts = Ok (data', f) -> zlen (f ++ junk) + 16 <= INT_MAX -> no_more (f ++ junk) (zlen f) ->
  forall k, exists R x ys, Initialize (S k) (f ++ junk) = rret R /\ rd_root R = Some x /\ Forall2 (looks_like (f ++ junk) R) ys (old ++ ts) /\
    forall fuel, (List.length (old ++ ts) < fuel)%nat -> all_children fuel (f ++ junk) x 0 = rret ys.
Proof.
  intros Hb Hbd Hbj Hf F S O H Ecr Bl HA Hm Nm k. destruct (grown_places _ _ _ _ _ _ _ _ _ _ _ _ _ Hb Hbd Hbj Hf F S O H Ecr Bl HA Hm Nm k) as (R & x & ys & E1 & E2 & E3 & M & E4 & T1 & T2 & E5 & _).
  exists R, x, ys. split; [exact E1|]. split; [exact E2|]. split; [|exact E5]. apply (Forall2_right _ _ _ _ E3). intros y t Ht (limit & e & N & _).
  assert (Ho : incl old (kids_of root)) by (destruct O as (_ & last & _ & ->); intros u Hu; apply in_or_app; left; exact Hu).
  destruct (named_tables root cr old ts M Bl Ho F t Ht t) as (_ & Hn & _); [destruct t; left; reflexivity|]. eapply node_looks; [apply M|exact T1|exact Hn|exact N].
Qed.

Lemma grown fl m filename modified root old img cr data ts data' f junk : floats_ok fl -> bytes m -> bytes data -> bytes junk -> cstring filename ->
  document_fits root -> steady_document root -> open_ended root old -> Make_xb fl m filename modified root = rret img -> MakeSymbolTable root = rret cr ->
  Forall (belongs root) ts -> Appends fl cr data img ts = Ok (data', f) -> zlen (f ++ junk) + 16 <= INT_MAX -> no_more (f ++ junk) (zlen f) ->
  forall k, exists R x ys, Initialize (S k) (f ++ junk) = rret R /\ rd_root R = Some x /\ Forall2 (reads_as fl (f ++ junk) R) ys (old ++ ts) /\
    forall fuel, (List.length (old ++ ts) < fuel)%nat -> all_children fuel (f ++ junk) x 0 = rret ys.
Proof.
  intros Hfl Hb Hbd Hbj Hf F S O H Ecr Bl HA Hm Nm k.
  assert (Bl' : Forall (named_in root) ts) by (eapply Forall_impl; [|exact Bl]; intros t Ht u Hu; destruct (Ht u Hu) as (B1 & B2 & B3 & _ & B4); split; [exact B1|]; split; [exact B2|]; split; [exact B3|]; intros a Ha; apply (B4 a Ha)).
  destruct (grown_places _ _ _ _ _ _ _ _ _ _ _ _ _ Hb Hbd Hbj Hf F (fun u Hu => proj1 (proj2 (S u Hu))) O H Ecr Bl' HA Hm Nm k) as (R & x & ys & E1 & E2 & E3 & M & E4 & T1 & T2 & E5 & _).
  exists R, x, ys. split; [exact E1|]. split; [exact E2|]. split; [|exact E5]. apply (Forall2_right _ _ _ _ E3). intros y t Ht (limit & e & N & He) fuel out st Hh Ho.
  assert (Hk : incl old (kids_of root)) by (destruct O as (_ & last & _ & ->); intros u Hu; apply in_or_app; left; exact Hu).
  destruct (element_reads fl cr (f ++ junk) limit R root out Hfl E4 ltac:(unfold INT_MAX in *; lia) M T1 T2 t) with (x := y) (e := e) (fuel := fuel) (st := st) as (st' & E & _); try assumption.
  - intros u Hu. destruct (named_tables root cr old ts M Bl' Hk F t Ht u Hu) as (Q1 & Q2 & Q3). split; [exact Q1|].
    assert (Q4 : steady_value u /\ forall a, In a (attrs_of u) -> steady_attr root a).
    { apply in_app_or in Ht. destruct Ht as [Ht|Ht].
      - assert (Hr : In u (elements root)) by (destruct root as [rn rv ra rk]; eapply elements_kids; [|exact Hu]; apply (Hk t Ht)). destruct (S _ Hr) as (S1 & _ & S3). auto.
      - rewrite Forall_forall in Bl. destruct (Bl t Ht u Hu) as (_ & _ & _ & B2 & B4). split; [exact B2|]. intros a Ha. apply (B4 a Ha). }
    destruct Q4 as (Q4 & Q5). auto.
  - exists st'. exact E.
Qed.

Lemma torn fl cr data f t data' bs k : types_ok (cr_params cr) -> (forall u, In u (elements t) -> element_fits u /\ no_hex_attr u) -> append_bytes fl cr data f t = Ok (data', bs) ->
  0 <= k < zlen bs -> zlen f + zlen bs + 16 <= INT_MAX -> no_more (f ++ ztake k bs) (zlen f).
Proof.
  intros T G H Hk Hs. destruct (append_ok fl cr T _ _ _ _ _ G H) as (_ & _ & limit & N). pose proof (node_mono _ _ _ _ _ _ _ N) as (N1 & _ & N0).
  destruct t as [n v a kk]. cbn [node_at] in N. destruct N as (_ & _ & _ & _ & _ & _ & _ & _ & _ & (N & _) & _).
  pose proof (zlen_nonneg f). assert (El : zlen (f ++ ztake k bs) = zlen f + k) by (rewrite zlen_app, zlen_take by lia; lia). unfold no_more. rewrite El.
  destruct (Z.lt_ge_cases (zlen f + k) (align_up 4 (zlen f) + 12)) as [Hl|Hl]; [left; exact Hl|right]. exists (zlen f + zlen bs - align_up 4 (zlen f)).
  split; [|split; unfold int32, INT_MIN, INT_MAX in *; lia].
  replace (f ++ ztake k bs) with (ztake (zlen f + k) (f ++ bs)) by (rewrite ztake_app_ge by lia; f_equal; f_equal; lia). apply has_take; [exact N|rewrite le_zlen; lia].
Qed.

Lemma appends_end f : no_more f (zlen f).
Proof. left. pose proof (align_up_ge 4 (zlen f) ltac:(lia)). lia. Qed.

Lemma appends_look fl m filename modified root old img cr data ts data' f k :
  bytes m -> bytes data -> cstring filename -> document_fits root -> (forall u, In u (elements root) -> no_hex_attr u) -> open_ended root old ->
  Make_xb fl m filename modified root = rret img -> MakeSymbolTable root = rret cr ->
  Forall (named_in root) ts -> Appends fl cr data img ts = Ok (data', f) -> zlen f + 16 <= INT_MAX ->
  exists R x ys, Initialize (S k) f = rret R /\ rd_root R = Some x /\ Forall2 (looks_like f R) ys (old ++ ts) /\
    forall fuel, (List.length (old ++ ts) < fuel)%nat -> all_children fuel f x 0 = rret ys.
Proof.
  intros Hb Hbd Hf F S O H Ecr Bl HA Hm. pose proof (grown_looks fl m filename modified root old img cr data ts data' f []) as G. rewrite app_nil_r in G.
  apply G; try assumption; [constructor|apply appends_end].
Qed.
Lemma appends_read fl m filename modified root old img cr data ts data' f k :
  floats_ok fl -> bytes m -> bytes data -> cstring filename -> document_fits root -> steady_document root -> open_ended root old ->
  Make_xb fl m filename modified root = rret img -> MakeSymbolTable root = rret cr ->
  Forall (belongs root) ts -> Appends fl cr data img ts = Ok (data', f) -> zlen f + 16 <= INT_MAX ->
  exists R x ys, Initialize (S k) f = rret R /\ rd_root R = Some x /\ Forall2 (reads_as fl f R) ys (old ++ ts) /\
    forall fuel, (List.length (old ++ ts) < fuel)%nat -> all_children fuel f x 0 = rret ys.
Proof.
  intros Hfl Hb Hbd Hf F S O H Ecr Bl HA Hm. pose proof (grown fl m filename modified root old img cr data ts data' f []) as G. rewrite app_nil_r in G.
  apply G; try assumption; [constructor|apply appends_end].
Qed.
Lemma torn_read fl m filename modified root old img cr data ts data' f t data'' bs n k :
  floats_ok fl -> bytes m -> bytes data -> cstring filename -> document_fits root -> steady_document root -> open_ended root old ->
  Make_xb fl m filename modified root = rret img -> MakeSymbolTable root = rret cr ->
  Forall (belongs root) ts -> Appends fl cr data img ts = Ok (data', f) ->
  belongs root t -> append_bytes fl cr data' f t = Ok (data'', bs) -> 0 <= n < zlen bs -> zlen f + zlen bs + 16 <= INT_MAX ->
  exists R x ys, Initialize (S k) (f ++ ztake n bs) = rret R /\ rd_root R = Some x /\ Forall2 (reads_as fl (f ++ ztake n bs) R) ys (old ++ ts) /\
    forall fuel, (List.length (old ++ ts) < fuel)%nat -> all_children fuel (f ++ ztake n bs) x 0 = rret ys.
Proof.
  intros Hfl Hb Hbd Hf F S O H Ecr Bl HA Bt Ht Hn Hm.
  destruct (MakeSymbolTable_ok root F) as (cr' & Ecr' & M). rewrite Ecr in Ecr'. inversion Ecr'; subst cr'. assert (T : types_ok (cr_params cr)) by (apply M; intros u Hu; apply (S u Hu)).
  assert (Gt : forall u, In u (elements t) -> element_fits u /\ no_hex_attr u) by (intros u Hu; destruct (Bt u Hu) as (B1 & B2 & _); auto).
  assert (Bd' : bytes data').
  { destruct (Appends_ok fl cr T ts) with (data := data) (f := img) (data' := data') (f' := f) as (_ & B & _); [|exact HA|apply B, Hbd].
    eapply Forall_impl; [|exact Bl]. intros v Hv u Hu. destruct (Hv u Hu) as (B1 & B2 & _). auto. }
  destruct (append_ok fl cr T data' f t data'' bs Gt Ht) as (_ & Bb & _). specialize (Bb Bd'). destruct Bb as (_ & Bb).
  eapply (grown fl m filename modified root old img cr data ts data' f); try eassumption.
  - apply bytes_take, Bb.
  - rewrite zlen_app, zlen_take by lia. lia.
  - eapply torn; eassumption.
Qed.
