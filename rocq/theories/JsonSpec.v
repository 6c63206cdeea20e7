(** JSON texts with their white space, and the tokens that describe them.

    A primitive is any run of letters, digits, [+], [-] and [.], so numbers, true, false and null are among them.  Inside the quotes of a
    string every byte but NUL, the quote and the backslash stands for itself. *)
From Verif Require Import Base Jsmn.

Inductive value :=
| Prim (s : list Z)
| Str (s : list Z)                       (* without the quotes *)
| Arr (w : list Z) (l : items)           (* [w] is the white space behind the bracket *)
| Obj (w : list Z) (l : members)
with items :=
| INil
| ICons (a : list Z) (v : value) (b : list Z) (l : items)               (* white space before and behind *)
with members :=
| MNil
| MCons (a k b c : list Z) (v : value) (d : list Z) (l : members).      (* a "k" b : c v d *)

(** The text.  [first]: no comma before. *)
Definition comma (first : bool) : list Z := if first then [] else [44].
Fixpoint vtext (v : value) : list Z :=
  match v with
  | Prim s => s
  | Str s => 34 :: s ++ [34]
  | Arr w l => 91 :: w ++ itext true l ++ [93]
  | Obj w l => 123 :: w ++ mtext true l ++ [125]
  end
with itext (first : bool) (l : items) : list Z :=
  match l with
  | INil => []
  | ICons a v b l => comma first ++ a ++ vtext v ++ b ++ itext false l
  end
with mtext (first : bool) (l : members) : list Z :=
  match l with
  | MNil => []
  | MCons a k b c v d l => comma first ++ a ++ 34 :: k ++ 34 :: b ++ 58 :: c ++ vtext v ++ d ++ mtext false l
  end.

Definition white (w : list Z) : Prop := Forall (fun c => c = 9 \/ c = 10 \/ c = 13 \/ c = 32) w.
Definition primitive (s : list Z) : Prop := s <> [] /\ Forall (fun c => is_alnum c = true \/ c = 43 \/ c = 45 \/ c = 46) s.
Inductive chars : list Z -> Prop :=
| chars_end : chars []
| chars_plain c r : 0 < c < 256 -> c <> 34 -> c <> 92 -> chars r -> chars (c :: r)
| chars_escape c r : In c [34; 47; 92; 98; 102; 110; 114; 116] -> chars r -> chars (92 :: c :: r)
| chars_unicode a b c d r : is_xdigit a = true -> is_xdigit b = true -> is_xdigit c = true -> is_xdigit d = true -> chars r -> chars (92 :: 117 :: a :: b :: c :: d :: r).
Fixpoint json (v : value) : Prop :=
  match v with
  | Prim s => primitive s
  | Str s => chars s
  | Arr w l => white w /\ jitems l
  | Obj w l => white w /\ jmembers l
  end
with jitems (l : items) : Prop := match l with INil => True | ICons a v b l => white a /\ json v /\ white b /\ jitems l end
with jmembers (l : members) : Prop :=
  match l with MNil => True | MCons a k b c v d l => white a /\ chars k /\ white b /\ white c /\ json v /\ white d /\ jmembers l end.

(** How many tokens there are, how many items and members. *)
Fixpoint vcount (v : value) : Z :=
  match v with
  | Prim _ | Str _ => 1
  | Arr _ l => 1 + icount l
  | Obj _ l => 1 + mcount l
  end
with icount (l : items) : Z := match l with INil => 0 | ICons _ v _ l => vcount v + icount l end
with mcount (l : members) : Z := match l with MNil => 0 | MCons _ _ _ _ v _ l => 1 + vcount v + mcount l end.
Fixpoint ilen (l : items) : Z := match l with INil => 0 | ICons _ _ _ l => 1 + ilen l end.
Fixpoint mlen (l : members) : Z := match l with MNil => 0 | MCons _ _ _ _ _ _ l => 1 + mlen l end.

(** The tokens of a value whose text starts at position [x], numbered from [idx] on: every value and every key has one, in the order of the
    text; the parent of a member's value is its key; a key has size 1.  [total]: with the sizes of the subtrees. *)
Definition tot_ (total : bool) (n : Z) : option Z := if total then Some n else None.
Fixpoint vtoks (total : bool) (v : value) (x idx parent : Z) : list tok :=
  match v with
  | Prim s => [T JSMN_PRIMITIVE x (x + zlen s) 0 parent (tot_ total 1)]
  | Str s => [T JSMN_STRING (x + 1) (x + 1 + zlen s) 0 parent (tot_ total 1)]
  | Arr w l => T JSMN_ARRAY x (x + zlen (vtext v)) (ilen l) parent (tot_ total (vcount v)) :: itoks total true l (x + 1 + zlen w) (idx + 1) idx
  | Obj w l => T JSMN_OBJECT x (x + zlen (vtext v)) (mlen l) parent (tot_ total (vcount v)) :: mtoks total true l (x + 1 + zlen w) (idx + 1) idx
  end
with itoks (total first : bool) (l : items) (x idx parent : Z) : list tok :=
  match l with
  | INil => []
  | ICons a v b l =>
      let x1 := x + zlen (comma first) + zlen a in
      vtoks total v x1 idx parent ++ itoks total false l (x1 + zlen (vtext v) + zlen b) (idx + vcount v) parent
  end
with mtoks (total first : bool) (l : members) (x idx parent : Z) : list tok :=
  match l with
  | MNil => []
  | MCons a k b c v d l =>
      let x1 := x + zlen (comma first) + zlen a in
      let x2 := x1 + 1 + zlen k + 1 + zlen b + 1 + zlen c in
      T JSMN_STRING (x1 + 1) (x1 + 1 + zlen k) 1 parent (tot_ total 1) :: vtoks total v x2 (idx + 1) idx ++
      mtoks total false l (x2 + zlen (vtext v) + zlen d) (idx + 1 + vcount v) parent
  end.

Scheme value_mind := Induction for value Sort Prop
with items_mind := Induction for items Sort Prop
with members_mind := Induction for members Sort Prop.
Combined Scheme json_ind from value_mind, items_mind, members_mind.

(** ** The elements a JSON source shows *)

(** A text without its ending. *)
Definition without (ending k : list Z) : option (list Z) :=
  let n := zlen k - zlen ending in
  if (0 <=? n) && (if list_eq_dec Z.eq_dec (zskip n k) ending then true else false) then Some (ztake n k) else None.
(** The name of the items of the array named [k]: less a final [s] or [List], or with [Item] behind. *)
Definition item_name (k : list Z) : list Z :=
  match without (lit "s") k with
  | Some v => v
  | None => match without (lit "List") k with Some (c :: v) => c :: v | _ => k ++ lit "Item" end
  end.
(** The text of a token. *)
Definition span (js : list Z) (t : tok) : list Z := ztake (en t - st t) (zskip (st t) js).
Definition is_token (ts : list tok) (i : Z) (t : tok) : Prop := 0 <= i /\ nth_error ts (Z.to_nat i) = Some t.
(** The name of the element of token [i]. *)
Inductive named (js : list Z) (ts : list tok) (i : Z) : option (list Z) -> Prop :=
| named_root X : is_token ts i X -> par X < 0 -> named js ts i None
| named_key X P : is_token ts i X -> is_token ts (par X) P -> ty P = JSMN_OBJECT -> ty X = JSMN_STRING -> named js ts i (Some (span js X))
| named_not_key X P : is_token ts i X -> is_token ts (par X) P -> ty P = JSMN_OBJECT -> ty X <> JSMN_STRING -> named js ts i None
| named_item X P K : is_token ts i X -> is_token ts (par X) P -> ty P = JSMN_ARRAY -> is_token ts (par P) K -> ty K = JSMN_STRING -> named js ts i (Some (item_name (span js K)))
| named_nested X P K : is_token ts i X -> is_token ts (par X) P -> ty P = JSMN_ARRAY -> is_token ts (par P) K -> ty K <> JSMN_STRING -> named js ts i (Some (lit "__ARRAY_ITEM_NAME__"))
| named_root_item X P : is_token ts i X -> is_token ts (par X) P -> ty P = JSMN_ARRAY -> par P < 0 -> named js ts i None
| named_else X P : is_token ts i X -> is_token ts (par X) P -> ty P <> JSMN_ARRAY -> ty P <> JSMN_OBJECT -> named js ts i None.

(** The tree of a value: a member is an element with its key as the name, the items of an array are elements with the name of items. *)
Inductive elem := El (name value : option (list Z)) (kids : list elem).
Definition scalar_text (v : value) : option (list Z) := match v with Prim s | Str s => Some s | _ => None end.
Fixpoint vkids (n : option (list Z)) (v : value) : list elem :=
  match v with
  | Prim _ | Str _ => []
  | Arr _ l => ikids n l
  | Obj _ l => mkids l
  end
with ikids (n : option (list Z)) (l : items) : list elem :=
  match l with INil => [] | ICons _ v _ l => El n (scalar_text v) (vkids (Some (lit "__ARRAY_ITEM_NAME__")) v) :: ikids n l end
with mkids (l : members) : list elem :=
  match l with MNil => [] | MCons _ k _ _ v _ l => El (Some k) (scalar_text v) (vkids (Some (item_name k)) v) :: mkids l end.
Definition tree (v : value) : elem := El None (scalar_text v) (vkids None v).
(** No array with items has an empty key. *)
Definition filled (v : value) : Prop := match v with Arr _ (ICons _ _ _ _) => True | _ => False end.
Fixpoint keyed (v : value) : Prop :=
  match v with
  | Prim _ | Str _ => True
  | Arr _ l => ikeyed l
  | Obj _ l => mkeyed l
  end
with ikeyed (l : items) : Prop := match l with INil => True | ICons _ v _ l => keyed v /\ ikeyed l end
with mkeyed (l : members) : Prop := match l with MNil => True | MCons _ k _ _ v _ l => (filled v -> k <> []) /\ keyed v /\ mkeyed l end.
(** An element and all below it in the order of the text, with their depths. *)
Fixpoint preorder (deep : Z) (e : elem) : list (elem * Z) := match e with El _ _ es => (e, deep) :: flat_map (preorder (deep + 1)) es end.
Fixpoint height (e : elem) : nat := match e with El _ _ es => S (fold_right Nat.max O (map height es)) end.
