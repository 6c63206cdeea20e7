(** What the printed texts of the scalar types mean. *)
From Verif Require Import Base NumSpec.

(** [t] is a decimal fraction with exactly [k] decimals and the value V / 10^k. *)
Definition fraction_text (k : Z) (V : Z) (t : list Z) : Prop :=
  exists sign ip fp, t = sign ++ ip ++ [46] ++ fp /\ ip <> [] /\ Forall digit ip /\ Forall digit fp /\ zlen fp = k /\
    ((sign = [] /\ V = dec_value (ip ++ fp)) \/ (sign = [45] /\ V = - dec_value (ip ++ fp))).

(** XML un-escaping: the four entities, everything else literally (a stray '&' is an error). *)
Fixpoint xml_unescape (fuel : nat) (t : list Z) : option (list Z) :=
  match fuel with
  | O => None
  | S k =>
    match t with
    | [] => Some []
    | c :: r =>
        let entity (e : list Z) (x : Z) (other : option (list Z)) :=
          if list_eq_dec Z.eq_dec (firstn (List.length e) t) e
          then option_map (cons x) (xml_unescape k (skipn (List.length e) t)) else other in
        if c =? 38 then
          entity (lit "&lt;") 60 (entity (lit "&gt;") 62 (entity (lit "&amp;") 38
            (entity [38; 113; 117; 111; 116; 59] 34 None)))
        else option_map (cons c) (xml_unescape k r)
    end
  end.
