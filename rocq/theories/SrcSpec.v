(** What the values of a source mean as texts, and what an XML text must say about a source. *)
From Verif Require Import Base NumSpec CalSpec Base64Spec Types Sort Xb XbWrite XbBin DocSpec XmlSpec.

(** Two hexadecimal digits for each byte, small letters. *)
Definition hex_digit (d : Z) : Z := if d <? 10 then 48 + d else 87 + d.
Definition hex_pairs (l : list Z) : list Z := flat_map (fun b => [hex_digit (b / 16); hex_digit (b mod 16)]) l.
Definition scaled : list (Z * Z) := [(XBT_INT32_DECI, 1); (XBT_INT32_CENTI, 2); (XBT_INT32_MILI, 3); (XBT_INT32_MICRO, 6); (XBT_INT32_NANO, 9)].

(** [stands_for fl ty v t]: the bytes [v], perhaps with something behind, are the value [t] of type [ty].  The text of a floating point number is that of
    the C library. *)
Inductive stands_for (fl : floats) : Z -> list Z -> list Z -> Prop :=
| sf_string s r : cstring s -> stands_for fl XBT_STRING (s ++ 0 :: r) s
| sf_int32 n r : int32 n -> stands_for fl XBT_INT32 (le 4 n ++ r) (sdec n)
| sf_uint32 n r : uint32 n -> stands_for fl XBT_UINT32 (le 4 n ++ r) (udec n)
| sf_int64 n r : int64 n -> n <> INT64_MIN -> n <> -576460752303423488 -> stands_for fl XBT_INT64 (le 8 n ++ r) (sdec n)
| sf_uint64 n r : uint64 n -> stands_for fl XBT_UINT64 (le 8 n ++ r) (udec n)
| sf_scaled ty k n r : In (ty, k) scaled -> int32 n -> n <> INT_MIN -> 0 <= n \/ n <= - 10 ^ k -> stands_for fl ty (le 4 n ++ r) (sdec (Z.quot n (10 ^ k)) ++ [46] ++ fmt0 k (Z.abs n mod 10 ^ k))
| sf_ipv4 n r : uint32 n -> stands_for fl XBT_IPv4 (le 4 n ++ r) (quad (n / 16777216) (n / 65536 mod 256) (n / 256 mod 256) (n mod 256))
| sf_float n r : uint32 n -> stands_for fl XBT_FLOAT (le 4 n ++ r) (f_print fl n)
| sf_time n d r : uint32 n -> valid_date d -> day_number d (n / 86400) -> stands_for fl XBT_UNIX_TIME (le 4 n ++ r) (time_text 32 d (n mod 86400 / 3600) (n mod 3600 / 60) (n mod 60))
| sf_msec n d r : 0 <= n -> int64 n -> valid_date d -> day_number d (n / 86400000) ->
    stands_for fl XBT_UNIX_TIME64_MSEC (le 8 n ++ r) (date_text d ++ [32] ++ fmtsp 2 (n / 3600000 mod 24) ++ [58] ++ fmt0 2 (n / 60000 mod 60) ++ [58] ++ fmt0 2 (n / 1000 mod 60) ++ [46] ++ fmt0 3 (n mod 1000))
| sf_date n d r : int32 n -> INT_MIN + 10957 <= n -> valid_date d -> day_number d n -> last_of_leap_year d = false -> stands_for fl XBT_UNIX_DATE (le 4 n ++ r) (date_text d)
| sf_guid g r : bytes g -> zlen g = 16 -> stands_for fl XBT_GUID (g ++ r) (hex_pairs g)
| sf_sha1 g r : bytes g -> zlen g = 20 -> stands_for fl XBT_SHA1 (g ++ r) (hex_pairs g)
| sf_text size s r : zlen size = 4 -> cstring s -> stands_for fl XBT_BLOB_STRING (size ++ s ++ 0 :: r) s
| sf_blob b r : bytes b -> zlen b <= INT_MAX -> stands_for fl XBT_BLOB (le 4 (zlen b) ++ b ++ r) (b64_text b).

(** The document a source shows: names, attributes and children in their order; an element of type NULL has no value. *)
Inductive pictures (fl : floats) : bnode -> node -> Prop :=
| picture n ty v v' attrs attrs' kids kids' : (ty = XBT_NULL /\ v' = None \/ exists t, stands_for fl ty v t /\ v' = Some t) ->
    Forall2 (fun a b => fst (fst a) = fst b /\ (snd (fst a) = XBT_NULL /\ snd b = [] \/ stands_for fl (snd (fst a)) (snd a) (snd b))) attrs attrs' -> Forall2 (pictures fl) kids kids' ->
    pictures fl (BNode n ty v attrs kids) (Node n v' attrs' kids').

(** Elements that XML can express: names are XML names, no attribute stands twice, no control characters except tab and newline in a value, and none in
    attributes; the value of an element with children has no white space at its ends. *)
Definition expressible (t : node) : Prop :=
  xml_name (name_of t) /\ NoDup (map fst (attrs_of t)) /\
  (forall a, In a (attrs_of t) -> xml_name (fst a) /\ forall c, In c (snd a) -> 32 <= c <= 255) /\
  forall v, value_of t = Some v -> (forall c, In c v -> c = 9 \/ c = 10 \/ 32 <= c <= 255) /\ (kids_of t <> [] -> trim v = v).
