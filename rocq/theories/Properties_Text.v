(** The claims about masks, identifiers, file names and fields (C23, C24, C25, C59). *)
From Verif Require Import Base BaseFacts Text TextSpec TextProofs PathProofs.

(** ** C23: masks *)

(** Masks without a star: exactly the meaning of the mask, for every value. *)
Theorem C23_no_star_partial : forall mask, ~ In (ch "*") mask -> forall value, AdvEqual (Some mask) value = true <-> glob mask value.
Proof. exact adv_no_star. Qed.
Print Assumptions C23_no_star_partial.

(** Masks with stars none of which is followed by a question mark, values without a star. *)
Theorem C23_sound_partial : forall mask value, cstring value -> cstring mask -> ~ In (ch "*") value ->
  (forall a b, mask <> a ++ ch "*" :: ch "?" :: b) -> AdvEqual (Some mask) value = true -> glob mask value.
Proof. exact adv_sound. Qed.
Print Assumptions C23_sound_partial.

Theorem C23_complete_partial : forall mask value, cstring value -> cstring mask -> ~ In (ch "*") value ->
  (forall a b, mask <> a ++ ch "*" :: ch "?" :: b) -> (forall m, mask <> m ++ [ch "*"]) ->
  glob mask value -> AdvEqual (Some mask) value = true.
Proof. exact adv_complete. Qed.
Print Assumptions C23_complete_partial.

(** A star at the end means at least one character. *)
Theorem C23_tail_star_partial : forall mask value, cstring value -> cstring mask -> ~ In (ch "*") value ->
  (forall a b, mask ++ [ch "*"] <> a ++ ch "*" :: ch "?" :: b) ->
  (AdvEqual (Some (mask ++ [ch "*"])) value = true <-> glob (mask ++ [ch "?"; ch "*"]) value).
Proof. exact adv_tail_star. Qed.
Print Assumptions C23_tail_star_partial.

Example C23_met : cstring (lit "abcbd") /\ cstring (lit "a*b?") /\ ~ In (ch "*") (lit "abcbd") /\
  (forall m, lit "a*b?" <> m ++ [ch "*"]) /\ AdvEqual (Some (lit "a*b?")) (lit "abcbd") = true /\ AdvEqual (Some (lit "a*c?")) (lit "abcbdd") = false.
Proof.
  split; [repeat constructor|]. split; [repeat constructor|]. split; [vm_compute; intuition discriminate|]. split; [|split; reflexivity].
  intros m E. apply (f_equal (@rev Z)) in E. rewrite rev_app_distr in E. discriminate.
Qed.

(** False in general: an empty trailing star, question marks after a star, a star in the value. *)
Theorem C23_empty_star_refuted : AdvEqual (Some (lit "a*")) (lit "a") = false /\ glob (lit "a*") (lit "a").
Proof. exact adv_refuted_end. Qed.
Print Assumptions C23_empty_star_refuted.
Theorem C23_star_question_refuted : AdvEqual (Some (lit "*??")) (lit "a") = true /\ ~ glob (lit "*??") (lit "a").
Proof. exact adv_refuted_question. Qed.
Print Assumptions C23_star_question_refuted.
Theorem C23_star_in_value_refuted : AdvEqual (Some (lit "*b")) (lit "*ab") = false /\ glob (lit "*b") (lit "*ab").
Proof. exact adv_refuted_star. Qed.
Print Assumptions C23_star_in_value_refuted.

(** ** C24: identifiers *)

Theorem C24_identifier : forall src style, exists out, MakeIdent src style = Some out /\ zlen out <= 63 /\ (out = [] \/ identifier out).
Proof. exact MakeIdent_ok. Qed.
Print Assumptions C24_identifier.

(** An identifier that fits comes out unchanged, and GetIdentLen sees all of an identifier. *)
Theorem C24_unchanged : forall s, identifier s -> zlen s <= 63 -> MakeIdent s [] = Some s.
Proof. exact MakeIdent_id. Qed.
Print Assumptions C24_unchanged.
Theorem C24_length : forall s, identifier s -> GetIdentLen s = zlen s.
Proof. exact GetIdentLen_ident. Qed.
Print Assumptions C24_length.

Example C24_met : MakeIdent (lit "2 small words") (lit "U") = Some (lit "_2SmallWords") /\ MakeIdent (lit " %$ 1x") (lit "_") = Some (lit "__1x").
Proof. split; reflexivity. Qed.
Example C24_met_ident : identifier (lit "a_1") /\ zlen (lit "a_1") <= 63.
Proof. split; [|vm_compute; discriminate]. exists 97, [95; 49]. unfold ident_start. repeat split; [lia|]. repeat (constructor; [unfold ident_char, ident_start; lia|]). constructor. Qed.

(** ** C25: file names *)

Theorem C25_extension_partial : forall path dir stem ext new, path_parts path dir stem ext -> (ext <> [] \/ ~ In (ch ".") dir) ->
  zlen path < 4096 -> ~ (exists r, path = ch "." :: ch "/" :: r) ->
  AllocFilenameChangeExt path (Some new) None = Ok (dir ++ stem ++ new).
Proof. exact change_ext. Qed.
Print Assumptions C25_extension_partial.

(** A leading "./" is dropped, which names the same file. *)
Theorem C25_dot_slash : forall path new dir, AllocFilenameChangeExt (ch "." :: ch "/" :: path) new dir = AllocFilenameChangeExt path new dir.
Proof. exact change_ext_dot_slash. Qed.
Print Assumptions C25_dot_slash.

Theorem C25_target_partial : forall path dir stem ext new target, path_parts path dir stem ext -> (ext <> [] \/ ~ In (ch ".") (target ++ dir)) ->
  ~ (exists r, path = ch "." :: ch "/" :: r) -> (forall r, path <> ch "/" :: r) -> zlen target + 1 + zlen path < 4096 ->
  AllocFilenameChangeExt path (Some new) (Some target) = Ok (target ++ [ch "/"] ++ dir ++ stem ++ new).
Proof. exact change_ext_target. Qed.
Print Assumptions C25_target_partial.

Theorem C25_getxb_partial : forall base e, e = lit ".xml" \/ e = lit ".xsd" -> ~ (exists r, base = ch "." :: ch "/" :: r) -> zlen base + 3 < 4096 ->
  GetXB_name (base ++ e) = Ok (base ++ lit ".xb") /\ xb_written (base ++ lit ".xb") = Ok (base ++ lit ".xb").
Proof. exact getxb. Qed.
Print Assumptions C25_getxb_partial.

Example C25_met : path_parts (lit "a.b/c.tar.gz") (lit "a.b/") (lit "c.tar") (lit ".gz") /\ ~ (exists r, lit "a.b/c.tar.gz" = ch "." :: ch "/" :: r).
Proof.
  split; [|intros (r & E); discriminate]. split; [reflexivity|]. split; [right; exists (lit "a.b"); reflexivity|]. split; [vm_compute; intuition discriminate|].
  right. exists (lit "gz"). split; [reflexivity|]. vm_compute. intuition discriminate.
Qed.

(** A dot in a directory, an over-long directory, a .wsdl file. *)
Theorem C25_dir_dot_refuted : AllocFilenameChangeExt (lit "dir.d/file") (Some (lit ".xb")) None = Ok (lit "dir.xb") /\
  path_parts (lit "dir.d/file") (lit "dir.d/") (lit "file") [].
Proof. exact change_ext_dir_dot. Qed.
Print Assumptions C25_dir_dot_refuted.
Theorem C25_overflow_refuted : exists target, AllocFilenameChangeExt (lit "a.xml") (Some (lit ".xb")) (Some target) = Ub.
Proof. exact change_ext_overflow. Qed.
Print Assumptions C25_overflow_refuted.
Theorem C25_wsdl_refuted : GetXB_name (lit "a.wsdl") = Ok (lit "a.wb") /\ xb_written (lit "a.wb") = Ok (lit "a.xb").
Proof. exact getxb_wsdl. Qed.
Print Assumptions C25_wsdl_refuted.

(** ** C59: fields *)

Theorem C59_field : forall sp f rest sep n, Forall (fun c => is_space c = true) sp -> is_space (cur (f ++ rest)) = false -> sep <> ch " " -> 1 <= n ->
  Forall (fun c => c <> sep) f -> (rest = [] \/ exists r, rest = sep :: r) ->
  ScanStr (sp ++ f ++ rest) sep n = (tl rest, ztake (n - 1) f, negb (zlen (ztake (n - 1) f) =? 0)).
Proof. exact scanstr_ok. Qed.
Print Assumptions C59_field.

Theorem C59_word : forall sp f rest n, Forall (fun c => is_space c = true) sp -> is_space (cur (f ++ rest)) = false -> 1 <= n ->
  Forall (fun c => is_space c = false) f -> (rest = [] \/ is_space (cur rest) = true) ->
  ScanStr (sp ++ f ++ rest) (ch " ") n = (tl rest, ztake (n - 1) f, negb (zlen (ztake (n - 1) f) =? 0)).
Proof. exact scanstr_space_ok. Qed.
Print Assumptions C59_word.

Theorem C59_bounded : forall p sep n, 1 <= n -> let '(_, d, _) := ScanStr p sep n in zlen d <= n - 1.
Proof. exact scanstr_bounded. Qed.
Print Assumptions C59_bounded.

Theorem C59_eat_end : forall p e q, EatEnd p e = Some q <-> p = q ++ e.
Proof. exact eatend_iff. Qed.
Print Assumptions C59_eat_end.

Example C59_met : ScanStr (lit "  alpha,beta") (ch ",") 4 = (lit "beta", lit "alp", true) /\ is_space (cur (lit "alpha,beta")) = false /\ EatEnd (lit "a.xml") (lit ".xml") = Some (lit "a").
Proof. repeat split. Qed.
