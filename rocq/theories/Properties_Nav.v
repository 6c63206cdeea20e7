(** Theorems about single attributes and numbers of converted documents (C33, C58). *)
From Verif Require Import Base NumSpec Types RoundtripProofs Sort SymtabSpec Xb XbSpec XbWrite DocSpec NavSpec NavProofs DocExamples.

(** C33: for every attribute of every element of a converted document, reached by child and attribute
    indices, the reader delivers what the converter stored for it: nothing, the text, or the four bytes into
    which the text converts (dates excepted). *)
Theorem C33_attributes_partial : forall fl m filename modified root img k path u i a,
  zlen m <= INT_MAX -> cstring filename -> document_fits root -> no_hex root ->
  Make_xb fl m filename modified root = rret img -> sub root path = Some u -> nth_error (attrs_of u) i = Some a -> fst a <> lit "et-tecera" ->
  exists R x y q, Initialize (S k) img = rret R /\ rd_root R = Some x /\ walk img x path = Ok (Some y) /\
    getParamByIndex img (Some y) (Z.of_nat i) = Ok (Some q) /\ attr_read fl img root y q a.
Proof. exact attrs_readable. Qed.
Print Assumptions C33_attributes_partial.

Definition shelf : node :=
  xml "shelf" None [("id", "7")%string; ("price", "2.50")%string] [xml "book" (Some "-134217728"%string) [("id", "-12")%string; ("title", "Don Quijote")%string; ("note", "")%string] []; xml "empty" None [] []].
Definition read_attr fl root path i : outcome (option Z * shown) :=
  match Make_xb fl (zrepeat 0 800) (lit "f.xml") 0 root with
  | Some (Ok img) => match Initialize 9 img with
    | Some (Ok R) => match rd_root R with
      | Some x => obind (walk img x path) (fun y => obind (getParamByIndex img y i) (fun q => obind (param_getString fl img q y [] Types.ring0) (fun '(s, _) =>
          obind (match q with Some q => pd_type img q | None => Fail end) (fun ty => Ok (Some ty, s)))))
      | None => Fail end
    | _ => Fail end
  | _ => Fail end.
Example C33_met : forall fl, document_fits shelf /\ no_hex shelf /\
  (exists img, Make_xb fl (zrepeat 0 800) (lit "f.xml") 0 shelf = rret img) /\ (exists u, sub shelf [0%nat] = Some u /\ nth_error (attrs_of u) 1 = Some (lit "title", lit "Don Quijote")) /\
  read_attr fl shelf [0%nat] 1 = Ok (Some XBT_STRING, Text (lit "Don Quijote")).
Proof.
  intros fl. split; [apply document_fitsb_ok; reflexivity|]. split; [intros u Hu n v Hv; cbn in Hu; repeat (destruct Hu as [<-|Hu]; [cbn in Hv; repeat (destruct Hv as [Hv|Hv]; [injection Hv as <- <-; vm_compute; discriminate|]); contradiction|]); contradiction|].
  split; [eexists; vm_compute; reflexivity|]. split; [eexists; split; reflexivity|]. vm_compute. reflexivity.
Qed.

(** Dates are stored in the attribute record, but the reader takes them for an offset. *)
Theorem C33_date_refuted : forall fl, exists root, document_fits root /\ attrs_of root = [(lit "a", lit "2024-01-05")] /\ read_attr fl root [] 0 = Ub.
Proof. intros fl. exists (xml "r" None [("a", "2024-01-05")%string] []). split; [apply document_fitsb_ok; reflexivity|]. split; [reflexivity|]. vm_compute. reflexivity. Qed.
Print Assumptions C33_date_refuted.
(** Hexadecimal digits are stored in the record but read elsewhere. *)
Theorem C33_hex_refuted : forall fl, exists root, document_fits root /\ attrs_of root = [(lit "a", lit "deadbeef")] /\ read_attr fl root [] 0 = Ok (Some XBT_HEX, Text (lit "29" ++ [10])).
Proof. intros fl. exists (xml "r" None [("a", "deadbeef")%string] [xml "k" None [] []]). split; [apply document_fitsb_ok; reflexivity|]. split; [reflexivity|]. vm_compute. reflexivity. Qed.
Print Assumptions C33_hex_refuted.
(** An IPv4 address is stored, but has no text. *)
Theorem C33_ipv4_refuted : forall fl, exists root, document_fits root /\ attrs_of root = [(lit "a", lit "10.0.0.1")] /\ read_attr fl root [] 0 = Ok (Some XBT_IPv4, NoText).
Proof. intros fl. exists (xml "r" None [("a", "10.0.0.1")%string] [xml "k" None [] []]). split; [apply document_fitsb_ok; reflexivity|]. split; [reflexivity|]. vm_compute. reflexivity. Qed.
Print Assumptions C33_ipv4_refuted.

(** C58: every 32-bit integer that is the value of an element is read back by both getters. *)
Theorem C58_value : forall fl m filename modified root img k path u, zlen m <= INT_MAX -> cstring filename -> document_fits root -> no_hex root ->
  Make_xb fl m filename modified root = rret img -> sub root path = Some u -> forall n, int32 n -> value_of u = Some (sdec n) ->
  exists R x y, Initialize (S k) img = rret R /\ rd_root R = Some x /\ walk img x path = Ok (Some y) /\
    getInt img (Some y) = Ok n /\ forall old, getIntPtr img (Some y) old = Ok (Some n, old).
Proof. exact doc_int. Qed.
Print Assumptions C58_value.
(** A missing value is told from every number by the getter that returns a pointer. *)
Theorem C58_missing : forall fl m filename modified root img k path u, zlen m <= INT_MAX -> cstring filename -> document_fits root -> no_hex root ->
  Make_xb fl m filename modified root = rret img -> sub root path = Some u -> value_of u = None ->
  exists R x y, Initialize (S k) img = rret R /\ rd_root R = Some x /\ walk img x path = Ok (Some y) /\
    getInt img (Some y) = Ok INT32_NULL /\ forall old, getIntPtr img (Some y) old = Ok (None, old).
Proof. exact doc_no_int. Qed.
Print Assumptions C58_missing.
(** Attributes: if all attributes of that name in the document are 32-bit integers. *)
Theorem C58_attribute_partial : forall fl m filename modified root img k path u, zlen m <= INT_MAX -> cstring filename -> document_fits root -> no_hex root ->
  Make_xb fl m filename modified root = rret img -> sub root path = Some u ->
  forall i name n, int32 n -> nth_error (attrs_of u) i = Some (name, sdec n) -> name <> lit "et-tecera" ->
  (forall w v, In w (elements root) -> In (name, v) (attrs_of w) -> exists j, int32 j /\ v = sdec j) ->
  exists R x y q, Initialize (S k) img = rret R /\ rd_root R = Some x /\ walk img x path = Ok (Some y) /\ getParamByIndex img (Some y) (Z.of_nat i) = Ok (Some q) /\
    param_getInt img (Some q) (Some y) = Ok n /\ param_getInt32 img (Some q) (Some y) XBT_INT32 = Ok (Some n).
Proof. exact doc_int_attr. Qed.
Print Assumptions C58_attribute_partial.
Example C58_met : (exists u, sub shelf [0%nat] = Some u /\ value_of u = Some (sdec (-134217728)) /\ nth_error (attrs_of u) 0 = Some (lit "id", sdec (-12))) /\
  (exists u, sub shelf [1%nat] = Some u /\ value_of u = None) /\
  (forall w v, In w (elements shelf) -> In (lit "id", v) (attrs_of w) -> exists j, int32 j /\ v = sdec j).
Proof.
  split; [eexists; repeat split; reflexivity|]. split; [eexists; split; reflexivity|]. intros w v Hw Hv. cbn in Hw.
  destruct Hw as [<-|[<-|[<-|[]]]]; cbn in Hv; repeat (destruct Hv as [Hv|Hv]); try contradiction; try discriminate Hv; injection Hv as <-; [exists 7|exists (-12)]; (split; [unfold int32, INT_MIN, INT_MAX; lia|reflexivity]).
Qed.

Definition read_int fl root path : outcome (Z * option Z) :=
  match Make_xb fl (zrepeat 0 800) (lit "f.xml") 0 root with
  | Some (Ok img) => match Initialize 9 img with
    | Some (Ok R) => match rd_root R with
      | Some x => obind (walk img x path) (fun y => obind (getInt img y) (fun n => obind (getIntPtr img y None) (fun '(p, _) => Ok (n, p))))
      | None => Fail end
    | _ => Fail end
  | _ => Fail end.
(** With the getter that returns the number itself, one number cannot be told from a missing value. *)
Theorem C58_marker_refuted : forall fl, exists root a b, document_fits root /\ sub root [0%nat] = Some a /\ sub root [1%nat] = Some b /\
  value_of a = Some (lit "-134217728") /\ value_of b = None /\ read_int fl root [0%nat] = Ok (-134217728, Some (-134217728)) /\ read_int fl root [1%nat] = Ok (-134217728, None).
Proof. intros fl. exists shelf. eexists. eexists. split; [apply document_fitsb_ok; reflexivity|]. repeat (split; [reflexivity|]). split; vm_compute; reflexivity. Qed.
Print Assumptions C58_marker_refuted.
Definition read_int_attr fl root path i : outcome (Z * option Z) :=
  match Make_xb fl (zrepeat 0 800) (lit "f.xml") 0 root with
  | Some (Ok img) => match Initialize 9 img with
    | Some (Ok R) => match rd_root R with
      | Some x => obind (walk img x path) (fun y => obind (getParamByIndex img y i) (fun q => obind (param_getInt img q y) (fun n => obind (param_getInt32 img q y XBT_INT32) (fun p => Ok (n, p)))))
      | None => Fail end
    | _ => Fail end
  | _ => Fail end.
(** An integer attribute reads as missing when another element has a fraction in the attribute of that name. *)
Theorem C58_column_refuted : forall fl, exists root, document_fits root /\ attrs_of root = [(lit "a", lit "1")] /\ read_int_attr fl root [] 0 = Ok (INT32_NULL, None).
Proof. intros fl. exists (xml "r" None [("a", "1")%string] [xml "k" None [("a", "2.5")%string] []]). split; [apply document_fitsb_ok; reflexivity|]. split; [reflexivity|]. vm_compute. reflexivity. Qed.
Print Assumptions C58_column_refuted.
