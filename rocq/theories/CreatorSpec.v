(** Which extensions there are. *)
From Verif Require Import Base Text Creator.

Definition extensions : list (list Z * source_kind) :=
  [(lit ".xml", XmlSource); (lit ".xsd", XmlSource); (lit ".wsdl", XmlSource); (lit ".json", JsonSource); (lit ".xbw", PoolSource)].
Definition result_extension (t : target) : list Z := match t with TargetXb => lit ".xb" | TargetXbw => lit ".xbw" end.
