(** The grammar of STP identifiers. *)
From Verif Require Import Base ModelLabel ModelSTP.

Fixpoint contains (p s : string) : bool :=
  starts_with p s || match s with EmptyString => false | String _ r => contains p r end.

(** what may follow the prefix, and the STP it means; a label's values are read
    by the label parser (property C01) *)
Inductive stp_text : string -> stp -> Prop :=
| stp_plain net port : shas "?" net = false -> shas "?" port = false -> shas ":" port = false ->
    stp_text (net +++ ":" +++ port) (mkSTP net port None)
| stp_labelled net port t v l : shas "?" net = false -> shas "?" port = false -> shas ":" port = false ->
    shas "?" v = false -> shas "=" v = false -> (t = "vlan" \/ t = "mpls") -> label_of_str t v = Ok l ->
    stp_text (net +++ ":" +++ port +++ "?" +++ t +++ "=" +++ v) (mkSTP net port (Some l)).
