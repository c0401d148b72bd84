(** The meaning of a port configuration line, written down as a grammar. *)
From Verif Require Import Base ModelLabel ModelAuthz ModelNRM.

(** words separated by one or more spaces *)
Inductive spaced : string -> list string -> Prop :=
| spaced_end : spaced "" []
| spaced_space s ws : spaced s ws -> spaced (String " " s) ws
| spaced_last w : w <> "" -> shas " " w = false -> spaced w [w]
| spaced_word w s ws : w <> "" -> shas " " w = false -> spaced s ws -> spaced (w +++ String " " s) (w :: ws).

(** "-" or network#port(in|out); anything may follow the closing bracket *)
Inductive remote_means : string -> option (string * string * string * string) -> Prop :=
| remote_none : remote_means "-" None
| remote_some net port c i d o tail :
    net <> "" -> shas "#" net = false -> port <> "" -> shas "(" port = false ->
    shas "|" i = false -> shas ")" o = false ->
    remote_means (net +++ "#" +++ port +++ "(" +++ String c i +++ "|" +++ String d o +++ ")" +++ tail)
      (Some (net, port, net +++ ":" +++ port +++ String c i, net +++ ":" +++ port +++ String d o)).

Inductive labelspec_means : string -> option label -> Prop :=
| labelspec_none : labelspec_means "-" None
| labelspec_some t v l : t = "vlan" \/ t = "mpls" -> label_of_str t v = Ok l ->
    labelspec_means (t +++ ":" +++ v) (Some l).

Inductive attr := ARule (k v : string) | AVector (net : string) (w : Z) | ARestrict.
Inductive attr_means : string -> attr -> Prop :=
| attr_rule k v : In k ["nsa"; "user"; "group"; "token"; "hostdn"] -> shas "=" v = false ->
    attr_means (k +++ "=" +++ v) (ARule k v)
| attr_vector net wt w : shas "@" net = false -> shas "=" net = false -> shas "=" wt = false -> py_int wt = Some w ->
    attr_means ("vector=" +++ net +++ "@" +++ wt) (AVector net w)
| attr_restrict : attr_means "restricttransit" ARestrict.

(** "-" or a comma separated list of attributes *)
Inductive attrs_mean : string -> list attr -> Prop :=
| attrs_none : attrs_mean "-" []
| attrs_some texts ats : texts <> [] -> join "," texts <> "-" -> (forall t, In t texts -> shas "," t = false) ->
    Forall2 attr_means texts ats -> attrs_mean (join "," texts) ats.

Definition rules_of (ats : list attr) : list rule :=
  flat_map (fun a => match a with ARule k v => [mkRule k v] | _ => [] end) ats.
(** the last weight given for a network *)
Fixpoint weight_of (net : string) (ats : list attr) : option Z :=
  match ats with
  | [] => None
  | a :: r => match weight_of net r with
              | Some w => Some w
              | None => match a with AVector n w => if eqb n net then Some w else None | _ => None end
              end
  end.
Definition restricts (ats : list attr) : Prop := In ARestrict ats.

(** a line that is not blank and not a comment *)
Definition content (line : string) : Prop := strip line <> "" /\ starts_with "#" (strip line) = false.

Definition line_means (line : string) (p : nrm_port) : Prop :=
  exists name remote label bw iface authz rm ats,
    spaced (strip line) ["ethernet"; name; remote; label; bw; iface; authz] /\
    remote_means remote rm /\ labelspec_means label (p_label p) /\ py_int bw = Some (p_bandwidth p) /\
    attrs_mean authz ats /\
    p_type p = "ethernet" /\ p_name p = name /\ p_interface p = iface /\
    p_authz p = rules_of ats /\
    (forall net, aget net (p_vectors p) = weight_of net ats) /\ NoDup (akeys (p_vectors p)) /\
    (p_restricted p = true <-> restricts ats) /\
    match rm with
    | None => p_remote_network p = None /\ p_remote_port p = None /\ p_remote_in p = None /\ p_remote_out p = None
    | Some (net, port, i, o) =>
        p_remote_network p = Some net /\ p_remote_port p = Some port /\ p_remote_in p = Some i /\ p_remote_out p = Some o
    end.

(** a file: one port per content line, in order *)
Inductive file_means : list string -> list nrm_port -> Prop :=
| file_nil : file_means [] []
| file_skip l ls ps : ~ content l -> file_means ls ps -> file_means (l :: ls) ps
| file_port l ls p ps : content l -> line_means l p -> file_means ls ps -> file_means (l :: ls) (p :: ps).
