(** Model of the port configuration parser, /repo/opennsa/topology/nrm.py:21-166. *)
From Verif Require Import Base ModelLabel ModelAuthz.

(** nrm.py:39-53 *)
Record nrm_port := mkPort {
  p_type : string;
  p_name : string;
  p_remote_network : option string;
  p_remote_port : option string;
  p_remote_in : option string;
  p_remote_out : option string;
  p_label : option label;
  p_bandwidth : Z;
  p_interface : string;
  p_authz : list rule;
  p_vectors : list (string * Z);
  p_restricted : bool }.

(** the longest prefix without [c], and the rest: the greedy [[^c]+]; nrm.py:57-65 *)
Fixpoint span_not (c : ascii) (s : string) : string * string :=
  match s with
  | EmptyString => (EmptyString, EmptyString)
  | String d r => if Ascii.eqb d c then (EmptyString, s) else let '(a, b) := span_not c r in (String d a, b)
  end.

(** nrm.py:31, the optional group ["\((.+?)\|(.+?)\)"]: each lazy [.+?] takes one
    character and then up to the next delimiter.  (A port line has no newline.) *)
Definition rx_suffix (s : string) : option (string * string) :=
  match s with
  | String p (String c r) =>
      if negb (Ascii.eqb p "(") then None else
      match split1 "|" r with
      | Some (a, String d r2) =>
          match split1 ")" r2 with
          | Some (b, _) => Some (String c a, String d b)
          | None => None
          end
      | _ => None
      end
  | _ => None
  end.

(** nrm.py:31 and 57-65: PORT_RX.match on a remote specification.  The match need
    not extend to the end of the string. *)
Definition parse_remote (spec : string) : result (option (string * string * option (string * string))) :=
  if eqb spec "-" then Ok None else
  match split1 "#" spec with
  | Some (net, r) =>
      let '(port, tail) := span_not "(" r in
      if eqb net "" || eqb port "" then Err ETopology
      else Ok (Some (net, port, rx_suffix tail))
  | None => Err ETopology
  end.

(** nrm.py:27-28 with constants.py:30-31 *)
Definition LABEL_TYPES : list (string * string) := [("vlan", "vlan"); ("mpls", "mpls")].
(** nrm.py:68-82 *)
Definition parse_label_spec (spec : string) : result (option label) :=
  if eqb spec "-" then Ok None else
  match split1 ":" spec with
  | None => Err ETopology
  | Some (alias, rng) =>
      match aget alias LABEL_TYPES with
      | None => Err ETopology
      | Some t => do! l <- label_of_str t rng; Ok (Some l)
      end
  end.

(** nrm.py:142-161, one attribute; the accumulators are those of 137-139 *)
Definition attr_step (acc : list rule * list (string * Z) * bool) (aa : string)
  : result (list rule * list (string * Z) * bool) :=
  let '(rules, vecs, restricted) := acc in
  match split_on "=" aa with
  | [] | [_] =>
      if eqb aa "restricttransit" then Ok (rules, vecs, true) else Err EConfiguration
  | [ak; av] =>
      if mem ak AUTH_ATTRIBUTES then Ok (rules ++ [mkRule ak av], vecs, restricted)
      else if eqb ak "vector" then
        match split1 "@" av with
        | None => Err EConfiguration
        | Some (network, weight) =>
            match py_int weight with
            | None => Err EValue
            | Some w => Ok (rules, aset network w vecs, restricted)
            end
        end
      else Err EConfiguration
  | _ => Err EValue            (* "too many values to unpack": split('=', 2) gives three parts *)
  end.
(** nrm.py:143-162, the loop over the attributes *)
Fixpoint attr_loop (acc : list rule * list (string * Z) * bool) (l : list string)
  : result (list rule * list (string * Z) * bool) :=
  match l with
  | [] => Ok acc
  | aa :: r => do! acc' <- attr_step acc aa; attr_loop acc' r
  end.
(** nrm.py:137-161 *)
Definition parse_attrs (spec : string) : result (list rule * list (string * Z) * bool) :=
  if eqb spec "-" then Ok ([], [], false) else attr_loop ([], [], false) (split_on "," spec).

(** nrm.py:107, [t != ],  truth of a text *)
Definition nonblank (s : string) : bool := match s with EmptyString => false | _ => true end.

(** nrm.py:106-164, one line that is neither blank nor a comment *)
Definition parse_line (line : string) : result nrm_port :=
  match filter nonblank (split_on " " line) with
  | [port_type; port_name; remote_spec; label_spec; bandwidth; interface; authz_spec] =>
      if negb (eqb port_type "ethernet") then Err ETopology else
      do! remote <- parse_remote remote_spec;
      do! label <- parse_label_spec label_spec;
      do! bw <- match py_int bandwidth with Some b => Ok b | None => Err ENRMSpecification end;
      do! (rn, rp, ri, ro) <- match remote with
        | None => Ok (None, None, None, None)
        | Some (net, port, None) => Err ENRMSpecification
        | Some (net, port, Some (i, o)) =>
            let base := net +++ ":" +++ port in
            Ok (Some net, Some port, Some (base +++ i), Some (base +++ o))
        end;
      do! (rules, vecs, restricted) <- parse_attrs authz_spec;
      Ok (mkPort port_type port_name rn rp ri ro label bw interface rules vecs restricted)
  | _ => Err ENRMSpecification
  end.

(** nrm.py:101-104: a blank or comment line *)
Definition skip_line (line : string) : bool := eqb line "" || starts_with "#" line.

(** nrm.py:86-166, over the lines of the source *)
Fixpoint parse_port_spec (lines : list string) : result (list nrm_port) :=
  match lines with
  | [] => Ok []
  | l :: r =>
      let line := strip l in
      if skip_line line then parse_port_spec r
      else do! p <- parse_line line; do! ps <- parse_port_spec r; Ok (p :: ps)
  end.
