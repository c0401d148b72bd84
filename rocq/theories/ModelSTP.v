(** Model of STP identifiers: /repo/opennsa/nsa.py:198-235 and
    /repo/opennsa/protocols/nsi2/helper.py:27-38, 164-198. *)
From Verif Require Import Base ModelLabel.

(** nsa.py:198-206 *)
Record stp := mkSTP { s_network : string; s_port : string; s_label : option label }.

(** constants.py:14 and helper.py:27 *)
Definition URN_NETWORK : string := "urn:ogf:network:".
(** helper.py:35-38, with constants.py:30-31 *)
Definition LABEL_MAP : list (string * string) := [("vlan", "vlan"); ("mpls", "mpls")].

(** [s.split('#')[-1]]; nsa.py:212, 224 *)
Definition after_hash (s : string) : string := match rsplit1 "#" s with Some (_, b) => b | None => s end.

(** nsa.py:222-224 *)
Definition label_suffix (l : option label) : string :=
  match l with None => "" | Some l => "?" +++ after_hash (ltype l) +++ "=" +++ label_value l end.
(** nsa.py:209-213 [shortName] (a label object is always true) *)
Definition short_name (s : stp) : string := s_network s +++ ":" +++ s_port s +++ label_suffix (s_label s).
(** nsa.py:216-217 *)
Definition base_urn (s : stp) : string := URN_NETWORK +++ s_network s +++ ":" +++ s_port s.
(** nsa.py:220-225 *)
Definition urn (s : stp) : string := base_urn s +++ label_suffix (s_label s).
(** nsa.py:228-231 *)
Definition stp_eqb (a b : stp) : bool :=
  eqb (s_network a) (s_network b) && eqb (s_port a) (s_port b) &&
  match s_label a, s_label b with
  | None, None => true
  | Some x, Some y => label_eqb x y
  | _, _ => false
  end.

(** [s.replace(p, '')] for non-empty [p]: scanning from the left, [skip]
    characters of an occurrence left to drop; helper.py:183 *)
Fixpoint remove_all (p : string) (skip : nat) (s : string) : string :=
  match s with
  | EmptyString => EmptyString
  | String c r =>
      match skip with
      | S k => remove_all p k r
      | O => if starts_with p s then remove_all p (String.length p - 1) r else String c (remove_all p 0 r)
      end
  end.

(** helper.py:164-174; a second '=' makes the unpacking fail (ValueError) *)
Definition parse_label (s : string) : result label :=
  match split_on "=" s with
  | [t; v] => match aget t LABEL_MAP with
              | Some ty => label_of_str ty v
              | None => Err EPayload
              end
  | [_] | [] => Err EPayload
  | _ => Err EValue
  end.

(** helper.py:178-198 *)
Definition create_stp (stp_id : string) : result stp :=
  if negb (starts_with URN_NETWORK stp_id) then Err EPayload else
  let tsi := remove_all URN_NETWORK 0 stp_id in
  do! (loc, label) <- match split_on "?" tsi with
                       | [loc] => Ok (loc, None)
                       | [loc; lbp] => do! l <- parse_label lbp; Ok (loc, Some l)
                       | _ => Err EValue
                       end;
  match rsplit1 ":" loc with
  | None => Err EPayload
  | Some (network, port) => Ok (mkSTP network port label)
  end.
