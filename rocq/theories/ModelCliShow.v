(** What the command line client shows of the answer to a query (cli/commands.py) and how it
    gets to the terminal (cli/logobserver.py). *)
From Verif Require Import Base ModelXml ModelSTP ModelTime ModelQueryHelper ModelAuthz.
Open Scope Z_scope.

(** [str] of a bool, as in ['%s' % x]; commands.py:271, 286 *)
Definition str_bool (b : bool) : string := if b then "True" else "False".
(** [str] of a naive datetime, and of None, as in ['%s' % x]; commands.py:276.
    Python library: [isoformat] with a blank for the T; microseconds only if not 0. *)
Definition str_time (o : option dt) : string :=
  match o with
  | None => "None"
  | Some t => pad 4 (dy t) +++ "-" +++ pad 2 (dmo t) +++ "-" +++ pad 2 (dd t) +++ " " +++ pad 2 (dh t) +++ ":" +++ pad 2 (dmi t) +++ ":" +++ pad 2 (ds t) +++
      (if dus t =? 0 then "" else "." +++ pad 6 (dus t))
  end.
(** [if qr.global_reservation_id: ...]; commands.py:263-266 *)
Definition line_if (head : string) (o : option string) : list string :=
  match o with None | Some "" => [] | Some s => [head +++ s] end.
(** commands.py:277-290.  Services from an answer have no parameters
    (queryhelper.py:127), so lines 287-288 say nothing. *)
Definition service_lines (i : string) (child : bool) (sd : option p2p) : list string :=
  match sd with
  | Some s =>
      (i +++ "Path         " +++ short_name (p_src s) +++ " -- " +++ short_name (p_dst s)) ::
      (if child then [] else
         [i +++ "Bandwidth    " +++ py_str (p_cap s); i +++ "Direction    " +++ p_dir s] ++
         match p_sym s with Some true => [i +++ "Symmetric    " +++ str_bool true] | _ => [] end)
  | None => [i +++ "Unrecognized service definition: None"]
  end.
(** [_emitQueryResult]; commands.py:258-293 *)
Fixpoint emit (i : string) (child : bool) (c : cinfo) : list string :=
  let 'CI cid gid desc _ crits prov _ s _ _ := c in
  ["";
   i +++ "Connection   " +++ cid +++ " (" +++ prov +++ ")"] ++
  line_if (i +++ "Global ID    ") gid ++ line_if (i +++ "Description  ") desc ++
  [i +++ "States       " +++ cs_r s +++ ", " +++ cs_p s +++ ", " +++ cs_l s;
   i +++ "Dataplane    Active : " +++ str_bool (cs_act s) +++ ", Version: " +++ py_str (cs_ver s) +++ ", Consistent " +++ str_bool (cs_cons s)] ++
  match crits with
  | [] => []
  | QC _ sc sd kids :: _ =>
      (if child then [] else [i +++ "Start-End    " +++ str_time (sc_start sc) +++ " - " +++ str_time (sc_end sc)]) ++
      service_lines i child sd ++ flat_map (emit (i +++ "  ") true) kids
  end.
(** [querySummary] and [queryRecursive], once the answer is there; commands.py:300-307, 317-324 *)
Definition query_lines (l : list cinfo) : list string :=
  match l with
  | [] => ["No results from query"]
  | _ => ["Query results:"] ++ flat_map (emit "" false) l ++ [""]
  end.

(** The messages that are not shown; logobserver.py:30-35 *)
Definition hidden (text : string) : bool :=
  mem text ["Log opened."; "Main loop terminated."] ||
  starts_with "twisted.web.server.Site starting on" text ||
  starts_with "Starting factory <twisted.web.server.Site instance" text ||
  starts_with "Stopping factory <twisted.web.server.Site instance" text.
(** [emit] of the observer, for messages that are neither debugging nor payload, which
    lines 16-22 are about; logobserver.py:24-39 *)
Definition terminal (texts : list string) : string :=
  fold_right (fun t r => if hidden t then r else t +++ String "010" r) "" texts.
