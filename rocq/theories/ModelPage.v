(** Model of the page that lists the connections, /repo/opennsa/viewresource.py.

    Not modelled: how the page is found (setup.py:291-293 hangs it below 'NSI'). *)
From Verif Require Import Base ModelLabel ModelTime.
Open Scope Z_scope.

(** The columns of a row of the table of connections that the page shows;
    viewresource.py:64-79 *)
Record page_row := mkPageRow {
  pg_id : string; pg_life : string;
  pg_snet : string; pg_sport : string; pg_slabel : option label;
  pg_dnet : string; pg_dport : string; pg_dlabel : option label;
  pg_start : option dt; pg_end : option dt }.

(** The line feed; viewresource.py:15-26 *)
Definition NL : string := String "010" "".
(** A number of blanks; viewresource.py:43 *)
Fixpoint blanks (n : nat) : string := match n with O => "" | S m => " " +++ blanks m end.

(** [HTML_HEADER % {'title': 'OpenNSA Connections'}]; viewresource.py:15-22, 86 *)
Definition page_header : string :=
  "<!DOCTYPE html>" +++ NL +++ "<html>" +++ NL +++ "    <head>" +++ NL +++
  "        <meta http-equiv=""Content-Type"" content=""text/html; charset=utf-8"" />" +++ NL +++
  "        <title>" +++ "OpenNSA Connections" +++ "</title>" +++ NL +++ "    </head>" +++ NL +++ "    <body>" +++ NL.
(** [HTML_FOOTER]; viewresource.py:24-26 *)
Definition page_footer : string := "   </body>" +++ NL +++ "</html>" +++ NL.

(** viewresource.py:45-59 *)
Definition table_head : string :=
  NL +++ blanks 8 +++ "<h3>Connections</h3>" +++ NL +++ blanks 8 +++ "<p>" +++ NL +++
  blanks 8 +++ "<table style=""width:95%"" border=1>" +++ NL +++
  blanks 12 +++ "<thead>" +++ NL +++ blanks 16 +++ "<tr>" +++ NL +++
  blanks 20 +++ "<th>Connection Id</th>" +++ NL +++ blanks 20 +++ "<th>Lifecycle state</th>" +++ NL +++
  blanks 20 +++ "<th>Source</th>" +++ NL +++ blanks 20 +++ "<th>Destination</th>" +++ NL +++
  blanks 20 +++ "<th>Start time</th>" +++ NL +++ blanks 20 +++ "<th>End time</th>" +++ NL +++
  blanks 16 +++ "</tr>" +++ NL +++ blanks 12 +++ "</thead>" +++ NL +++ blanks 12 +++ "<tbody>".

(** An end point; viewresource.py:64-65 *)
Definition page_stp (net port : string) (l : option label) : string :=
  net +++ ":" +++ port +++ match l with Some l => ":" +++ label_value l | None => "" end.

(** [t.replace(microsecond=0)] put into a text; viewresource.py:67-68, 79.
    Python library: str of a datetime is isoformat with a blank for the T. *)
Definition page_time (t : dt) : string :=
  pad 4 (dy t) +++ "-" +++ pad 2 (dmo t) +++ "-" +++ pad 2 (dd t) +++ " " +++
  pad 2 (dh t) +++ ":" +++ pad 2 (dmi t) +++ ":" +++ pad 2 (ds t).

(** One row; viewresource.py:61-79.  None has no [replace] (line 68). *)
Definition page_line (r : page_row) : result string :=
  match pg_end r with
  | None => Err EAttribute
  | Some e =>
      Ok (NL +++ blanks 17 +++ "<tr>" +++ NL +++
          blanks 20 +++ "<th><div>" +++ pg_id r +++ "</div></th>" +++ NL +++
          blanks 20 +++ "<th>" +++ pg_life r +++ "</th>" +++ NL +++
          blanks 20 +++ "<th>" +++ page_stp (pg_snet r) (pg_sport r) (pg_slabel r) +++ "</th>" +++ NL +++
          blanks 20 +++ "<th>" +++ page_stp (pg_dnet r) (pg_dport r) (pg_dlabel r) +++ "</th>" +++ NL +++
          blanks 20 +++ "<th>" +++ match pg_start r with Some s => page_time s | None => "-" end +++ "</th>" +++ NL +++
          blanks 20 +++ "<th>" +++ page_time e +++ "</th>" +++ NL +++
          blanks 17 +++ "</tr>" +++ NL +++ blanks 12)
  end.

(** The rows, one after the other; viewresource.py:61-79 *)
Fixpoint page_lines (rs : list page_row) : result string :=
  match rs with
  | [] => Ok ""
  | r :: rest => do! l <- page_line r; do! ls <- page_lines rest; Ok (l +++ ls)
  end.

(** The whole body; viewresource.py:45-84 *)
Definition page_body (rs : list page_row) : result string :=
  do! ls <- page_lines rs; Ok (table_head +++ ls +++ blanks 16 +++ "</tbody>" +++ blanks 12 +++ "</table>").

(** What a request gets: what is written, and whether it is finished. *)
Record answer := mkAnswer { an_written : list string; an_finished : bool }.

(** [renderPage]; viewresource.py:41-90.  An exception goes to a Deferred that
    nobody looks at (lines 36-38).  [bytes] tells that the library takes bytes only
    and raises a TypeError for a text, as it does on Python 3. *)
Definition render_page (bytes : bool) (rs : list page_row) : answer :=
  match page_body rs with
  | Err _ => mkAnswer [] false
  | Ok b => if bytes then mkAnswer [] false else mkAnswer [page_header; b; page_footer] true
  end.
