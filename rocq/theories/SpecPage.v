(** C96: what a page shows. *)
From Verif Require Import Base ModelLabel SpecLabel ModelTime SpecTime ModelPage.
Open Scope Z_scope.

(** Reading a table: the text is cut at '<', and what follows begins with a tag up
    to '>'.  The cells of the rows, each with all the text between its start and
    its end.  Attributes and entities are not needed for these pages. *)
Fixpoint table (row : list string) (cell : option string) (ts : list string) : list (list string) :=
  match ts with
  | [] => []
  | t :: r =>
      match split1 ">" t with
      | None => table row cell r
      | Some (tag, x) =>
          if String.eqb tag "tr" then table [] None r
          else if String.eqb tag "/tr" then row :: table [] None r
          else if String.eqb tag "th" then table row (Some x) r
          else if String.eqb tag "/th" then table (match cell with Some c => row ++ [c] | None => row end) None r
          else table row (option_map (fun c => c +++ x) cell) r
      end
  end.
Definition read_table (page : string) : list (list string) := table [] None (split_on "<" page).

(** All that has been written. *)
Fixpoint whole (l : list string) : string := match l with [] => "" | s :: r => s +++ whole r end.

(** A date and a time of day in full seconds. *)
Definition moment (t : dt) : string :=
  four (dy t) +++ "-" +++ two (dmo t) +++ "-" +++ two (dd t) +++ " " +++ two (dh t) +++ ":" +++ two (dmi t) +++ ":" +++ two (ds t).
(** A network and a port, and the values of a label if there is one. *)
Definition end_point (net port : string) (l : option label) (x : string) : Prop :=
  match l with
  | None => x = net +++ ":" +++ port
  | Some l => exists v, x = net +++ ":" +++ port +++ ":" +++ v /\ label_of_str (ltype l) v = Ok l
  end.
(** The cells that show a connection. *)
Inductive shows_row (r : page_row) : list string -> Prop :=
| shows_cells src dst b e t : end_point (pg_snet r) (pg_sport r) (pg_slabel r) src -> end_point (pg_dnet r) (pg_dport r) (pg_dlabel r) dst ->
    pg_end r = Some t -> e = moment t -> b = match pg_start r with Some s => moment s | None => "-" end ->
    shows_row r [pg_id r; pg_life r; src; dst; b; e].

(** Texts without the start of a tag. *)
Definition plain_text (s : string) : Prop := shas "<" s = false.
Definition plain_row (r : page_row) : Prop :=
  plain_text (pg_id r) /\ plain_text (pg_life r) /\ plain_text (pg_snet r) /\ plain_text (pg_sport r) /\ plain_text (pg_dnet r) /\ plain_text (pg_dport r).
(** A row as the database has it: its labels are ones that were parsed, its times exist. *)
Record stored_row (r : page_row) : Prop := {
  sr_labels : forall l, pg_slabel r = Some l \/ pg_dlabel r = Some l -> wf_values (lvalues l);
  sr_times : forall t, pg_start r = Some t \/ pg_end r = Some t -> time_exists t }.

(** The headings. *)
Definition headings : list string := ["Connection Id"; "Lifecycle state"; "Source"; "Destination"; "Start time"; "End time"].
