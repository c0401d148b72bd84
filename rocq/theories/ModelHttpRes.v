(** Conditional GET: shared/modifiableresource.py. *)
From Verif Require Import Base.
Open Scope Z_scope.

(** Times are microseconds.  modifiableresource.py:20-41: the resource with its
    representation, the time of its last update and the text of that time for
    the Last-modified header.  The text has whole seconds (RFC850_FORMAT,
    modifiableresource.py:13), so it is modelled by the whole seconds it says. *)
Record mres := mkRes { r_rep : option string; r_time : Z; r_stamp : Z }.
(** modifiableresource.py:44-66, one second in microseconds *)
Definition second : Z := 1000000.
(** modifiableresource.py:34-41.  [now] is the clock; without a given time its
    microseconds are dropped. *)
Definition updateResource (now : Z) (rep : option string) (given : option Z) : mres :=
  let t := match given with Some t => t | None => (now / second) * second end in
  mkRes rep t (t / second).
(** modifiableresource.py:22-31: a new resource has no representation. *)
Definition res_init (now : Z) : mres := updateResource now None None.

(** The If-Modified-Since header: what strptime (modifiableresource.py:53) makes
    of it: whole seconds, or a text it refuses with ValueError.  That strptime
    reads back what strftime wrote for the same format is the library's. *)
Inductive header := HSeconds (s : Z) | HBad.
(** modifiableresource.py:44-66, the three answers *)
Inductive response := RError500 | RNotModified | RContent (rep : string) (last_modified : Z).
(** modifiableresource.py:44-66 *)
Definition render_GET (r : mres) (h : option header) : response :=
  match r_rep r with
  | None => RError500
  | Some rep =>
      match h with
      | Some (HSeconds s) => if r_time r <=? s * second then RNotModified else RContent rep (r_stamp r)
      | _ => RContent rep (r_stamp r)
      end
  end.
