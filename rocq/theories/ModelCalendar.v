(** Model of /repo/opennsa/backends/common/calendar.py.

    Instants are integers: microseconds since 1970-01-01 (the resolution of
    Python's [datetime]).  The clock is read once per call (the code reads it
    again for each comparison, a few microseconds apart).  The type assertions
    of [_checkArgs] (calendar.py:30-39) are discharged by typing. *)
From Verif Require Import Base.
Open Scope Z_scope.

(** calendar.py:94 [datetime.datetime(9999, 1, 1)] *)
Definition forever : Z := 253370764800000000.
(** calendar.py:76 [datetime.datetime(2095, 1, 1)] *)
Definition year2095 : Z := 3944678400000000.

(** calendar.py:27, 45: (resource, start_time, end_time) *)
Definition entry : Type := (string * (option Z * option Z))%type.
(** calendar.py:45, the tuple *)
Definition mk_entry (r : string) (s e : option Z) : entry := (r, (s, e)).
(** calendar.py:27, [self.reservations] *)
Definition calendar := list entry.

(** calendar.py:42-46 [addReservation] *)
Definition cal_add (c : calendar) (r : string) (s e : option Z) : calendar := c ++ [mk_entry r s e].

(** Python [list.remove], calendar.py:54 *)
Fixpoint remove_first (x : entry) (c : calendar) : option calendar :=
  match c with
  | [] => None
  | y :: c' => if eqb x y then Some c' else option_map (cons y) (remove_first x c')
  end.
(** calendar.py:49-56 [removeReservation] *)
Definition cal_remove (c : calendar) (r : string) (s e : option Z) : result calendar :=
  match remove_first (mk_entry r s e) c with Some c' => Ok c' | None => Err EValue end.

(** calendar.py:96-99, an open start is now, an open end the far future *)
Definition or_default (d : Z) (o : option Z) : Z := match o with Some x => x | None => d end.

(** calendar.py:87-110 [_resourceOverlap] *)
Definition resource_overlap (now : Z) (s1 e1 s2 e2 : option Z) : result bool :=
  let r1s := or_default now s1 in
  let r2s := or_default now s2 in
  let r1e := or_default forever e1 in
  let r2e := or_default forever e2 in
  if negb (r1s <? r1e) then Err EAssertion
  else if negb (r2s <? r2e) then Err EAssertion
  else if r2e <? r1s then Ok false
  else if r2s >? r1e then Ok false
  else Ok true.

(** calendar.py:79-82, the loop over stored reservations *)
Fixpoint check_loop (now : Z) (c : calendar) (r : string) (s e : option Z) : result unit :=
  match c with
  | [] => Ok tt
  | (cr, (cs, ce)) :: c' =>
      if eqb r cr then
        do! o <- resource_overlap now cs ce s e;
        if o then Err ESTPUnavailable else check_loop now c' r s e
      else check_loop now c' r s e
  end.

(** calendar.py:59-84 [checkReservation] *)
Definition cal_check (now : Z) (c : calendar) (r : string) (s e : option Z) : result unit :=
  if (match s, e with Some s', Some e' => s' >? e' | _, _ => false end) then Err EPayload
  else if (match s with Some s' => s' <? now | None => false end) then Err EPayload
  else if (match s with Some s' => s' >? year2095 | None => false end) then Err EPayload
  else check_loop now c r s e.

(** Use of the calendar by its clients (genericbackend.py:286-323): check, and
    add if the check passed, without giving up control in between. *)
Inductive cal_op :=
| CBook (r : string) (s e : option Z)
| CRemove (r : string) (s e : option Z)
| CTick (dt : Z).

(** calendar.py:26-27 *)
Record cal_state := mkCal { c_now : Z; c_entries : calendar }.
(** calendar.py:42-84, one call *)
Definition cal_step (st : cal_state) (o : cal_op) : cal_state :=
  match o with
  | CBook r s e =>
      match cal_check (c_now st) (c_entries st) r s e with
      | Ok _ => mkCal (c_now st) (cal_add (c_entries st) r s e)
      | Err _ => st
      end
  | CRemove r s e =>
      match cal_remove (c_entries st) r s e with
      | Ok c => mkCal (c_now st) c
      | Err _ => st
      end
  | CTick dt => mkCal (c_now st + Z.max 0 dt) (c_entries st)
  end.
(** calendar.py:42-84, a sequence of calls *)
Definition cal_run (st : cal_state) (ops : list cal_op) : cal_state := fold_left cal_step ops st.
