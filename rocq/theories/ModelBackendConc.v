(** The generic backend with overlapping operations: every program of
    ModelBackend.v may be suspended at each of its waits
    (/repo/opennsa/backends/common/genericbackend.py, each [yield] of a deferred),
    and anything may happen meanwhile.

    Simplifications:
    - a wait for the database or the parent may fail with any exception, not
      only with those these raise;
    - an immediate activation (436) is put on the list of started methods and
      starts by an event of its own; in the code it starts at once and first
      suspends in the wait for the device.  The code's order is one of those
      considered here;
    - cancelling a scheduled call that is already running (scheduler.py:61-71)
      makes its present wait fail; here that failure is an event of its own
      ([EAnswer i (Some e)]) and not part of the cancelling step, apart from a
      method cancelling itself, see [do_timeout]. *)
From Verif Require Import Base ModelLabel ModelSTP ModelAuthz ModelNRM ModelCalendar ModelState ModelScheduler ModelBackend.
Open Scope Z_scope.

(** what a program does next: it is over, has raised, or waits (twisted inlineCallbacks; genericbackend.py throughout);
    e.g. genericbackend.py:223, 357 *)
Inductive outcome A := Done (r : result A) | Waits (w : wait) (k : option exn -> prog A).
Arguments Done {A}. Arguments Waits {A}.
(** to the next suspension; of a method of genericbackend.py; e.g. genericbackend.py:223, 357 *)
Fixpoint advance {A} (p : prog A) (s : st) : outcome A * st :=
  match p with
  | Ret a => (Done (Ok a), s)
  | Throw e => (Done (Err e), s)
  | Get k => advance (k s) s
  | Upd f k => advance k (f s)
  | Await w k => (Waits w k, s)
  end.

(** what started a method; for a scheduled call its number (scheduler.py:35-56) *)
Inductive origin := FromCall (o : op) | FromTask (t : task) (timer : option nat) | FromRestart.
(** the running backend: its state (genericbackend.py:46-63) and the suspended methods *)
Record mach := mkMach {
  m_st : st;
  (** the suspended methods: what it waits for, and how it continues *)
  m_tasks : list (nat * (origin * (wait * (option exn -> prog string))));
  m_next : nat;
  m_done : list (nat * result string);     (* what the finished ones returned *)
  m_log : list (Z * op) }.                 (* the requests, with the time of arrival *)

(** scheduler.py:53-54: the end of a scheduled call *)
Definition finish (from : origin) (s : st) : st :=
  match from with FromTask _ (Some id) => set_sch (sched_step (sch s) (SFinish id)) s | _ => s end.
(** twisted inlineCallbacks: a method goes on and its end, failure or next [yield] is recorded (genericbackend.py:207-769) *)
Definition resume (i : nat) (from : origin) (p : prog string) (m : mach) : mach :=
  match advance p (m_st m) with
  | (Done r, s) => mkMach (finish from s) (m_tasks m) (m_next m) (m_done m ++ [(i, r)]) (m_log m)
  | (Waits w k, s) => mkMach s (aset i (from, (w, k)) (m_tasks m)) (m_next m) (m_done m) (m_log m)
  end.
(** a method of genericbackend.py is called and runs to its first [yield]; e.g. genericbackend.py:207-223 *)
Definition launch (from : origin) (p : prog string) (m : mach) : mach :=
  resume (m_next m) from p (mkMach (m_st m) (m_tasks m) (S (m_next m)) (m_done m) (m_log m)).
(** genericbackend.py, change of the state; e.g. genericbackend.py:357 *)
Definition set_st (s : st) (m : mach) : mach := mkMach s (m_tasks m) (m_next m) (m_done m) (m_log m).
(** genericbackend.py:358, 436 and scheduler.py:53-56: nobody looks at the deferred of a started method *)
Definition quietly {A} (p : prog A) : prog string := p ;;; Ret "".

(** a suspended method of genericbackend.py is taken out to go on; e.g. genericbackend.py:357 *)
Fixpoint drop_nth {A} (n : nat) (l : list A) : list A :=
  match l, n with
  | [], _ => []
  | _ :: r, O => r
  | x :: r, S n => x :: drop_nth n r
  end.

(** what happens to the backend from outside: calls (genericbackend.py:207-561), answers, time, a restart *)
Inductive event :=
| ECall (o : op)                              (* a request arrives *)
| EStart (n : nat)                            (* a started method begins, see [ready] *)
| EFire (id : nat)                            (* the reactor starts a scheduled call *)
| EAnswer (i : nat) (x : option exn)          (* what method [i] waits for happens; [Some]: fails *)
| ETick (dt : Z)
| ERestart.                                   (* a new process, 73-83: buildSchedule *)

(** one event on the backend (genericbackend.py:207-769); the reactor runs one thing at a time *)
Definition mstep (g : cfg) (m : mach) (e : event) : mach :=
  let s := m_st m in
  match e with
  | ECall o => launch (FromCall o) (op_prog g o) (mkMach s (m_tasks m) (m_next m) (m_done m) (m_log m ++ [(now s, o)]))
  | EStart n =>
      match nth_error (ready s) n with
      | Some t => launch (FromTask t None) (quietly (task_prog g t)) (set_st (set_ready (drop_nth n (ready s)) s) m)
      | None => m
      end
  | EFire id =>
      match aget id (s_queue (sch s)), aget id (calls s) with
      | Some due, Some t =>
          if due <=? now s then launch (FromTask t (Some id)) (quietly (task_prog g t)) (set_st (set_sch (sched_step (sch s) (SFire id)) s) m)
          else m
      | _, _ => m
      end
  | EAnswer i x =>
      match aget i (m_tasks m) with
      | Some (from, (w, k)) => resume i from (k x) (mkMach s (adel i (m_tasks m)) (m_next m) (m_done m) (m_log m))
      | None => m
      end
  | ETick dt => set_st (tick dt s) m
  | ERestart => launch FromRestart (quietly (build_schedule g)) (mkMach (reboot s) [] (m_next m) (m_done m) (m_log m))
  end.
(** a run of the backend (genericbackend.py:44-769) *)
Definition mrun (g : cfg) (m : mach) (l : list event) : mach := fold_left (mstep g) l m.
(** genericbackend.py:46-63, before any call *)
Definition minit (t : Z) : mach := mkMach (start t) [] 0 [] [].
