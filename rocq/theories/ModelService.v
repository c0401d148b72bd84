(** Model of the aggregator (/repo/opennsa/aggregator.py) and one local backend
    (/repo/opennsa/backends/common/genericbackend.py) in one process, as setup.py
    puts them together: the backend is a provider of the aggregator
    (setup.py:267-268) and the aggregator the backend's parent requester (260).

    Simplifications:
    - a call from one to the other happens when one of the events [SDown], [SUp]
      delivers it: at once, later, more than once or never.  In the code it is a
      method call, which happens at once and once; so more runs are allowed
      here;
    - what the backend's methods return (ids, failures) reaches the aggregator as
      any answer to its wait for acknowledgements, again more than in the code;
    - a restart ([SRestart]) keeps both databases and loses everything else; a call
      that was under way is not heard of again, what it wrote stays;
    - one backend; others count as remote providers. *)
From Verif Require Import Base ModelLabel ModelSTP ModelAuthz ModelNRM ModelState ModelLinkVector ModelProvreg ModelAggregator.
From Verif Require ModelCalendar ModelScheduler ModelBackend ModelBackendConc.
Open Scope Z_scope.

Notation bcfg := ModelBackend.cfg.
Notation bop := ModelBackend.op.
Notation bout := ModelBackend.output.
Notation brow := ModelBackend.row.
Notation bevent := ModelBackendConc.event.
Notation bmach := ModelBackendConc.mach.

(** setup.py:208-209, 259-268: the two, which provider object the backend is (provreg.py:29-38), and
    whether the database answers the aggregator at once *)
Record scfg := mkSCfg { sv_agg : cfg; sv_prompt : bool; sv_back : bcfg; sv_obj : nat }.
(** setup.py:208-268, the two running; [v_ext] lists the calls on the aggregator that came from outside: from
    requesters and from other providers (providerservice.py, requesterservice.py) *)
Record svc := mkSvc { v_agg : mach; v_back : bmach; v_ext : list call }.

(** a call on a provider (aggregator.py:408, 435, 477, 517, 567, 609, 649) as the backend receives it
    (genericbackend.py:207, 362, 392, 409, 451, 486).  [new] is the id a new connection will get (345), [ri] the
    request's info, which ModelAggregator.v leaves out.  A correlation id is a number there and a text here.
    Queries (aggregator.py:764) are not delivered. *)
Definition down_op (h : header) (b : dbody) (ri : request_info) (new : string) : option bop :=
  let hb := ModelBackend.mkHdr (hd_requester h) (py_str (Z.of_nat (hd_corr h))) (hd_sas h) ri in
  match b with
  | DReserve gid src dst x e bw => Some (ModelBackend.Reserve hb (ModelBackend.mkResv None gid true src dst x e bw new))
  | DCommit sc => Some (ModelBackend.Commit hb sc)
  | DAbort sc => Some (ModelBackend.Abort hb sc)
  | DProvision sc => Some (ModelBackend.Provision hb sc)
  | DRelease sc => Some (ModelBackend.Release hb sc)
  | DTerminate sc => Some (ModelBackend.Terminate hb sc)
  | DQuery _ => None
  end.

(** a call of the backend on its parent requester (genericbackend.py:387, 406, 446, 481, 513, 596, 611, 670, 694, 719,
    731) as the aggregator receives it (aggregator.py:874-1220).  The header names the agent of the stored
    row, which is the aggregator's, as requester and as provider (405, 512, 595, 608, 667, 693, 716, 730); in
    three cases (387, 446, 481) it is the one the request came with, whose provider [u] is left open here.
    The end points are those of the stored row (587-590), in the backend's network. *)
Definition up_call (urn net : string) (d : list (string * brow)) (k : nat) (u : string) (note : Z) (x : bout) : option call :=
  let h := mkHeader urn urn k [] None in
  let h' := mkHeader urn u k [] None in
  match x with
  | ModelBackend.OReserveConfirmed sc corr =>
      if eqb (py_str (Z.of_nat k)) corr then
        match aget sc d with
        | Some r => Some (CReserveConfirmed h sc (mkSTP net (ModelBackend.c_sport r) (ModelBackend.c_slabel r)) (mkSTP net (ModelBackend.c_dport r) (ModelBackend.c_dlabel r)))
        | None => None
        end
      else None
  | ModelBackend.OCommitConfirmed sc => Some (CCommitConfirmed h' sc)
  | ModelBackend.OAbortConfirmed sc => Some (CAbortConfirmed h sc)
  | ModelBackend.OProvisionConfirmed sc => Some (CProvisionConfirmed h' sc)
  | ModelBackend.OReleaseConfirmed sc => Some (CReleaseConfirmed h' sc)
  | ModelBackend.OTerminateConfirmed sc => Some (CTerminateConfirmed h sc)
  | ModelBackend.OReserveTimeout sc => Some (CReserveTimeout h sc note sc urn)
  | ModelBackend.ODataPlane sc a => Some (CDataPlane h sc (a, 0, true))
  | ModelBackend.OErrorEvent sc ev => Some (CErrorEvent h sc note ev)
  | ModelBackend.OSetup _ _ _ | ModelBackend.OSetupDone _ _ | ModelBackend.OTeardown _ _ _ | ModelBackend.OTeardownDone _ _ => None
  end.

(** what happens: to the aggregator from outside (aggregator.py:156-1225), to the backend (genericbackend.py:44-769), and
    the calls between them (setup.py:259-268) *)
Inductive sevent :=
| SCall (c : call)                             (* a call on the aggregator from outside *)
| SAnswer (i : nat) (a : ans)
| STopology (reg : provreg) (rv : lvec)
| SRestart (reg : provreg) (rv : lvec)         (* a new process, with the database as it is *)
| SBack (e : bevent)                           (* the device, the clock, the backend's database; not a call *)
| SDown (n : nat) (ri : request_info) (new : string)      (* the [n]-th thing the aggregator sent *)
| SUp (n k : nat) (u : string) (note : Z).                (* the [n]-th thing the backend sent *)

(** aggregator.py:60-1225, one event *)
Definition sv_a (g : scfg) (v : svc) (e : event) : svc := mkSvc (mstep (sv_agg g) (sv_prompt g) (v_agg v) e) (v_back v) (v_ext v).
(** genericbackend.py:44-769, one event *)
Definition sv_b (g : scfg) (v : svc) (e : bevent) : svc := mkSvc (v_agg v) (ModelBackendConc.mstep (sv_back g) (v_back v) e) (v_ext v).
(** setup.py:208-268, one event on the two *)
Definition sstep (g : scfg) (v : svc) (e : sevent) : svc :=
  match e with
  | SCall c => let w := sv_a g v (EvCall c) in mkSvc (v_agg w) (v_back w) (v_ext v ++ [c])
  | SAnswer i a => sv_a g v (EvAnswer i a)
  | STopology reg rv => sv_a g v (EvTopology reg rv)
  | SRestart reg rv => sv_b g (sv_a g v (EvRestart reg rv)) ModelBackendConc.ERestart
  | SBack (ModelBackendConc.ECall _) => v
  | SBack e => sv_b g v e
  | SDown n ri new =>
      match nth_error (outs (m_st (v_agg v))) n with
      | Some (ODown p h b) =>
          if eqb p (sv_obj g) then
            match down_op h b ri new with Some o => sv_b g v (ModelBackendConc.ECall o) | None => v end
          else v
      | _ => v
      end
  | SUp n k u note =>
      match nth_error (ModelBackend.outs (ModelBackendConc.m_st (v_back v))) n with
      | Some x =>
          match up_call (a_urn (sv_agg g)) (ModelBackend.network (sv_back g)) (ModelBackend.db (ModelBackendConc.m_st (v_back v))) k u note x with
          | Some c => sv_a g v (EvCall c)
          | None => v
          end
      | None => v
      end
  end.
(** setup.py:208-268, a run *)
Definition srun (g : scfg) (v : svc) (l : list sevent) : svc := fold_left (sstep g) l v.
(** setup.py:208-268, at the start *)
Definition sinit (reg : provreg) (rv : lvec) (t : Z) : svc := mkSvc (minit reg rv) (ModelBackendConc.minit t) [].
