(** What the properties of the backend talk about (C29-C37). *)
From Verif Require Import Base ModelLabel ModelSTP ModelAuthz ModelNRM ModelCalendar ModelState ModelScheduler ModelBackend SpecLabel SpecCalendar.
Open Scope Z_scope.

(** held or committed, and neither ended nor terminated *)
Definition live (r : row) : Prop := (c_r r = RHeld \/ c_alloc r = true) /\ c_l r = LCreated.
Definition liveb (r : row) : bool := (eqb (c_r r) RHeld || c_alloc r) && eqb (c_l r) LCreated.

(** the resources of a connection, and its two calendar entries *)
Definition src_resource (g : cfg) (r : row) : string := get_resource g (c_sport r) (c_slabel r).
Definition dst_resource (g : cfg) (r : row) : string := get_resource g (c_dport r) (c_dlabel r).
Definition bk (g : cfg) (r : row) : list entry :=
  [mk_entry (src_resource g r) (c_start r) (c_end r); mk_entry (dst_resource g r) (c_start r) (c_end r)].
(** all entries of the live connections of a table *)
Definition bookings (g : cfg) (d : list (string * row)) : list entry :=
  flat_map (fun kr => if liveb (snd kr) then bk g (snd kr) else []) d.

(** the instants a connection occupies its resources *)
Definition occupies (r : row) (t : Z) : Prop := covers forever (c_rtime r) (c_start r) (c_end r) t.
Definition uses (g : cfg) (r : row) (res : string) : Prop := res = src_resource g r \/ res = dst_resource g r.

(** the link: up since the device reported so, until the device is told to take
    it down *)
Definition out_link (cid : string) (up : bool) (x : output) : bool :=
  match x with
  | OSetupDone k true => if eqb k cid then true else up
  | OTeardown k _ _ => if eqb k cid then false else up
  | _ => up
  end.
Definition link_up (cid : string) (l : list output) : bool := fold_left (out_link cid) l false.

(** * Histories the serial properties are about *)
(** the state in which the backend looks at a reservation request: after the
    check that a given connection id is not in use *)
Definition looked_at (q : resv) (e : env) (s : st) : st := snd (fst (run (check_unused q) e s)).
(** a generated connection id is new (as is an empty one given by the
    requester, which the code does not check), and the request's end is ahead
    of its start, which is the present if not given.  (Start before end is also
    what the database schema demands of a stored connection.) *)
Definition legal_reserve (q : resv) (e : env) (s : st) : Prop :=
  (rs_cid q = None -> ahas (rs_new q) (db s) = false) /\
  (rs_cid q = Some "" -> ahas "" (db s) = false) /\
  forward forever (now (looked_at q e s)) (rs_start q) (rs_end q).
(** a restart only when no stored live connection has a start but no end (on
    such a one the restart fails, C37) *)
Definition restartable (s : st) : Prop :=
  forall k r, aget k (db s) = Some r -> live r -> c_start r <> None -> c_end r <> None.
Definition legal_step (s : st) (oe : op * env) : Prop :=
  match fst oe with
  | Reserve _ q => legal_reserve q (snd oe) s
  | Restart => restartable s
  | _ => True
  end.
Fixpoint legal (g : cfg) (s : st) (l : list (op * env)) : Prop :=
  match l with
  | [] => True
  | oe :: r => legal_step s oe /\ legal g (snd (serial_step g s oe)) r
  end.
(** no restart at the very moment at which a connection whose link is up was to start *)
Definition off_start (s : st) : Prop :=
  forall k r, aget k (db s) = Some r -> c_active r = true -> c_start r <> Some (now s).
Fixpoint calm_restarts (g : cfg) (s : st) (l : list (op * env)) : Prop :=
  match l with
  | [] => True
  | oe :: r => (fst oe = Restart -> off_start s) /\ calm_restarts g (snd (serial_step g s oe)) r
  end.

(** * Reservation requests (C29) *)
(** [l] is one label of those requested *)
Definition one_of (req l : option label) : Prop :=
  match req, l with
  | None, None => True
  | Some L, Some x => ltype x = ltype L /\ exists v, lvalues x = [(v, v)] /\ denotes (lvalues L) v
  | _, _ => False
  end.
Definition wf_olabel (l : option label) : Prop := match l with Some x => wf_values (lvalues x) | None => True end.
(** ports carry parsed labels *)
Definition wf_ports (g : cfg) : Prop := forall k p, aget k (nrm_ports g) = Some p -> wf_olabel (p_label p).
(** a label for each end: chosen from the requested ones, the same at both ends
    unless the device can swap *)
Definition label_choice (g : cfg) (src dst : stp) (l1 l2 : option label) : Prop :=
  if can_swap g (label_type (s_label src)) && can_swap g (label_type (s_label dst)) then
    one_of (s_label src) l1 /\ one_of (s_label dst) l2
  else l1 = l2 /\ (s_label src = None \/ one_of (s_label src) l1) /\ (s_label dst = None \/ one_of (s_label dst) l1) /\
       (s_label src = None -> s_label dst = None -> l1 = None).
(** the port can carry some of the requested labels *)
Definition carries (p : nrm_port) (req : option label) : Prop :=
  match p_label p, req with
  | None, None => True
  | Some a, Some b => ltype a = ltype b /\ exists z, denotes (lvalues a) z /\ denotes (lvalues b) z
  | _, _ => False
  end.
Record acceptable (g : cfg) (h : hdr) (q : resv) (p d : nrm_port) : Prop := {
  a_p2p : rs_p2p q = true;
  a_snet : s_network (rs_src q) = network g;
  a_dnet : s_network (rs_dst q) = network g;
  a_sport : aget (s_port (rs_src q)) (nrm_ports g) = Some p;
  a_dport : aget (s_port (rs_dst q)) (nrm_ports g) = Some d;
  a_dur : forall b e, rs_start q = Some b -> rs_end q = Some e -> min_duration g * second <= e - b;
  a_sauth : is_authorized (p_authz p) (h_sas h) (h_ri h) = true;
  a_dauth : is_authorized (p_authz d) (h_sas h) (h_ri h) = true;
  a_transit : ~ (p_restricted p = true /\ p_restricted d = true);
  a_ends : s_port (rs_src q) <> s_port (rs_dst q) \/ s_label (rs_src q) <> s_label (rs_dst q);
  a_connect : match can_connect g with
              | Some f => f (s_port (rs_src q)) (s_port (rs_dst q)) (s_label (rs_src q)) (s_label (rs_dst q)) = true
              | None => label_type (s_label (rs_src q)) = label_type (s_label (rs_dst q))
              end;
  a_scarry : carries p (s_label (rs_src q));
  a_dcarry : carries d (s_label (rs_dst q)) }.
(** the port offers the label chosen (C30) *)
Definition offered (p : nrm_port) (l : option label) : Prop :=
  match p_label p, l with
  | None, None => True
  | Some a, Some b => ltype a = ltype b /\ forall z, denotes (lvalues b) z -> denotes (lvalues a) z
  | _, _ => False
  end.
(** the request asks for one label, or only for labels the port has *)
Definition within (p : nrm_port) (req : option label) : Prop :=
  match req with
  | Some b => (exists v, lvalues b = [(v, v)]) \/ forall a, p_label p = Some a -> forall z, denotes (lvalues b) z -> denotes (lvalues a) z
  | None => False
  end.
(** a connection as first stored *)
Record initial (h : hdr) (q : resv) (cid : string) (t : Z) (l1 l2 : option label) (r : row) : Prop := {
  j_id : c_id r = cid;
  j_gid : c_gid r = rs_gid q;
  j_req : c_requester r = h_requester h;
  j_time : c_rtime r = t;
  j_r : c_r r = RStart; j_p : c_p r = PReleased; j_l : c_l r = LCreated;
  j_active : c_active r = false; j_alloc : c_alloc r = false;
  j_sport : c_sport r = s_port (rs_src q); j_slabel : c_slabel r = l1;
  j_dport : c_dport r = s_port (rs_dst q); j_dlabel : c_dlabel r = l2;
  j_start : c_start r = rs_start q; j_end : c_end r = rs_end q;
  j_bw : c_bw r = rs_bw q }.

(** the resources of a label choice are free over the span *)
Definition free_choice (g : cfg) (now : Z) (c : calendar) (q : resv) (l1 l2 : option label) : Prop :=
  label_choice g (rs_src q) (rs_dst q) l1 l2 /\
  forall res cs ce, res = get_resource g (s_port (rs_src q)) l1 \/ res = get_resource g (s_port (rs_dst q)) l2 ->
    In (mk_entry res cs ce) c -> ~ share_instant forever now cs ce (rs_start q) (rs_end q).

(** * Timers and restarts (C33, C35, C37) *)
(** a row with one state changed *)
Definition with_l (l : lstate) (r : row) : row := set_states (mkStates (c_r r) (c_p r) l) r.
Definition with_r (q : rstate) (r : row) : row := set_states (mkStates q (c_p r) (c_l r)) r.
Definition with_p (q : pstate) (r : row) : row := set_states (mkStates (c_r r) q (c_l r)) r.
(** the pending timer of a connection *)
Definition pend (s : st) (k : string) : option (task * Z) :=
  match aget k (s_dict (sch s)) with
  | Some id => match aget id (s_queue (sch s)), aget id (calls s) with
               | Some due, Some t => Some (t, due)
               | _, _ => None
               end
  | None => None
  end.
(** when a held reservation expires *)
Definition deadline (r : row) : Z := match c_end r with Some e => Z.min (c_rtime r + TPC_TIMEOUT) e | None => c_rtime r + TPC_TIMEOUT end.
Definition started (r : row) (t : Z) : Prop := match c_start r with Some b => b < t | None => True end.
(** what a restart looking at a stored connection at time [t] makes of it, being done with it by [u] *)
Record restored (t u : Z) (r r' : row) (tm : option (task * Z)) : Prop := {
  z_dead : ~ live r -> r' = r /\ tm = None;
  z_over : live r -> forall e, c_end r = Some e -> e < t -> r' = set_active false (with_l LPassedEnd r) /\ tm = None;
  z_exp : live r -> c_r r = RHeld -> (forall e, c_end r = Some e -> t <= e) -> deadline r < t ->
     c_r r' = RStart /\ c_alloc r' = false /\ (forall e, c_end r = Some e -> c_l r' = LPassedEnd \/ exists o, tm = Some (TEndtime o, e));
  z_held : live r -> c_r r = RHeld -> t <= deadline r -> r' = r /\ exists o, tm = Some (TTimeout o, deadline r);
  z_up : live r -> c_alloc r = true -> (forall e, c_end r = Some e -> t <= e) -> c_p r = PProvisioned -> c_active r = false -> started r t ->
     exists b, r' = set_active b r /\ (b = true -> forall e, c_end r = Some e -> exists o due, tm = Some (TEndtime o, due) /\ e <= due <= Z.max e u);
  z_soon : live r -> c_alloc r = true -> c_p r = PProvisioned -> c_active r = false -> forall b, c_start r = Some b -> t < b ->
     r' = r /\ ((forall e, c_end r = Some e -> t <= e) -> exists o, tm = Some (TActivate o, b));
  z_wait : live r -> c_alloc r = true -> c_p r = PReleased \/ (c_p r = PProvisioned /\ c_active r = true /\ started r t) ->
     c_start r <> Some t -> forall e, c_end r = Some e -> t <= e -> r' = r /\ exists o, tm = Some (TEndtime o, e);
  z_alloc : c_alloc r = true -> c_alloc r' = true;
  z_idle : c_active r = false -> c_active r' = true -> c_p r = PProvisioned /\ started r t }.
