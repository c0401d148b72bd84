(** What is claimed about the aggregator and its local backend together (C89). *)
From Verif Require Import Base ModelLabel ModelSTP ModelAuthz ModelNRM ModelState ModelLinkVector ModelProvreg ModelAggregator SpecAggregator SpecAggInv.
From Verif Require ModelBackend ModelBackendConc SpecBackend.
From Verif Require Import ModelService.
Open Scope Z_scope.

(** the calls received *)
Definition asked (v : svc) (c : call) : Prop := In c (m_log (v_agg v)).
(** the aggregator has sent this to the backend *)
Definition told (g : scfg) (v : svc) (h : header) (b : dbody) : Prop := In (ODown (sv_obj g) h b) (outs (m_st (v_agg v))).
(** the backend has done this *)
Definition did (v : svc) (x : bout) : Prop := In x (ModelBackend.outs (ModelBackendConc.m_st (v_back v))).

(** the id is that of a reservation the backend was asked for, with this correlation id *)
Definition local_id (v : svc) (sc corr : string) : Prop :=
  exists t h q, In (t, ModelBackend.Reserve h q) (ModelBackendConc.m_log (v_back v)) /\ ModelBackend.rs_new q = sc /\ ModelBackend.h_correlation h = corr.
(** the backend gives no id to two reservations *)
Definition fresh_ids (v : svc) : Prop := forall sc k k', local_id v sc k -> local_id v sc k' -> k = k'.
(** the segment a provider's message is about *)
Definition names (c : call) : option string :=
  match c with
  | CReserveConfirmed _ sc _ _ | CCommitConfirmed _ sc | CAbortConfirmed _ sc | CProvisionConfirmed _ sc | CReleaseConfirmed _ sc
  | CTerminateConfirmed _ sc | CReserveTimeout _ sc _ _ _ | CDataPlane _ sc _ | CErrorEvent _ sc _ _ => Some sc
  | _ => None
  end.
(** messages of other agents are not about the backend's segments *)
Definition apart (v : svc) : Prop := forall c sc k, In c (v_ext v) -> names c = Some sc -> ~ local_id v sc k.
(** and do not claim to come from this one *)
Definition unclaimed (urn : string) (v : svc) : Prop :=
  forall h sc a b, In (CReserveConfirmed h sc a b) (v_ext v) -> hd_provider h <> urn.

(** the segment from [a] to [b] is part of a path for the connection asked for, perhaps all of it *)
Definition on_path (g : cfg) (q : areq) (a b : stp) : Prop :=
  exists ls, path_of g q ls /\ In (a, b) ls.

(** the segment was asked of the backend for connection [cid], which request [q] with header [h] created *)
Definition segment_of (g : scfg) (v : svc) (cid : string) (h : header) (q : areq) (hd : header) (a b : stp) : Prop :=
  asked v (CReserve h q) /\ told g v hd (DReserve (q_gid q) a b (q_start q) (q_end q) (q_bw q)) /\
  hd_trace hd = Some (extended_trace (sv_agg g) h cid) /\ hd_sas hd = hd_sas h /\ on_path (sv_agg g) q a b.
(** connection [cid] is stored as made for request [q] with header [h] *)
Definition stored_for (v : svc) (cid : string) (h : header) (q : areq) : Prop :=
  exists k c, aget k (t_conns (m_st (v_agg v))) = Some c /\ cn_cid c = cid /\ cn_requester c = hd_requester h /\ cn_gid c = q_gid q /\
    cn_start c = q_start q /\ cn_end c = q_end q /\ cn_bw c = q_bw q.
(** the policies of both ports accept the attributes that came with this request *)
Definition may_use (g : scfg) (h : header) (a b : stp) : Prop :=
  exists hb, ModelBackend.h_sas hb = hd_sas h /\ ModelBackend.authorize (sv_back g) (s_port a) (s_port b) hb = Ok tt.
(** the labels used are of those asked for, where labels are as parsed (C29) *)
Definition chosen (g : scfg) (a b : stp) (l1 l2 : option label) : Prop :=
  SpecBackend.wf_ports (sv_back g) -> SpecBackend.wf_olabel (s_label a) -> SpecBackend.wf_olabel (s_label b) ->
  SpecBackend.label_choice (sv_back g) a b l1 l2.

(** what the event is to the aggregator *)
Definition agg_event (g : scfg) (v : svc) (e : sevent) : option event :=
  match e with
  | SCall c => Some (EvCall c)
  | SAnswer i a => Some (EvAnswer i a)
  | STopology reg rv => Some (EvTopology reg rv)
  | SRestart reg rv => Some (EvRestart reg rv)
  | SUp n k u note =>
      match nth_error (ModelBackend.outs (ModelBackendConc.m_st (v_back v))) n with
      | Some x => option_map EvCall (up_call (a_urn (sv_agg g)) (ModelBackend.network (sv_back g)) (ModelBackend.db (ModelBackendConc.m_st (v_back v))) k u note x)
      | None => None
      end
  | SBack _ | SDown _ _ _ => None
  end.
(** at event [e] the aggregator sends [b] to [r], in state [s] *)
Definition reports (g : scfg) (v : svc) (e : sevent) (s : st) (r : string) (b : ubody) : Prop :=
  exists ev, agg_event g v e = Some ev /\ In (s, AOut (OUp r b)) (step_acts (sv_agg g) (sv_prompt g) (v_agg v) ev).
(** the backend has done [x] for each of its segments of connection [cid] *)
Definition each_done (x : string -> bout) (cid : string) (s : st) (v : svc) : Prop :=
  exists k c, aget k (t_conns s) = Some c /\ cn_cid c = cid /\
    forall y corr, In y (subs_of k s) -> local_id v (sb_cid y) corr -> did v (x (sb_cid y)).
