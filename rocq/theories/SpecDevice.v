(** What is claimed about the links the device is given and what was told about them (C93). *)
From Verif Require Import Base ModelLabel ModelSTP ModelAuthz ModelNRM ModelState ModelLinkVector ModelProvreg ModelAggregator SpecAggregator SpecAggInv.
From Verif Require ModelBackend ModelBackendConc SpecBackend.
From Verif Require Import ModelService SpecService.
Open Scope Z_scope.

(** the ids the backend's reservations were given *)
Definition given (v : svc) : list string :=
  flat_map (fun e => match snd e with ModelBackend.Reserve _ q => [ModelBackend.rs_new q] | _ => [] end) (ModelBackendConc.m_log (v_back v)).
(** the device was given a link between [a] and [b], to set up or to take down *)
Definition on_device (v : svc) (sc : string) (a b : string) : Prop := did v (ModelBackend.OSetup sc a b) \/ did v (ModelBackend.OTeardown sc a b).
(** how the device calls an end point *)
Definition named (g : scfg) (x : stp) : string := ModelBackend.get_target (sv_back g) (s_port x) (s_label x).

(** what was told of connection [cid] in state [s], from [a] to [b], is what the device is given, by then or later, in [v]:
    at the source, for the segment that starts there; at the destination, for the one that ends there, if it was
    the last to be stored *)
Definition as_told (g : scfg) (v : svc) (s : st) (a b : stp) (cid : string) : Prop :=
  exists k c, aget k (t_conns s) = Some c /\ cn_cid c = cid /\
    forall y t1 t2, In y (subs_of k s) -> on_device v (sb_cid y) t1 t2 -> exists h q ls u w,
      asked v (CReserve h q) /\ made_for c h q /\ path_of (sv_agg g) q ls /\ nth_error ls (sb_order y) = Some (u, w) /\
      (sb_order y = 0%nat -> u = q_src q /\ t1 = named g a) /\
      (S (sb_order y) = List.length ls -> w = q_dst q /\ (List.length (subs_of k s) = List.length ls -> newest y s -> t2 = named g b)).
