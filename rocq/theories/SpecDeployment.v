(** A device under a backend: what becomes of its configuration while the
    backend works (C79). *)
From Verif Require Import Base ModelLabel ModelSTP ModelAuthz ModelNRM ModelCalendar ModelState ModelScheduler ModelBackend ModelDrivers
  SpecLabel SpecCalendar SpecBackend SpecDrivers.
Open Scope Z_scope.

(** The link of a stored connection. *)
Definition link_of (r : row) : link := mkLink (c_id r) (c_sport r) (c_slabel r) (c_dport r) (c_dlabel r).

(** The commands reach the device as a whole when it reports success, and not at
    all when it reports failure. *)
Section Device.
  Context {C S : Type} (D : driver C) (exec : S -> C -> S) (rows : list (string * row)).
  Definition send (f : string -> string -> option label -> string -> option label -> result (list C)) (cid : string) (d : S) : S :=
    match aget cid rows with
    | Some r => match f (c_id r) (c_sport r) (c_slabel r) (c_dport r) (c_dlabel r) with Ok cs => fold_left exec cs d | Err _ => d end
    | None => d
    end.
  Definition undergo (d : S) (x : output) : S :=
    match x with
    | OSetupDone cid true => send (dr_setup D) cid d
    | OTeardownDone cid true => send (dr_teardown D) cid d
    | _ => d
    end.
  Definition device (d0 : S) (l : list output) : S := fold_left undergo l d0.
End Device.

(** The answer to a teardown is the next thing that happens. *)
Definition plain_output (x : output) : Prop := match x with OTeardown _ _ _ | OTeardownDone _ _ => False | _ => True end.
Inductive answered : list output -> Prop :=
| an_nil : answered []
| an_plain x l : plain_output x -> answered l -> answered (x :: l)
| an_pair cid a b ok l : answered l -> answered (OTeardown cid a b :: OTeardownDone cid ok :: l).

(** What is asked of a device and its driver: the driver names the resources the
    backend books, and it can make the commands of a link that was reported up. *)
Record deployed {C} (D : driver C) (may : link -> Prop) (g : cfg) (rows : list (string * row)) (l : list output) : Prop := {
  dp_names : forall port lb res, dr_resource D port lb = Ok res -> get_resource g port lb = res;
  dp_rows : forall cid r, aget cid rows = Some r -> may (link_of r) /\ nameable D (link_of r);
  dp_makes : forall cid r, In (OSetupDone cid true) l -> aget cid rows = Some r ->
    exists cs, dr_setup D (c_id r) (c_sport r) (c_slabel r) (c_dport r) (c_dlabel r) = Ok cs }.

(** No teardown fails. *)
Definition teardowns_work (l : list output) : Prop := forall cid, ~ In (OTeardownDone cid false) l.

(** A link does not come up while another one is still up that has a resource of
    it for another time. *)
Definition timely (g : cfg) (rows : list (string * row)) (l : list output) : Prop :=
  forall pre cid post, l = pre ++ OSetupDone cid true :: post -> forall cid' r r',
    cid' <> cid -> link_up cid' pre = true -> aget cid rows = Some r -> aget cid' rows = Some r' ->
    forall res, uses g r res -> uses g r' res -> exists t, occupies r t /\ occupies r' t.

(** Every link that could be set up can be torn down. *)
Definition undoes {C} (D : driver C) (may : link -> Prop) : Prop :=
  forall k cs, may k -> picked k -> dr_setup D (k_id k) (k_sp k) (k_sl k) (k_dp k) (k_dl k) = Ok cs ->
  exists cs', dr_teardown D (k_id k) (k_sp k) (k_sl k) (k_dp k) (k_dl k) = Ok cs'.

(** The links of the connections the table says are active. *)
Definition active_link (rows : list (string * row)) (k : link) : Prop :=
  exists cid r, aget cid rows = Some r /\ c_active r = true /\ k = link_of r.
