(** Properties C29-C33, C35, C37: the backend, operations one after the other. *)
From Coq Require Import Permutation.
From Verif Require Import Base ModelLabel ModelSTP ModelAuthz ModelNRM ModelCalendar ModelState ModelScheduler ModelBackend
  SpecLabel SpecCalendar SpecBackend ProofsBackendGrow ProofsBackendInv ProofsBackendRestart ProofsBackendAdmission ProofsBackendReserve2 ProofsBackendSerial ProofsBackendBusy.
Open Scope Z_scope.

(** ** A backend for the examples: two ports carrying vlan 100-110, resources
    named as by backends/dud.py *)
Definition ex_label (lo hi : Z) : option label := Some (mkLabel "vlan" [(lo, hi)]).
Definition ex_port (n : string) : nrm_port := mkPort "ethernet" n None None None None (ex_label 100 110) 1000 n [] [] false.
Definition ex_res (sep : string) (p : string) (l : option label) : string := p +++ sep +++ match l with Some x => label_value x | None => "" end.
Definition ex_cfg (sc swap : bool) : cfg :=
  mkCfg "net" [("ps", ex_port "ps"); ("bon", ex_port "bon")] (ex_res ":") (ex_res "#") None (fun _ => swap) 60 sc.
Definition ex_hdr : hdr := mkHdr "nsa" "corr" [] (mkRI None).
Definition ex_req (id : string) (lo hi : Z) (b e : option Z) : resv :=
  mkResv None "gid" true (mkSTP "net" "ps" (ex_label lo hi)) (mkSTP "net" "bon" (ex_label lo hi)) b e 10 id.
Definition sec (n : Z) : Z := n * second.
Definition oks (l : list op) : list (op * env) := map (fun o => (o, [])) l.

(** ** C29 *)
(** a refused request changes nothing, unless it is the database that refuses *)
Theorem C29_refused_partial : forall g h q e s x s' e',
  run (reserve g h q) e s = (Err x, s', e') -> x <> EDatabase ->
  db s' = db s /\ cal s' = cal s /\ outs s' = outs s /\ ready s' = ready s.
Proof. intros g h q e s x s' e' H1 H2. destruct (reserve_refused g h q e s x s' e' H1 H2) as (A & B & C & D & _). auto. Qed.
Print Assumptions C29_refused_partial.

(** an accepted request was acceptable and books both ends of one label choice *)
Theorem C29_accepted : forall g h q e s cid s' e', wf_ports g -> wf_olabel (s_label (rs_src q)) -> wf_olabel (s_label (rs_dst q)) ->
  run (reserve g h q) e s = (Ok cid, s', e') ->
  exists p d t l1 l2 r, acceptable g h q p d /\ label_choice g (rs_src q) (rs_dst q) l1 l2 /\ now s <= t <= now s' /\
    (forward forever t (rs_start q) (rs_end q) -> (forall res cs ce, In (mk_entry res cs ce) (cal s) -> forward forever t cs ce) ->
     free_choice g t (cal s) q l1 l2) /\
    (rs_cid q = Some cid \/ (rs_cid q = None /\ cid = rs_new q)) /\ initial h q cid t l1 l2 r /\
    aget cid (db s) = None /\ db s' = aset cid r (db s) /\
    cal s' = cal s ++ [mk_entry (get_resource g (s_port (rs_src q)) l1) (rs_start q) (rs_end q);
                       mk_entry (get_resource g (s_port (rs_dst q)) l2) (rs_start q) (rs_end q)].
Proof. exact reserve_accepted. Qed.
Print Assumptions C29_accepted.

(** and every acceptable request with a free label choice and a new connection id
    is accepted *)
Theorem C29_complete : forall g h q e s p d l1 l2, let s1 := looked_at q e s in
  wf_ports g -> wf_olabel (s_label (rs_src q)) -> wf_olabel (s_label (rs_dst q)) ->
  acceptable g h q p d -> forward forever (now s1) (rs_start q) (rs_end q) -> legal_span year2095 (now s1) (rs_start q) (rs_end q) ->
  (forall res cs ce, In (mk_entry res cs ce) (cal s) -> forward forever (now s1) cs ce) -> free_choice g (now s1) (cal s) q l1 l2 ->
  aget (match rs_cid q with Some c => c | None => rs_new q end) (db s) = None ->
  exists cid s' e', run (reserve g h q) e s = (Ok cid, s', e').
Proof. exact reserve_complete. Qed.
Print Assumptions C29_complete.
(** one that is acceptable, and for which labels could be chosen but none are free, is
    refused as unavailable *)
Theorem C29_busy : forall g h q e s p d l1 l2, let s1 := looked_at q e s in
  wf_ports g -> wf_olabel (s_label (rs_src q)) -> wf_olabel (s_label (rs_dst q)) ->
  acceptable g h q p d -> forward forever (now s1) (rs_start q) (rs_end q) -> legal_span year2095 (now s1) (rs_start q) (rs_end q) ->
  (forall res cs ce, In (mk_entry res cs ce) (cal s) -> forward forever (now s1) cs ce) ->
  label_choice g (rs_src q) (rs_dst q) l1 l2 -> (forall l1 l2, ~ free_choice g (now s1) (cal s) q l1 l2) ->
  aget (match rs_cid q with Some c => c | None => rs_new q end) (db s) = None ->
  exists s' e', run (reserve g h q) e s = (Err ESTPUnavailable, s', e').
Proof. exact reserve_busy. Qed.
Print Assumptions C29_busy.

Example C29_ex : let g := ex_cfg false false in
  let run1 q s := run (reserve g ex_hdr q) [] s in
  let s1 := snd (fst (run1 (ex_req "A" 105 106 (Some (sec 10)) (Some (sec 100))) (start 0))) in
  fst (fst (run1 (ex_req "A" 105 106 (Some (sec 10)) (Some (sec 100))) (start 0))) = Ok "A" /\
  cal s1 = [mk_entry "ps:105" (Some (sec 10)) (Some (sec 100)); mk_entry "bon:105" (Some (sec 10)) (Some (sec 100))] /\
  fst (fst (run1 (ex_req "B" 105 106 (Some (sec 10)) (Some (sec 100))) s1)) = Ok "B" /\
  fst (fst (run1 (ex_req "B" 105 105 (Some (sec 10)) (Some (sec 100))) s1)) = Err ESTPUnavailable /\
  fst (fst (run1 (ex_req "B" 111 120 (Some (sec 10)) (Some (sec 100))) s1)) = Err ETopology /\
  fst (fst (run1 (ex_req "B" 106 106 (Some (sec 10)) (Some (sec 20))) s1)) = Err EConnectionCreate.
Proof. vm_compute. repeat split. Qed.

Example C29_ex_busy : let g := ex_cfg false false in let q := ex_req "B" 105 105 (Some (sec 10)) (Some (sec 100)) in
  let s1 := snd (fst (run (reserve g ex_hdr (ex_req "A" 105 106 (Some (sec 10)) (Some (sec 100)))) [] (start 0))) in
  label_choice g (rs_src q) (rs_dst q) (ex_label 105 105) (ex_label 105 105) /\ forall l1 l2, ~ free_choice g 0 (cal s1) q l1 l2.
Proof.
  intros g q s1. split.
  - cbn. assert (H : ltype (mkLabel "vlan" [(105, 105)]) = "vlan" /\ exists v, [(105, 105)] = [(v, v)] /\ denotes [(105, 105)] v).
    { split; [reflexivity|]. exists 105. split; [reflexivity|]. exists 105, 105. cbn. split; [auto|lia]. }
    split; [reflexivity|]. split; [right; exact H|]. split; [right; exact H|discriminate].
  - intros l1 l2 [H1 H2]. cbn in H1. destruct H1 as (<- & [?|C] & _); [discriminate|]. destruct l1 as [[t vs]|]; [|destruct C]. cbn in C. destruct C as (-> & v & -> & lo & hi & [E|[]] & Hv).
    injection E as <- <-. assert (v = 105) by lia. subst v.
    apply (H2 (get_resource g "ps" (ex_label 105 105)) (Some (sec 10)) (Some (sec 100)) (or_introl eq_refl)).
    + vm_compute. left. reflexivity.
    + exists (sec 10). vm_compute. repeat split; discriminate.
Qed.

(** C29 is false as stated: when the connection manager's id is in use already,
    the database refuses the row but the calendar entries stay. *)
Theorem C29_refused_refuted : ~ (forall g h q e s x s' e',
  run (reserve g h q) e s = (Err x, s', e') -> cal s' = cal s /\ db s' = db s).
Proof.
  intros H. pose (g := ex_cfg false false).
  pose (s1 := snd (fst (run (reserve g ex_hdr (ex_req "A" 105 106 (Some (sec 10)) (Some (sec 100)))) [] (start 0)))).
  specialize (H g ex_hdr (ex_req "A" 105 106 (Some (sec 10)) (Some (sec 100))) [] s1 EDatabase).
  destruct (run (reserve g ex_hdr (ex_req "A" 105 106 (Some (sec 10)) (Some (sec 100)))) [] s1) as [[x s'] e'] eqn:E.
  assert (Hx : x = Err EDatabase) by (apply (f_equal (fun y => fst (fst y))) in E; vm_compute in E; congruence).
  subst x. destruct (H s' e' eq_refl) as [Hc _]. apply (f_equal (fun y => length (cal (snd (fst y))))) in E. cbn [fst snd] in E. rewrite Hc in E.
  vm_compute in E. discriminate.
Qed.
Print Assumptions C29_refused_refuted.

(** ** C30 *)
Theorem C30_in_range_refuted : ~ (forall g h q e s cid s' e' r p,
  run (reserve g h q) e s = (Ok cid, s', e') -> aget cid (db s') = Some r -> aget (c_sport r) (nrm_ports g) = Some p -> offered p (c_slabel r)).
Proof.
  intros H. pose (g := ex_cfg false false). pose (q lo hi id := ex_req id lo hi (Some (sec 10)) (Some (sec 100))).
  pose (book lo hi id s := snd (fst (run (reserve g ex_hdr (q lo hi id)) [] s))).
  (* 105 to 110 are taken; 105-120 is asked for *)
  pose (s := book 110 110 "F" (book 109 109 "E" (book 108 108 "D" (book 107 107 "C" (book 106 106 "B" (book 105 105 "A" (start 0)))))) : st).
  specialize (H g ex_hdr (q 105 120 "G") [] s "G"%string). 
  destruct (run (reserve g ex_hdr (q 105 120 "G")) [] s) as [[x s'] e'] eqn:E.
  assert (Hx : x = Ok "G"%string) by (apply (f_equal (fun y => fst (fst y))) in E; vm_compute in E; congruence).
  subst x. destruct (aget "G" (db s')) as [r|] eqn:Er.
  - specialize (H s' e' r (ex_port "ps") eq_refl Er). assert (Hr : c_sport r = "ps"%string /\ c_slabel r = ex_label 111 111).
    { assert (V : option_map (fun r => (c_sport r, c_slabel r)) (aget "G" (db (snd (fst (run (reserve g ex_hdr (q 105 120 "G")) [] s))))) = Some ("ps"%string, ex_label 111 111)) by (vm_compute; reflexivity).
      rewrite E in V. cbn [fst snd] in V. rewrite Er in V. cbn [option_map] in V. injection V as V1 V2. split; assumption. }
    destruct Hr as [Hr1 Hr2]. rewrite Hr1, Hr2 in H. destruct (H eq_refl) as [_ Hz]. destruct (Hz 111) as (lo & hi & [Hin|[]] & Hle).
    + exists 111, 111. split; [left; reflexivity|lia].
    + injection Hin as <- <-. lia.
  - apply (f_equal (fun y => aget "G" (db (snd (fst y))))) in E. cbn [fst snd] in E. rewrite Er in E. vm_compute in E. discriminate.
Qed.
Print Assumptions C30_in_range_refuted.

(** it is, at each end where one label was asked for or only labels of the port *)
Theorem C30_in_range_partial : forall g h q e s cid s' e' r p d, wf_ports g -> wf_olabel (s_label (rs_src q)) -> wf_olabel (s_label (rs_dst q)) ->
  run (reserve g h q) e s = (Ok cid, s', e') -> aget cid (db s') = Some r ->
  aget (c_sport r) (nrm_ports g) = Some p -> aget (c_dport r) (nrm_ports g) = Some d ->
  (within p (s_label (rs_src q)) -> offered p (c_slabel r)) /\ (within d (s_label (rs_dst q)) -> offered d (c_dlabel r)).
Proof. exact reserve_in_range. Qed.
Print Assumptions C30_in_range_partial.
Example C30_ex : let '(x, s', _) := run (reserve (ex_cfg false true) ex_hdr (ex_req "A" 105 107 None (Some (sec 100)))) [] (start 0) in
  x = Ok "A"%string /\ option_map c_slabel (aget "A" (db s')) = Some (ex_label 105 105).
Proof. vm_compute. split; reflexivity. Qed.

(** ** C31, C32 *)
Theorem C31_calendar_exact_partial : forall g t l, legal g (start t) l ->
  Permutation (cal (serial_run g (start t) l)) (bookings g (db (serial_run g (start t) l))).
Proof. exact calendar_exact. Qed.
Print Assumptions C31_calendar_exact_partial.
Theorem C32_no_double_booking_partial : forall g t l, legal g (start t) l -> forall k1 k2 r1 r2 res x, k1 <> k2 ->
  aget k1 (db (serial_run g (start t) l)) = Some r1 -> aget k2 (db (serial_run g (start t) l)) = Some r2 ->
  live r1 -> live r2 -> uses g r1 res -> uses g r2 res -> occupies r1 x -> occupies r2 x -> False.
Proof. exact no_double_booking. Qed.
Print Assumptions C32_no_double_booking_partial.

(** two reservations, one expires, the other is committed and provisioned, its
    device fails to take it down, the backend restarts *)
Definition ex_hist : list (op * env) :=
  oks [Reserve ex_hdr (ex_req "A" 105 105 None (Some (sec 200))); Reserve ex_hdr (ex_req "B" 106 106 (Some (sec 10)) (Some (sec 500)));
       Commit ex_hdr "A"; Provision ex_hdr "A"; Tick (sec 121); Fire 1] ++
  [(Release ex_hdr "A", [(None, 1); (None, 1); (None, 1); (None, 1); (Some EConnectionCreate, 1)])] ++ oks [Restart; Reserve ex_hdr (ex_req "C" 106 106 None (Some (sec 300)))].
Example ex_hist_legal : legal (ex_cfg false false) (start 0) ex_hist.
Proof.
  cbn [legal ex_hist oks map app]. repeat match goal with |- _ /\ _ => split | |- True => exact I end; try exact I.
  all: try (split; [intros; vm_compute; reflexivity|split; [discriminate|]]; try (vm_compute; split; congruence); vm_compute; congruence).
  intros k r. 
  match goal with |- aget k (db ?s) = _ -> _ => let y := eval vm_compute in (map (fun kr => (fst kr, c_end (snd kr))) (db s)) in
    assert (Hd : map (fun kr => (fst kr, c_end (snd kr))) (db s) = y) by (vm_compute; reflexivity); generalize dependent s end.
  intros s Hd Hk _ _ Hn. apply aget_In in Hk. apply (in_map (fun kr : string * row => (fst kr, c_end (snd kr)))) in Hk. rewrite Hd in Hk. cbn [fst snd] in Hk. rewrite Hn in Hk.
  cbn in Hk. repeat destruct Hk as [Hk|Hk]; try discriminate; destruct Hk.
Qed.
Example C31_ex : let s := serial_run (ex_cfg false false) (start 0) ex_hist in
  map (fun kr => (fst kr, c_states (snd kr), liveb (snd kr))) (db s) =
    [("A"%string, mkStates RStart PReleased LCreated, true); ("B"%string, mkStates RStart PReleased LCreated, false); ("C"%string, mkStates RHeld PReleased LCreated, true)] /\
  cal s = [mk_entry "ps:105" None (Some (sec 200)); mk_entry "bon:105" None (Some (sec 200)); mk_entry "ps:106" None (Some (sec 300)); mk_entry "bon:106" None (Some (sec 300))].
Proof. vm_compute. split; reflexivity. Qed.

(** both are false if restarts are unrestricted: a committed connection with a
    start ahead and no end makes the restart fail, the connections after it are
    not restored, and their resources are given away. *)
Definition ex_bad : list (op * env) :=
  oks [Reserve ex_hdr (ex_req "A" 105 105 (Some (sec 1000)) None); Commit ex_hdr "A";
       Reserve ex_hdr (ex_req "B" 106 106 None (Some (sec 500))); Commit ex_hdr "B"; Restart; Reserve ex_hdr (ex_req "C" 106 106 None (Some (sec 300)))].
(** all reservation requests are legal *)
Fixpoint legal_but_restart (g : cfg) (s : st) (l : list (op * env)) : Prop :=
  match l with [] => True | oe :: r => (fst oe <> Restart -> legal_step s oe) /\ legal_but_restart g (snd (serial_step g s oe)) r end.
Lemma ex_bad_legal : legal_but_restart (ex_cfg false false) (start 0) ex_bad.
Proof.
  cbn [legal_but_restart ex_bad oks map]. repeat match goal with |- _ /\ _ => split | |- True => exact I | |- _ -> _ => intros ? end; try exact I; try (exfalso; cbn in *; congruence).
  all: try (split; [intros; vm_compute; reflexivity|split; [discriminate|]]; try (vm_compute; split; congruence); vm_compute; congruence).
Qed.
Theorem C31_calendar_exact_refuted : ~ (forall g t l, legal_but_restart g (start t) l ->
  Permutation (cal (serial_run g (start t) l)) (bookings g (db (serial_run g (start t) l)))).
Proof.
  intros H. specialize (H _ _ _ ex_bad_legal). apply Permutation_length in H. vm_compute in H. discriminate.
Qed.
Print Assumptions C31_calendar_exact_refuted.
Theorem C32_no_double_booking_refuted : ~ (forall g t l, legal_but_restart g (start t) l -> forall k1 k2 r1 r2 res x, k1 <> k2 ->
  aget k1 (db (serial_run g (start t) l)) = Some r1 -> aget k2 (db (serial_run g (start t) l)) = Some r2 ->
  live r1 -> live r2 -> uses g r1 res -> uses g r2 res -> occupies r1 x -> occupies r2 x -> False).
Proof.
  intros H. specialize (H _ _ _ ex_bad_legal "B"%string "C"%string).
  destruct (aget "B" (db (serial_run (ex_cfg false false) (start 0) ex_bad))) as [r1|] eqn:E1; [|vm_compute in E1; discriminate].
  destruct (aget "C" (db (serial_run (ex_cfg false false) (start 0) ex_bad))) as [r2|] eqn:E2; [|vm_compute in E2; discriminate].
  vm_compute in E1, E2. injection E1 as <-. injection E2 as <-.
  refine (H _ _ "ps:106"%string (sec 100) _ eq_refl eq_refl _ _ _ _ _ _); try (vm_compute; congruence).
  - split; [right; reflexivity|reflexivity].
  - split; [left; reflexivity|reflexivity].
  - left. vm_compute. reflexivity.
  - left. vm_compute. reflexivity.
  - unfold occupies, covers. cbn. vm_compute. split; discriminate.
  - unfold occupies, covers. cbn. vm_compute. split; discriminate.
Qed.
Print Assumptions C32_no_double_booking_refuted.

(** ** C33 *)
Section C33.
Variables (g : cfg) (t : Z) (l : list (op * env)).
Hypothesis L : legal g (start t) l.
Let s := serial_run g (start t) l.

(** a held reservation has its expiry pending: within two minutes, and no later
    than its end (or its end has passed already) *)
Theorem C33_held_timer : forall cid r, aget cid (db s) = Some r -> c_r r = RHeld -> c_l r = LCreated ->
  (exists o due, pend s cid = Some (TTimeout o, due) /\ due <= now s + 120 * 1000000 /\ forall e, c_end r = Some e -> due <= Z.max e (now s)) \/
  exists e, c_end r = Some e /\ e < now s.
Proof. exact (held_timer g t l L). Qed.

(** when it fires, the reservation is rolled back and its resources are freed;
    the requester is told unless the expiry cancels itself *)
Theorem C33_expiry_partial : forall cid id o due r e, aget cid (db s) = Some r -> aget cid (s_dict (sch s)) = Some id ->
  pend s cid = Some (TTimeout o, due) -> due <= now s ->
  let s' := snd (serial_step g s (Fire id, e)) in
  c_r r = RHeld /\ exists r', aget cid (db s') = Some r' /\ c_r r' = RStart /\ c_alloc r' = false /\
  Permutation (cal s') (bookings g (db s')) /\ (forall k, k <> cid -> aget k (db s') = aget k (db s)) /\
  (self_cancel g = false -> In (OReserveTimeout cid) (outs s')).
Proof. exact (expiry_fires g t l L). Qed.

(** no reservation is both committed and expired *)
Theorem C33_commit_or_expiry : forall cid, ~ (In (OCommitConfirmed cid) (outs s) /\ In (OReserveTimeout cid) (outs s)).
Proof. exact (expiry_or_commit g t l L). Qed.

(** a commit is refused, without effect, after the expiry *)
Theorem C33_commit_after_expiry : forall cid h e, In (OReserveTimeout cid) (outs s) ->
  (exists x, fst (serial_step g s (Commit h cid, e)) = Err x) /\ forall k, aget k (db (snd (serial_step g s (Commit h cid, e)))) = aget k (db s).
Proof. exact (commit_after_expiry g t l L). Qed.

(** and at any time after an abort of a held reservation *)
Theorem C33_commit_after_abort : forall cid h e h' e' r c l', aget cid (db s) = Some r -> c_r r = RHeld ->
  fst (serial_step g s (Abort h cid, e)) = Ok c ->
  let s1 := snd (serial_step g s (Abort h cid, e)) in legal g s1 l' ->
  let s2 := serial_run g s1 l' in
  (exists x, fst (serial_step g s2 (Commit h' cid, e')) = Err x) /\ forall k, aget k (db (snd (serial_step g s2 (Commit h' cid, e')))) = aget k (db s2).
Proof. exact (commit_after_abort g t l L). Qed.
End C33.
Print Assumptions C33_held_timer.
Print Assumptions C33_expiry_partial.
Print Assumptions C33_commit_or_expiry.
Print Assumptions C33_commit_after_expiry.
Print Assumptions C33_commit_after_abort.

Example C33_ex : let g := ex_cfg false false in
  let s := serial_run g (start 0) (oks [Reserve ex_hdr (ex_req "A" 105 105 None (Some (sec 200)))]) in
  pend s "A" = Some (TTimeout 0, sec 120) /\
  let s1 := serial_run g s (oks [Tick (sec 120); Fire 0]) in
  outs s1 = [OReserveConfirmed "A" "corr"; OReserveTimeout "A"] /\ cal s1 = [] /\ fst (serial_step g s1 (Commit ex_hdr "A", [])) = Err EInternalServer.
Proof. vm_compute. repeat split. Qed.

(** The requester is not told if cancelling the running call makes it fail. *)
Theorem C33_told_refuted : ~ (forall g t l, legal g (start t) l -> let s := serial_run g (start t) l in
  forall cid id o due r e, aget cid (db s) = Some r -> aget cid (s_dict (sch s)) = Some id ->
  pend s cid = Some (TTimeout o, due) -> due <= now s -> In (OReserveTimeout cid) (outs (snd (serial_step g s (Fire id, e))))).
Proof.
  intros H. pose (g := ex_cfg true false). pose (l := oks [Reserve ex_hdr (ex_req "A" 105 105 None (Some (sec 200))); Tick (sec 120)]).
  assert (L : legal g (start 0) l).
  { cbn [legal l oks map]. split; [|split; exact I]. split; [intros; vm_compute; reflexivity|split; [discriminate|vm_compute; congruence]]. }
  specialize (H g 0 l L "A"%string 0%nat 0%nat (sec 120)).
  destruct (aget "A" (db (serial_run g (start 0) l))) as [r|] eqn:E; [|vm_compute in E; discriminate].
  specialize (H r [] eq_refl). assert (Hi : In (OReserveTimeout "A") (outs (snd (serial_step g (serial_run g (start 0) l) (Fire 0, []))))).
  { apply H; [vm_compute; reflexivity|vm_compute; reflexivity|vm_compute; discriminate]. }
  vm_compute in Hi. destruct Hi as [Hi|[]]. discriminate.
Qed.
Print Assumptions C33_told_refuted.

(** Nor is a commit refused once the end of a held reservation has passed: after
    a restart has ended it, it still counts as held, and the commit succeeds. *)
Theorem C33_commit_refused_refuted : ~ (forall g t l, legal g (start t) l -> let s := serial_run g (start t) l in
  forall cid h e r, aget cid (db s) = Some r -> c_l r = LPassedEnd -> exists x, fst (serial_step g s (Commit h cid, e)) = Err x).
Proof.
  intros H. pose (g := ex_cfg false false). pose (l := oks [Reserve ex_hdr (ex_req "A" 105 105 None (Some (sec 100))); Tick (sec 100 + 500000); Restart; Tick 0]).
  assert (L : legal g (start 0) l).
  { cbn [legal l oks map]. split; [split; [intros; vm_compute; reflexivity|split; [discriminate|vm_compute; congruence]]|]. split; [exact I|]. split; [|split; exact I].
    intros k r Hk _ _ Hn. apply aget_In in Hk. apply (in_map (fun kr : string * row => c_end (snd kr))) in Hk. cbn [snd] in Hk. rewrite Hn in Hk.
    vm_compute in Hk. destruct Hk as [Hk|[]]. discriminate. }
  destruct (aget "A" (db (serial_run g (start 0) l))) as [r|] eqn:E; [|vm_compute in E; discriminate].
  assert (Hl : c_l r = LPassedEnd) by (vm_compute in E; injection E as <-; reflexivity).
  destruct (H g 0 l L "A"%string ex_hdr [] r E Hl) as [x Hx]. vm_compute in Hx. discriminate.
Qed.
Print Assumptions C33_commit_refused_refuted.

(** ** C35 *)
Section C35.
Variables (g : cfg) (t : Z) (l : list (op * env)).
Hypothesis L : legal g (start t) l.
Let s := serial_run g (start t) l.
(** the stored data-plane flag says whether the link is up (set up, and not told
    down since) *)
Theorem C35_flag_is_link : forall cid, link_up cid (outs s) = match aget cid (db s) with Some r => c_active r | None => false end.
Proof. exact (link_active g t l L). Qed.
(** a connection that has ended, was terminated or is released is inactive *)
Theorem C35_ended_inactive : forall cid r, aget cid (db s) = Some r -> c_l r <> LCreated \/ c_p r = PReleased ->
  c_active r = false /\ link_up cid (outs s) = false.
Proof.
  intros cid r Hr H. pose proof (ended_inactive g t l L cid r Hr H) as Ha. split; [exact Ha|]. rewrite (link_active g t l L). fold s. rewrite Hr. exact Ha.
Qed.
(** so if a step ends, releases or terminates a connection whose link is up, the
    device is told to take it down in that step *)
Theorem C35_torn_down : forall cid r r' oe, legal_step s oe -> let s' := snd (serial_step g s oe) in
  aget cid (db s) = Some r -> c_active r = true -> aget cid (db s') = Some r' -> c_l r' <> LCreated \/ c_p r' = PReleased ->
  c_active r' = false /\ exists pre src dst post, outs s' = outs s ++ pre ++ OTeardown cid src dst :: post.
Proof.
  intros cid r r' oe Lo s' Hr Ha Hr' He.
  assert (E : s' = serial_run g (start t) (l ++ [oe])) by (unfold s', s, serial_run; rewrite fold_left_app; reflexivity).
  assert (L' : legal g (start t) (l ++ [oe])).
  { clear E Hr Hr' He. subst s'. unfold s in *. revert L Lo. clear. generalize (start t). induction l as [|x l' IH]; intros s0 L Lo; cbn [legal app] in *; [auto|].
    destruct L as [L1 L2]. split; [exact L1|]. apply IH; assumption. }
  rewrite E in Hr'. pose proof (ended_inactive g t _ L' cid r' Hr' He) as Hi. split; [exact Hi|].
  apply link_down; [apply step_ext| |].
  - rewrite (link_active g t l L). fold s. rewrite Hr. exact Ha.
  - rewrite E, (link_active g t _ L'), Hr'. exact Hi.
Qed.
(** no link is up before the start of its connection *)
Theorem C35_not_before_start : forall cid, link_up cid (outs s) = true ->
  exists r, aget cid (db s) = Some r /\ forall b, c_start r = Some b -> b <= now s.
Proof.
  intros cid. rewrite (link_active g t l L). fold s. destruct (aget cid (db s)) as [r|] eqn:Er; [|discriminate]. intros Ha.
  exists r. split; [reflexivity|]. intros b. exact (active_begun g t l L cid r b Er Ha).
Qed.
(** and the end is not missed: unless the backend was restarted at the very
    moment at which the link was to come up, a connection with a link up and an
    end has that end pending *)
Theorem C35_end_timer_partial : forall cid r e, calm_restarts g (start t) l -> aget cid (db s) = Some r -> c_active r = true -> c_end r = Some e ->
  exists o due, pend s cid = Some (TEndtime o, due) /\ due <= Z.max e (now s).
Proof. exact (active_timer g t l L). Qed.
End C35.
Print Assumptions C35_flag_is_link.
Print Assumptions C35_ended_inactive.
Print Assumptions C35_torn_down.
Print Assumptions C35_not_before_start.
Print Assumptions C35_end_timer_partial.

Example C35_ex : let g := ex_cfg false false in
  let s := serial_run g (start 0) (oks [Reserve ex_hdr (ex_req "A" 105 105 None (Some (sec 200))); Commit ex_hdr "A"; Provision ex_hdr "A"]) in
  link_up "A" (outs s) = true /\ (exists o, pend s "A" = Some (TEndtime o, sec 200)) /\
  let s1 := serial_run g s (oks [Tick (sec 200); Fire 2]) in
  link_up "A" (outs s1) = false /\ map (fun kr => (c_active (snd kr), c_l (snd kr))) (db s1) = [(false, LPassedEnd)] /\
  skipn (length (outs s)) (outs s1) = [OTeardown "A" "ps#105" "bon#105"; OTeardownDone "A" true; ODataPlane "A" false].
Proof. vm_compute. repeat split. eexists. reflexivity. Qed.

(** A restart at that very moment leaves a link up of which nothing is to end:
    its end passes and it stays up. *)
Definition ex_at_start : list (op * env) :=
  oks [Reserve ex_hdr (ex_req "A" 105 105 (Some (sec 100)) (Some (sec 500))); Commit ex_hdr "A"; Provision ex_hdr "A"; Tick (sec 100); Fire 2; Restart].
Theorem C35_end_timer_refuted : ~ (forall g t l, legal g (start t) l -> let s := serial_run g (start t) l in
  forall cid r e, aget cid (db s) = Some r -> c_active r = true -> c_end r = Some e -> exists x, pend s cid = Some x).
Proof.
  intros H. pose (g := ex_cfg false false).
  assert (L : legal g (start 0) ex_at_start).
  { cbn [legal ex_at_start oks map]. split.
    { split; [intros; vm_compute; reflexivity|split; [discriminate|vm_compute; congruence]]. }
    do 4 (split; [exact I|]). split; [|exact I]. match goal with |- legal_step ?x _ => change (restartable x);
      assert (E0 : map (fun kr : string * row => c_end (snd kr)) (db x) = [Some (sec 500)]) by (vm_compute; reflexivity); revert E0; generalize x end.
    intros s E0 k r Hk _ _ Hn. apply aget_In in Hk. apply (in_map (fun kr : string * row => c_end (snd kr))) in Hk. cbn [snd] in Hk.
    rewrite Hn, E0 in Hk. destruct Hk as [Hk|[]]. discriminate. }
  assert (E1 : option_map (fun r => (c_active r, c_end r)) (aget "A" (db (serial_run g (start 0) ex_at_start))) = Some (true, Some (sec 500))) by (vm_compute; reflexivity).
  assert (E2 : pend (serial_run g (start 0) ex_at_start) "A" = None) by (vm_compute; reflexivity).
  specialize (H g 0 ex_at_start L "A"%string). revert H E1 E2. generalize (serial_run g (start 0) ex_at_start). intros s H E1 E2.
  destruct (aget "A" (db s)) as [r|]; [|discriminate]. injection E1 as E3 E4. destruct (H r (sec 500) eq_refl E3 E4) as [x Hx]. congruence.
Qed.
Print Assumptions C35_end_timer_refuted.
Example C35_ex_at_start : let s := serial_run (ex_cfg false false) (start 0) (ex_at_start ++ oks [Tick (sec 1000)]) in
  link_up "A" (outs s) = true /\ s_queue (sch s) = [] /\ map (fun kr => (c_active (snd kr), c_l (snd kr), c_end (snd kr))) (db s) = [(true, LCreated, Some (sec 500))] /\
  now s = sec 1100.
Proof. vm_compute. repeat split. Qed.
(** while restarted a second later it has its end *)
Example C35_ex_later : let l := firstn 5 ex_at_start ++ oks [Tick (sec 1); Restart] in let s := serial_run (ex_cfg false false) (start 0) l in
  calm_restarts (ex_cfg false false) (start 0) l /\ link_up "A" (outs s) = true /\ exists o, pend s "A" = Some (TEndtime o, sec 500).
Proof.
  cbv zeta. split; [|split; [vm_compute; reflexivity|vm_compute; eexists; reflexivity]].
  cbn [calm_restarts ex_at_start oks map firstn app]. do 6 (split; [let Hx := fresh in intros Hx; exfalso; discriminate Hx|]). split; [|exact I]. intros _. match goal with |- off_start ?x =>
    assert (E0 : map (fun kr : string * row => c_start (snd kr)) (db x) = [Some (sec 100)]) by (vm_compute; reflexivity);
    assert (E1 : now x = sec 101) by (vm_compute; reflexivity); revert E0 E1; generalize x end.
  intros s E0 E1 k r Hk _ Hs. apply aget_In in Hk. apply (in_map (fun kr : string * row => c_start (snd kr))) in Hk. cbn [snd] in Hk.
  rewrite Hs, E0, E1 in Hk. destruct Hk as [Hk|[]]. discriminate.
Qed.

(** ** C37 *)
(** restarting after a history, no open-ended connection with a start being live *)
Theorem C37_restart_partial : forall g t l e, legal g (start t) l -> let s := serial_run g (start t) l in restartable s ->
  let s' := snd (serial_step g s (Restart, e)) in
  fst (serial_step g s (Restart, e)) = Ok "" /\
  Permutation (cal s') (bookings g (db s')) /\
  (forall k, aget k (db s) = None -> aget k (db s') = None) /\
  forall k r, aget k (db s) = Some r -> exists t r', now s <= t <= now s' /\ aget k (db s') = Some r' /\ restored t (now s') r r' (pend s' k).
Proof.
  intros g t l e L s R s'. destruct (step_restart _ g e s (legal_inv g t l L) R) as [(I' & _ & _ & H1 & H2) H3].
  split; [exact H3|]. split; [apply (n_cal _ _ _ _ I')|]. split; [exact H1|].
  intros k r Hk. destruct (H2 k r Hk) as (t' & r' & Ht & Hr & _ & Z). exists t', r'. auto.
Qed.
Print Assumptions C37_restart_partial.
Example C37_ex : let g := ex_cfg false false in
  let s := serial_run g (start 0) (oks [Reserve ex_hdr (ex_req "A" 105 105 None (Some (sec 500))); Commit ex_hdr "A"; Provision ex_hdr "A";
     Reserve ex_hdr (ex_req "B" 106 106 None (Some (sec 500))); Reserve ex_hdr (ex_req "C" 107 107 None (Some (sec 100))); Commit ex_hdr "C"; Tick (sec 110); Restart]) in
  map (fun kr => (fst kr, c_states (snd kr), option_map snd (pend s (fst kr)))) (db s) =
   [("A"%string, mkStates RStart PProvisioned LCreated, Some (sec 500)); ("B"%string, mkStates RHeld PReleased LCreated, Some (sec 120));
    ("C"%string, mkStates RStart PReleased LPassedEnd, None)] /\ length (cal s) = 4%nat.
Proof. vm_compute. split; reflexivity. Qed.

(** It is false without the condition, and a connection whose start is the very
    moment of the restart gets no timer. *)
Theorem C37_restart_refuted :
  ~ (forall g t l e, legal_but_restart g (start t) l -> fst (serial_step g (serial_run g (start t) l) (Restart, e)) = Ok "") /\
  ~ (forall g t l e, legal g (start t) l -> let s := serial_run g (start t) l in restartable s ->
     let s' := snd (serial_step g s (Restart, e)) in
     forall k r, aget k (db s') = Some r -> live r -> c_p r = PProvisioned -> pend s' k <> None).
Proof.
  split.
  - intros H. specialize (H (ex_cfg false false) 0 (oks [Reserve ex_hdr (ex_req "A" 105 105 (Some (sec 1000)) None); Commit ex_hdr "A"]) []).
    assert (Hx : fst (serial_step (ex_cfg false false) (serial_run (ex_cfg false false) (start 0) (oks [Reserve ex_hdr (ex_req "A" 105 105 (Some (sec 1000)) None); Commit ex_hdr "A"])) (Restart, [])) = Err EType) by (vm_compute; reflexivity).
    enough (Hl : legal_but_restart (ex_cfg false false) (start 0) (oks [Reserve ex_hdr (ex_req "A" 105 105 (Some (sec 1000)) None); Commit ex_hdr "A"])) by exact (eq_ind (@Err string EType) (fun x => match x with Err _ => True | Ok _ => False end) I _ (eq_trans (eq_sym Hx) (H Hl))). clear H. cbn [legal_but_restart oks map].
    split; [|split; [intros _; exact I|exact I]]. intros _. split; [intros; vm_compute; reflexivity|split; [discriminate|vm_compute; congruence]].
  - intros H. pose (g := ex_cfg false false).
    pose (l := oks [Reserve ex_hdr (ex_req "A" 105 105 (Some (sec 100)) (Some (sec 500))); Commit ex_hdr "A"; Provision ex_hdr "A"; Tick (sec 100)]).
    assert (L : legal g (start 0) l).
    { cbn [legal l oks map]. split; [|repeat split]. split; [intros; vm_compute; reflexivity|split; [discriminate|vm_compute; congruence]]. }
    assert (R : restartable (serial_run g (start 0) l)).
    { intros k r Hk _ _ Hn. apply aget_In in Hk. apply (in_map (fun kr : string * row => c_end (snd kr))) in Hk. cbn [snd] in Hk. rewrite Hn in Hk.
      vm_compute in Hk. destruct Hk as [Hk|[]]. discriminate. }
    specialize (H g 0 l [] L R "A"%string).
    destruct (aget "A" (db (snd (serial_step g (serial_run g (start 0) l) (Restart, []))))) as [r|] eqn:E; [|vm_compute in E; discriminate].
    apply (H r eq_refl); vm_compute in E; injection E as <-; try reflexivity. split; [right; reflexivity|reflexivity].
Qed.
Print Assumptions C37_restart_refuted.
