(** Properties C06-C08: the reservation calendar. *)
From Coq Require Import Permutation.
From Verif Require Import Base ModelCalendar SpecCalendar ProofsCalendar ModelTime SpecTime.
Open Scope Z_scope.

(** C06, for spans that run forward at the time of the check. *)
Theorem C06_check : forall now c r s e,
  forward forever now s e ->
  (forall cs ce, In (r, (cs, ce)) c -> forward forever now cs ce) ->
  let busy := exists cs ce, In (r, (cs, ce)) c /\ share_instant forever now cs ce s e in
  (cal_check now c r s e = Ok tt <-> legal_span year2095 now s e /\ ~ busy) /\
  (cal_check now c r s e = Err ESTPUnavailable <-> legal_span year2095 now s e /\ busy) /\
  (cal_check now c r s e = Err EPayload <-> ~ legal_span year2095 now s e) /\
  (cal_check now c r s e = Ok tt \/ cal_check now c r s e = Err ESTPUnavailable \/ cal_check now c r s e = Err EPayload).
Proof. exact cal_check_spec. Qed.
Print Assumptions C06_check.

(** The dates: reservations start by the start of 2095, and one without end ends
    with the start of 9999; microseconds since 1970. *)
Definition new_year (y : Z) : dt := mkDt y 1 1 0 0 0 0.
Theorem C06_dates : year2095 = instant (new_year 2095) - instant (new_year 1970) /\ forever = instant (new_year 9999) - instant (new_year 1970).
Proof. split; vm_compute; reflexivity. Qed.
Print Assumptions C06_dates.

Example C06_ex : let c := [mk_entry "p:1" (Some 100) (Some 200); mk_entry "p:1" None (Some 50)] in
  forward forever 40 (Some 201) None /\ cal_check 40 c "p:1" (Some 201) None = Ok tt /\
  cal_check 40 c "p:1" (Some 200) None = Err ESTPUnavailable /\ cal_check 40 c "p:2" (Some 20) None = Err EPayload.
Proof. cbn zeta. unfold forward, forever. repeat split; try reflexivity. Qed.

(** C06 is false for spans that do not run forward: the same request, legal by
    the rules, ends in an assertion failure if the resource has an entry and is
    accepted if not; and an entry without start whose end has passed makes every
    check of its resource end in an assertion failure. *)
Theorem C06_check_refuted :
  (exists now c r s e, legal_span year2095 now s e /\ cal_check now c r s e = Err EAssertion /\
     (forall cs ce, In (r, (cs, ce)) c -> forward forever now cs ce)) /\
  (exists now c r s e, legal_span year2095 now s e /\ forward forever now s e /\ cal_check now c r s e = Err EAssertion).
Proof.
  split.
  - exists 10, [mk_entry "r" (Some 20) (Some 30)], "r"%string, (Some 50), (Some 50).
    split; [split; [intros a b [= <-] [= <-]; lia|intros a [= <-]; unfold year2095; lia]|].
    split; [reflexivity|]. intros cs ce [E|[]]. injection E as <- <-. unfold forward. lia.
  - exists 10, [mk_entry "r" None (Some 5)], "r"%string, (Some 50), (Some 60).
    split; [split; [intros a b [= <-] [= <-]; lia|intros a [= <-]; unfold year2095; lia]|].
    split; [unfold forward; lia|reflexivity].
Qed.
Print Assumptions C06_check_refuted.

(** C07: the stored entries can be tagged with their booking times so that no two
    of the same resource cover a common instant. *)
Theorem C07_no_double_booking : forall now0 ops,
  exists gs : list (Z * entry),
    map snd gs = c_entries (cal_run (mkCal now0 []) ops) /\
    (forall bt en, In (bt, en) gs -> now0 <= bt <= c_now (cal_run (mkCal now0 []) ops)) /\
    pairwise (fun x y => let '(bx, (rx, (sx, ex))) := x in let '(by_, (ry, (sy, ey))) := y in
       rx = ry -> ~ exists t, covers forever bx sx ex t /\ covers forever by_ sy ey t) gs.
Proof. exact no_double_booking. Qed.
Print Assumptions C07_no_double_booking.

Example C07_ex :
  c_entries (cal_run (mkCal 0 []) [CBook "r" None (Some 10); CTick 5; CBook "r" (Some 8) (Some 12);
    CBook "r" (Some 11) (Some 12); CRemove "r" None (Some 10); CBook "r" None (Some 9)])
  = [mk_entry "r" (Some 11) (Some 12); mk_entry "r" None (Some 9)].
Proof. reflexivity. Qed.

(** C08 *)
Theorem C08_remove : forall c r s e,
  (In (mk_entry r s e) c /\ exists a b, c = a ++ mk_entry r s e :: b /\ cal_remove c r s e = Ok (a ++ b) /\ ~ In (mk_entry r s e) a) \/
  (~ In (mk_entry r s e) c /\ cal_remove c r s e = Err EValue).
Proof. exact cal_remove_spec. Qed.
Print Assumptions C08_remove.

Theorem C08_add_remove : forall c r s e,
  exists c', cal_remove (cal_add c r s e) r s e = Ok c' /\ Permutation c c' /\
  forall now r' s' e', cal_check now c' r' s' e' = Ok tt <-> cal_check now c r' s' e' = Ok tt.
Proof. exact add_remove. Qed.
Print Assumptions C08_add_remove.

Example C08_ex : cal_remove [mk_entry "a" None None; mk_entry "b" (Some 1) None; mk_entry "a" None None] "a" None None
  = Ok [mk_entry "b" (Some 1) None; mk_entry "a" None None].
Proof. reflexivity. Qed.
