(** How the changes of a row keep it well-formed. *)
From Coq Require Import Permutation.
From Verif Require Import Base ModelLabel ModelSTP ModelAuthz ModelNRM ModelCalendar ModelState ModelScheduler ModelBackend
  SpecCalendar SpecBackend ProofsCalendar ProofsScheduler ProofsBackendWp ProofsBackendFoc ProofsBackendOps ProofsBackendInv.
Open Scope Z_scope.

Ltac open_row r := destruct r as [?cid ?gid ?rq ?rt [?rr ?pp ?ll] ?act ?al ?sp ?sl ?dp ?dl ?st ?en ?bw].
Ltac row_cbn := unfold evolves, live, heldend, liveb, core, with_l, with_r, with_p, down, up_view, exp_view in *;
  unfold c_r, c_p, c_l, set_states, set_active, set_alloc in *;
  cbn [c_id c_gid c_requester c_rtime c_states c_active c_alloc c_sport c_slabel c_dport c_dlabel c_start c_end c_bw st_r st_p st_l v_up v_com v_exp v_hist] in *.
Ltac rk := row_cbn; constructor; row_cbn; intros; subst; auto; try (intuition (subst; try congruence; eauto); fail);
  repeat match goal with b : bool |- _ => destruct b end; try (intuition (subst; try congruence; eauto); fail).

Lemma ok_commit t v r : row_ok t v r -> c_r r = RHeld -> row_ok t v (with_r RStart (set_alloc true r)).
Proof. intros K Hr. open_row r. destruct K. rk. Qed.
Lemma ok_com t v r : row_ok t v r -> c_alloc r = true -> row_ok t (mkView (v_up v) true (v_exp v) (v_hist v)) r.
Proof. intros K Hr. open_row r. destruct K. rk. Qed.
Lemma ok_rolled t v r l : row_ok t v r -> c_r r = RHeld -> l = LCreated \/ (l = LPassedEnd /\ exists e, c_end r = Some e /\ e <= t) ->
  row_ok t v (set_states (mkStates RStart (c_p r) l) r).
Proof. intros K Hr Hl. open_row r. destruct K. rk. Qed.
Lemma ok_exp t v r : row_ok t v r -> c_alloc r = false -> c_r r <> RHeld -> row_ok t (exp_view v) r.
Proof. intros K Hr. open_row r. destruct K. rk. Qed.
Lemma ok_aborting t v r : row_ok t v r -> c_r r = RHeld -> c_l r = LPassedEnd -> row_ok t v (with_r RAborting r).
Proof. intros K Hr Hl. open_row r. destruct K. rk. Qed.
Lemma ok_prov t v r : row_ok t v r -> c_alloc r = true -> c_active r = false -> forall p, row_ok t v (with_p p r).
Proof. intros K Hr Ha p. open_row r. destruct K. rk. Qed.
Lemma ok_up t v r : row_ok t v r -> c_alloc r = true -> c_p r = PProvisioned -> c_l r = LCreated -> c_active r = false ->
  (forall b, c_start r = Some b -> b <= t) -> row_ok t (up_view v) (set_active true r).
Proof. intros K Hr Ha Hl Hn Hb. open_row r. destruct K. rk. cbn [turns negb]. split; [reflexivity|congruence]. Qed.
Lemma ok_down t v r : row_ok t v r -> c_active r = true -> row_ok t (down v) (set_active false r).
Proof. intros K Ha. open_row r. destruct K. rk. cbn [turns negb]. split; [reflexivity|congruence]. Qed.
Lemma ok_over t v r l : row_ok t v r -> c_active r = false -> l = LTerminated \/ (l = LPassedEnd /\ exists e, c_end r = Some e /\ e <= t) ->
  row_ok t v (with_l l r).
Proof. intros K Ha Hl. open_row r. destruct K. rk. Qed.
Lemma ok_rel t v r : row_ok t v r -> c_active r = false -> row_ok t v (with_p PReleased r).
Proof. intros K Ha. open_row r. destruct K. rk. Qed.
