(** Proofs about conditional GET. *)
From Verif Require Import Base ModelHttpRes SpecHttpRes.
Open Scope Z_scope.

Lemma run_last start us u : run start (us ++ [u]) = updateResource (u_now u) (Some (u_rep u)) (u_given u).
Proof. unfold run. rewrite fold_left_app. reflexivity. Qed.
Lemma current_last us u : current (us ++ [u]) = Some (u_rep u).
Proof. unfold current. rewrite rev_app_distr. reflexivity. Qed.
Lemma last_case {A} (l : list A) : l = [] \/ exists x y, l = x ++ [y].
Proof. destruct l as [|a l]; [left; reflexivity|]. right. destruct (exists_last (l := a :: l) ltac:(discriminate)) as (x & y & E). eauto. Qed.

Theorem not_yet start h : render_GET (run start []) h = RError500.
Proof. reflexivity. Qed.
Theorem answer_cases start us h : us <> [] ->
  render_GET (run start us) h = RNotModified \/
  exists rep lm, render_GET (run start us) h = RContent rep lm /\ current us = Some rep.
Proof.
  intros N. destruct (last_case us) as [->|(x & u & ->)]; [congruence|].
  rewrite run_last, current_last. unfold render_GET, updateResource. cbn [r_rep r_time r_stamp].
  destruct h as [[s|]|]; [|right; eauto|right; eauto].
  match goal with |- context [if ?b then _ else _] => destruct b end; [left; reflexivity|right; eauto].
Qed.
Theorem no_header start us rep : current us = Some rep -> exists lm, render_GET (run start us) None = RContent rep lm /\
  exists u pre, us = pre ++ [u] /\ lm = u_second u.
Proof.
  destruct (last_case us) as [->|(x & u & ->)]; [discriminate|]. rewrite current_last, run_last. intros E. inversion E; subst rep.
  eexists. split; [reflexivity|]. exists u, x. split; [reflexivity|].
  unfold u_second, updateResource, second. cbn [r_stamp]. destruct (u_given u); [reflexivity|].
  apply Z.div_mul. lia.
Qed.
(** After a later update in a later second, the client's stamp never hides it. *)
Theorem later_second start us more h rep lm : 
  render_GET (run start us) h = RContent rep lm ->
  (forall u, In u more -> lm < u_second u) ->
  render_GET (run start (us ++ more)) (Some (HSeconds lm)) = RNotModified -> more = [].
Proof.
  intros _ L. destruct (last_case more) as [->|(x & u & ->)]; [reflexivity|]. intros H. exfalso.
  rewrite app_assoc, run_last in H. unfold render_GET, updateResource in H. cbn [r_rep r_time r_stamp] in H.
  specialize (L u ltac:(apply in_or_app; right; left; reflexivity)). unfold u_second in L.
  match type of H with (if ?b then _ else _) = _ => destruct b eqn:B; [|discriminate] end.
  apply Z.leb_le in B. unfold second in *. destruct (u_given u); Z.div_mod_to_equations; lia.
Qed.
(** ... and while there is none, a whole-second stamp saves the transfer *)
Theorem unchanged_304 start us h rep lm : (forall u, In u us -> u_given u = None) ->
  render_GET (run start us) h = RContent rep lm ->
  render_GET (run start us) (Some (HSeconds lm)) = RNotModified.
Proof.
  intros G. destruct (last_case us) as [->|(x & u & ->)]; [discriminate|].
  rewrite run_last. unfold render_GET, updateResource. cbn [r_rep r_time r_stamp].
  rewrite (G u) by (apply in_or_app; right; left; reflexivity). intros H.
  assert (lm = u_now u / second * second / second) as ->.
  { destruct h as [[s|]|]; [|congruence|congruence].
    match type of H with (if ?b then _ else _) = _ => destruct b; congruence end. }
  rewrite Z.div_mul by (unfold second; lia). rewrite Z.leb_refl. reflexivity.
Qed.
