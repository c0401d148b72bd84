(** C49: conditional GET. *)
From Verif Require Import Base ModelHttpRes SpecHttpRes ProofsHttpRes.
Open Scope Z_scope.

(** Before the first update a request gets an error. *)
Theorem C49_before_update : forall start h, render_GET (run start []) h = RError500.
Proof. exact not_yet. Qed.
Print Assumptions C49_before_update.

(** After it, an answer that is not 'not modified' is the current document. *)
Theorem C49_current_content : forall start us h, us <> [] ->
  render_GET (run start us) h = RNotModified \/
  exists rep lm, render_GET (run start us) h = RContent rep lm /\ current us = Some rep.
Proof. exact answer_cases. Qed.
Print Assumptions C49_current_content.
Example C49_current_content_ex :
  render_GET (run 0 [mkUpd 3500000 "a" None; mkUpd 9500000 "b" None]) (Some (HSeconds 3)) = RContent "b" 9.
Proof. vm_compute. reflexivity. Qed.

(** A client that sends no header (or one that cannot be read) always gets the
    current document, stamped with the second of its update. *)
Theorem C49_unconditional : forall start us rep, current us = Some rep ->
  exists lm, render_GET (run start us) None = RContent rep lm /\ exists u pre, us = pre ++ [u] /\ lm = u_second u.
Proof. exact no_header. Qed.
Print Assumptions C49_unconditional.

(** Missing from the full statement: updates in the same second as the one the
    client has seen (refuted below).  For updates in later seconds: the stamp
    received gives 'not modified' only if there was no update since. *)
Theorem C49_not_modified_partial : forall start us more h rep lm,
  render_GET (run start us) h = RContent rep lm ->
  (forall u, In u more -> lm < u_second u) ->
  render_GET (run start (us ++ more)) (Some (HSeconds lm)) = RNotModified -> more = [].
Proof. exact later_second. Qed.
Print Assumptions C49_not_modified_partial.
Example C49_not_modified_ex :
  render_GET (run 0 [mkUpd 3500000 "a" None]) None = RContent "a" 3 /\
  render_GET (run 0 ([mkUpd 3500000 "a" None] ++ [])) (Some (HSeconds 3)) = RNotModified /\
  render_GET (run 0 ([mkUpd 3500000 "a" None] ++ [mkUpd 4000000 "b" None])) (Some (HSeconds 3)) = RContent "b" 4.
Proof. repeat split; vm_compute; reflexivity. Qed.

(** And an unchanged document stamped by the clock is not sent again. *)
Theorem C49_unchanged : forall start us h rep lm, (forall u, In u us -> u_given u = None) ->
  render_GET (run start us) h = RContent rep lm ->
  render_GET (run start us) (Some (HSeconds lm)) = RNotModified.
Proof. exact unchanged_304. Qed.
Print Assumptions C49_unchanged.

(** The full statement fails even with a clock that never goes back: a second
    update in the same second is hidden from a client that has the first. *)
Theorem C49_not_modified_refuted :
  ~ (forall start us more h rep lm,
      (forall a u b v c, us ++ more = a ++ u :: b ++ v :: c -> u_now u < u_now v) ->
      (forall u, In u (us ++ more) -> u_given u = None) ->
      render_GET (run start us) h = RContent rep lm ->
      render_GET (run start (us ++ more)) (Some (HSeconds lm)) = RNotModified -> current (us ++ more) = Some rep).
Proof.
  intros H.
  specialize (H 0 [mkUpd 3500000 "a" None] [mkUpd 3700000 "b" None] None "a" 3).
  cbn [app] in H.
  enough (current [mkUpd 3500000 "a" None; mkUpd 3700000 "b" None] = Some "a") as X by discriminate X.
  apply H; [| |reflexivity|reflexivity].
  - intros a u b v c E. destruct a as [|a0 [|a1 a]]; cbn in E.
    + destruct b as [|b0 [|b1 b]]; cbn in E; inversion E; subst; cbn; try lia. 
    + inversion E. destruct b; discriminate.
    + inversion E. destruct a; discriminate.
  - intros u [<-|[<-|[]]]; reflexivity.
Qed.
Print Assumptions C49_not_modified_refuted.
