(** C97: a conversation with a VPLS router ends in time. *)
From Verif Require Import Base BaseProofs ModelPlugins SpecConfig ModelChannel SpecChannel ModelVpls SpecVpls ProofsVpls ProofsConfig.
Open Scope Z_scope.

(** The lines go out in order, whatever the router answers and however long that takes;
    a conversation that ends with success has sent them all. *)
Theorem C97_order : forall repaired bytes now cmds es, let c := vpls_run repaired bytes now cmds es in
  beginning (vp_sent c) (vpls_lines cmds) /\ (vp_end c = Success -> vp_sent c = vpls_lines cmds).
Proof. intros. apply vpls_order. Qed.
Print Assumptions C97_order.

(** Success is told only after the router has said that the commit is complete. *)
Theorem C97_committed : forall repaired bytes now cmds es, vp_end (vpls_run repaired bytes now cmds es) = Success -> mentions "commit complete" (vpls_heard es).
Proof. intros repaired bytes now cmds es. apply vpls_committed. Qed.
Print Assumptions C97_committed.

(** With a router that answers each line in time the conversation ends with success. *)
Theorem C97_in_time : forall repaired now cmds es, timely now (vpls_prompts cmds) es -> vp_end (vpls_run repaired false now cmds es) = Success.
Proof. intros repaired now cmds es. apply vpls_success. Qed.
Print Assumptions C97_in_time.

(** Once it has ended, nothing more is sent, and the outcome stays. *)
Theorem C97_final : forall repaired bytes now cmds es es', let c := vpls_run repaired bytes now cmds es in let c' := vpls_run repaired bytes now cmds (es ++ es') in
  vp_end c <> Going -> vp_sent c' = vp_sent c /\ vp_end c' = vp_end c.
Proof. intros. apply vpls_final. assumption. Qed.
Print Assumptions C97_final.

(** Were [waitTimeout] to fail the Deferred that waits, each conversation would end
    within the time for its lines, whatever the router does.
    Missing for the full claim: the code as written loses the Deferred. *)
Theorem C97_ends_partial : forall bytes now cmds es, let c := vpls_run true bytes now cmds es in now + vpls_limit cmds <= vp_now c -> vp_end c <> Going.
Proof. intros bytes now cmds es. apply vpls_ends. Qed.
Print Assumptions C97_ends_partial.

(** As written no conversation ever fails, *)
Theorem C97_never_refuted : forall bytes now cmds es, vp_end (vpls_run false bytes now cmds es) <> Failure.
Proof. intros. apply vpls_never. Qed.
Print Assumptions C97_never_refuted.

(** and one that has waited for twenty seconds waits for ever, whatever the router
    says afterwards. *)
Theorem C97_stuck_refuted : forall bytes now cmds es t es', let c := vpls_run false bytes now cmds es in let c' := vpls_run false bytes now cmds (es ++ VClock t :: es') in
  vp_end c = Going -> vp_now c + 20 <= t -> vp_sent c' = vp_sent c /\ vp_end c' = Going.
Proof. intros bytes now cmds es t es'. apply vpls_stuck. Qed.
Print Assumptions C97_stuck_refuted.

(** On Python 3, where what comes in is bytes, no conversation gets past its first line. *)
Theorem C97_bytes_refuted : forall repaired now cmds es, let c := vpls_run repaired true now cmds es in vp_sent c = ["configure private"] /\ vp_end c <> Success.
Proof.
  intros repaired now cmds es c.
  assert (S : vp_sent c = ["configure private"]).
  { unfold c. clear c. induction es as [|e es IH] using rev_ind; [reflexivity|]. unfold vpls_run. rewrite fold_left_app. cbn [fold_left]. fold (vpls_run repaired true now cmds es).
    destruct e as [d|t]; cbn [vpls_step].
    - unfold vpls_data. destruct (eqb d ""); exact IH.
    - unfold vpls_clock. destruct (vp_timer _); [destruct (_ <=? _)|]; exact IH. }
  split; [exact S|]. intros E. destruct (vpls_order repaired true now cmds es) as [_ O]. fold c in O. rewrite (O E) in S. destruct cmds; discriminate S.
Qed.
Print Assumptions C97_bytes_refuted.

(** One command: a router that answers, one that is too late with the commit, and one
    that falls silent. *)
Definition ex_vpls_cmds : list string := ["set routing-instances x1 instance-type vpls"].
Definition ex_vpls_good : list vevent :=
  [VClock 101; VData "[edit]
"; VClock 103; VData "[edit]
"; VClock 120; VData " commit complete
"].
Example C97_ex : forall repaired, let c := vpls_run repaired false 100 ex_vpls_cmds ex_vpls_good in
  vp_sent c = ["configure private"; "set routing-instances x1 instance-type vpls"; "commit"] /\ vp_end c = Success /\ vpls_limit ex_vpls_cmds = 26.
Proof. intros [|]; vm_compute; repeat split. Qed.
Example C97_ex_timely : timely 100 (vpls_prompts ex_vpls_cmds) ex_vpls_good.
Proof.
  unfold ex_vpls_good, ex_vpls_cmds, vpls_prompts. cbn [map app].
  apply (timely_answer 100 101 _ _ "[edit]" "[edit]"); [lia|reflexivity|apply strip_trims|exists "", ""; reflexivity|].
  apply (timely_answer 101 103 _ _ "[edit]" "[edit]"); [lia|reflexivity|apply strip_trims|exists "", ""; reflexivity|].
  apply (timely_answer 103 120 _ _ " commit complete" "commit complete"); [lia|reflexivity|apply strip_trims|exists "", ""; reflexivity|].
  constructor.
Qed.
Example C97_ex_late : let es := [VClock 101; VData "[edit]
"; VClock 103; VData "[edit]
"; VClock 123; VData "commit complete
"] in vp_end (vpls_run true false 100 ex_vpls_cmds es) = Failure /\ vp_end (vpls_run false false 100 ex_vpls_cmds es) = Going.
Proof. vm_compute. split; reflexivity. Qed.
Example C97_ex_silent : vp_end (vpls_run true false 100 ex_vpls_cmds [VClock 126]) = Failure /\ vp_end (vpls_run false false 100 ex_vpls_cmds [VClock 126; VData "[edit]
"]) = Going.
Proof. vm_compute. split; reflexivity. Qed.
