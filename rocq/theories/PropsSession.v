(** C87 and C88: sessions with a device. *)
From Verif Require Import Base BaseProofs ModelChannel SpecChannel ProofsChannel ProofsTalks ModelSession SpecSession ProofsSession ProofsSessionReq ProofsSessionEnd.
Open Scope Z_scope.

(** * C87 *)

(** Nothing leaves on a connection unless the device has shown a key with a
    configured fingerprint on it. *)
Theorem C87_key : forall sk lg bytes es k,
  (forall fp, In (HostKey k fp) es -> ~ In fp (lg_fingerprints lg)) -> sent_on k (ss_sent (session_run sk lg bytes es)) = [].
Proof.
  intros sk lg b es k H. destruct (sent_on k (ss_sent (session_run sk lg b es))) as [|x l] eqn:E; [reflexivity|].
  destruct (key_first sk lg b es k) as (fp & A & B); [right; rewrite E; discriminate|]. elim (H fp A B).
Qed.
Print Assumptions C87_key.

(** A wrong key, whenever it is shown, is the end of the connection. *)
Theorem C87_refused : forall sk lg bytes es es' k fp x,
  stage_of (session_run sk lg bytes es) k = Some x -> x <> Dialing -> ~ In fp (lg_fingerprints lg) ->
  let s := session_run sk lg bytes (es ++ HostKey k fp :: es') in
  stage_of s k = Some Gone /\ sent_on k (ss_sent s) = sent_on k (ss_sent (session_run sk lg bytes es)).
Proof.
  intros sk lg b es es' k fp x H Hd Hf s. destruct (refused_key sk lg b _ k fp x H Hd Hf) as [A B].
  destruct (gone_for_good sk lg b es' _ k A) as [C D]. unfold s. rewrite run_app. cbn [fold_left]. split; [exact C|]. rewrite D, B. reflexivity.
Qed.
Print Assumptions C87_refused.

(** Likewise for a connection that is lost. *)
Theorem C87_lost : forall sk lg bytes es es' k, stage_of (session_run sk lg bytes es) k = Some Gone ->
  let s := session_run sk lg bytes (es ++ es') in stage_of s k = Some Gone /\ sent_on k (ss_sent s) = sent_on k (ss_sent (session_run sk lg bytes es)).
Proof. intros sk lg b es es' k H s. unfold s. rewrite run_app. exact (gone_for_good sk lg b es' _ k H). Qed.
Print Assumptions C87_lost.

(** On a connection leave first the configured credentials, once, and then lines. *)
Theorem C87_credentials : forall sk lg bytes es k, let l := sent_on k (ss_sent (session_run sk lg bytes es)) in
  l = [] \/ exists c r, l = Offered k c :: r /\ configured lg c /\ forall x, In x r -> exists i line, x = Wrote k i line.
Proof.
  intros sk lg b es k l. destruct (shape_run sk lg b es k) as [H|(c & r & E & Hc & Hr)]; [left; exact H|right]. exists c, r. split; [exact E|]. split; [exact Hc|].
  intros x Hx. pose proof (Hr x Hx) as Hl. assert (K : on_wire x = k).
  { assert (In x l) as Hi by (unfold l; rewrite E; right; exact Hx). apply filter_In in Hi as [_ Hi]. apply PeanoNat.Nat.eqb_eq. exact Hi. }
  destruct x as [k' c'|k' i line]; [contradiction|]. cbn [on_wire] in K. subst k'. eauto.
Qed.
Print Assumptions C87_credentials.
(** The backends with keys show these and no password; the others their password. *)
Theorem C87_backends : forall fingerprint,
  (forall public private c, configured (key_login fingerprint public private) c -> c = Keys public private) /\
  (forall password public private lg c, force10_login fingerprint password public private = Some lg -> configured lg c -> Some c = option_map Password password).
Proof.
  intros fp. split.
  - intros pu pr c [p s P S _ _|w H W _]; [|discriminate]. injection P as <-. injection S as <-. reflexivity.
  - intros [w|] pu pr lg c H; [injection H as <-|discriminate]. intros [p s P S _ _|w' H W _]; [discriminate|]. injection W as <-. reflexivity.
Qed.
Print Assumptions C87_backends.

(** No line leaves before the login has succeeded. *)
Theorem C87_login : forall sk lg bytes es k i line, In (Wrote k i line) (ss_sent (session_run sk lg bytes es)) -> In (LoggedIn k) es.
Proof. intros sk lg b es k i line H. apply (login_first sk lg b es k). right. eauto. Qed.
Print Assumptions C87_login.

(** The lines written for a request are on one connection, and a beginning of its
    conversation. *)
Theorem C87_lines : forall sk lg bytes es i, let s := session_run sk lg bytes es in let w := written i (ss_sent s) in
  w = [] \/ exists ts k, In (Request i ts) es /\ (forall x, In x w -> fst x = k) /\ beginning (map snd w) (all_lines ts).
Proof. exact lines_run. Qed.
Print Assumptions C87_lines.

(** With a lock nobody writes in between the lines of another. *)
Theorem C87_locked : forall sk lg bytes es, sk_locks sk = true -> uninterrupted (writers (ss_sent (session_run sk lg bytes es))).
Proof. intros sk lg b es H. exact (l_turn _ (lock_run sk lg b es H)). Qed.
Print Assumptions C87_locked.
Theorem C87_junos : forall sk lg bytes es, sk = mx_sender \/ sk = jx_sender -> uninterrupted (writers (ss_sent (session_run sk lg bytes es))).
Proof. intros sk lg b es [-> | ->]; apply C87_locked; reflexivity. Qed.
Print Assumptions C87_junos.

(** * C88 *)

(** Success means that the whole conversation was written, on one connection. *)
Theorem C88_success : forall sk lg bytes es i ts cmds kind lines, let s := session_run sk lg bytes es in
  aget i (ss_reqs s) = Some (ts, Succeeded) -> talk_of cmds kind ts lines ->
  exists k, written i (ss_sent s) = map (pair k) lines.
Proof. exact success_run. Qed.
Print Assumptions C88_success.

(** A request that is refused where it can be has ended, with the reason. *)
Theorem C88_no_route : forall sk lg bytes es i k e, let s := session_run sk lg bytes es in
  progress_of s i = Some (WantsWire k) -> stage_of s k = Some Dialing ->
  progress_of (session_run sk lg bytes (es ++ [Refused k e])) i = Some (Failed e).
Proof. exact no_route. Qed.
Print Assumptions C88_no_route.
Theorem C88_no_credentials : forall sk lg bytes es i k fp, let s := session_run sk lg bytes es in
  progress_of s i = Some (WantsWire k) -> stage_of s k = Some Unproved -> In fp (lg_fingerprints lg) -> (forall c, ~ configured lg c) ->
  progress_of (session_run sk lg bytes (es ++ [HostKey k fp])) i = Some (Failed EAssertion).
Proof. exact no_credentials. Qed.
Print Assumptions C88_no_credentials.
Theorem C88_no_shell : forall sk lg bytes es i k, let s := session_run sk lg bytes es in let s' := session_run sk lg bytes (es ++ [Shell i false]) in
  progress_of s i = Some (WantsShell k) ->
  progress_of s' i = Some (Failed EConnection) /\ (sk_keeps sk = EachTime -> stage_of s' k = Some Gone).
Proof. exact no_shell. Qed.
Print Assumptions C88_no_shell.
(** What has ended stays so. *)
Theorem C88_ended : forall sk lg bytes es es' i p, progress_of (session_run sk lg bytes es) i = Some p -> ended p ->
  progress_of (session_run sk lg bytes (es ++ es')) i = Some p.
Proof. intros sk lg b es es' i p P E. rewrite run_app. apply ended_run; assumption. Qed.
Print Assumptions C88_ended.
(** The lock is handed on: whenever someone waits for it someone else has it, and
    when this one ends, one of those who wait has it. *)
Theorem C88_lock : forall sk lg bytes es j k, sk_locks sk = true -> let s := session_run sk lg bytes es in
  progress_of s j = Some (WantsLock k) -> exists i p, i <> j /\ progress_of s i = Some p /\ ((exists k, p = WantsShell k) \/ exists k c, p = Talking k c).
Proof. exact lock_waits. Qed.
Print Assumptions C88_lock.

(** A sender that makes a connection each time, or looks whether the one it has is
    still there, does not give a new request one that is gone. *)
Theorem C88_again : forall sk lg bytes es i ts, sk_keeps sk <> Kept false ->
  progress_of (session_run sk lg bytes es) i = None ->
  let s := session_run sk lg bytes (es ++ [Request i ts]) in
  exists k, progress_of s i = Some (WantsWire k) /\ stage_of s k = Some Dialing \/ progress_of s i = Some (WantsChannel k) /\ stage_of s k = Some Up.
Proof. exact again. Qed.
Print Assumptions C88_again.
Theorem C88_senders : forall sk lg bytes es i ts, In sk [ex_sender; br_sender; p8_sender; f10_sender] ->
  progress_of (session_run sk lg bytes es) i = None ->
  let s := session_run sk lg bytes (es ++ [Request i ts]) in
  exists k, progress_of s i = Some (WantsWire k) /\ stage_of s k = Some Dialing \/ progress_of s i = Some (WantsChannel k) /\ stage_of s k = Some Up.
Proof. intros sk lg b es i ts H. apply C88_again. destruct H as [<-|[<-|[<-|[<-|[]]]]]; discriminate. Qed.
Print Assumptions C88_senders.
(** None of them lets a request wait for others. *)
Theorem C88_no_waiting : forall sk lg bytes es i k, In sk [ex_sender; br_sender; p8_sender; f10_sender] ->
  progress_of (session_run sk lg bytes es) i <> Some (WantsLock k).
Proof. intros sk lg b es i k H. apply nobody_waits. destruct H as [<-|[<-|[<-|[<-|[]]]]]; reflexivity. Qed.
Print Assumptions C88_no_waiting.
(** If then the connection is made, the key is the one expected, the login
    succeeds, a channel and a shell are given, and data comes in until the
    conversation is at its end, the request succeeds. *)
Definition opens (k i : nat) (fp : string) : list happening := [Connected k; HostKey k fp; LoggedIn k; ChannelOpen i; Shell i true].
Theorem C88_works : forall sk lg bytes es i ts k fp ps c,
  sk_locks sk = false \/ (forall j p, progress_of (session_run sk lg bytes es) j = Some p -> ended p) ->
  progress_of (session_run sk lg bytes es) i = None ->
  progress_of (session_run sk lg bytes (es ++ [Request i ts])) i = Some (WantsWire k) ->
  In fp (lg_fingerprints lg) -> (exists cr, configured lg cr) -> received (sk_chan sk) bytes ps (begin ts) = Ok c ->
  let s := session_run sk lg bytes (es ++ Request i ts :: opens k i fp ++ map (Arrived i) ps) in
  written i (ss_sent s) = map (pair k) (ch_sent c) /\ (ch_done c = true -> progress_of s i = Some Succeeded).
Proof. exact works. Qed.
Print Assumptions C88_works.
(** Likewise on a connection that is up already. *)
Theorem C88_reuses : forall sk lg bytes es i ts k ps c,
  sk_locks sk = false \/ (forall j p, progress_of (session_run sk lg bytes es) j = Some p -> ended p) ->
  progress_of (session_run sk lg bytes es) i = None ->
  let s0 := session_run sk lg bytes (es ++ [Request i ts]) in
  progress_of s0 i = Some (WantsChannel k) -> stage_of s0 k = Some Up -> received (sk_chan sk) bytes ps (begin ts) = Ok c ->
  let s := session_run sk lg bytes (es ++ Request i ts :: [ChannelOpen i; Shell i true] ++ map (Arrived i) ps) in
  written i (ss_sent s) = map (pair k) (ch_sent c) /\ (ch_done c = true -> progress_of s i = Some Succeeded).
Proof. exact reuses. Qed.
Print Assumptions C88_reuses.

(** But a request that waits for anything on a connection that is gone never ends. *)
Theorem C88_refuted : forall sk lg bytes es es' i p k, let s := session_run sk lg bytes es in
  progress_of s i = Some p -> hangs_on k p -> stage_of s k = Some Gone ->
  progress_of (session_run sk lg bytes (es ++ es')) i = Some p /\ ~ ended p.
Proof.
  intros sk lg b es es' i p k s P H G. rewrite run_app. split; [apply (hang_run sk lg b es' _ i p k); auto; apply good_run|]. destruct p; auto.
Qed.
Print Assumptions C88_refuted.
(** So it is when the key of the device is refused, when the login fails, when no
    channel is given, and when the connection is lost in a conversation. *)
Theorem C88_hangs_refuted : forall sk lg bytes es i k, let s := session_run sk lg bytes es in
  (forall fp x, progress_of s i = Some (WantsWire k) -> stage_of s k = Some x -> x <> Dialing -> ~ In fp (lg_fingerprints lg) ->
    forall es', progress_of (session_run sk lg bytes (es ++ HostKey k fp :: es')) i = Some (WantsWire k)) /\
  (forall x p, progress_of s i = Some p -> hangs_on k p -> stage_of s k = Some x -> x <> Dialing ->
    forall es', progress_of (session_run sk lg bytes (es ++ Lost k :: es')) i = Some p).
Proof. exact hangs. Qed.
Print Assumptions C88_hangs_refuted.
(** And a sender that does not look at its connection never comes back: once it is
    gone no request made later ends, but for a login that was under way for another. *)
Theorem C88_never_refuted : forall sk lg bytes es es' es'' i ts k, sk_keeps sk = Kept false -> let s := session_run sk lg bytes es in
  ss_kept s = Some k -> stage_of s k = Some Gone -> (forall k', ~ In (LoggedIn k') es') -> progress_of (session_run sk lg bytes (es ++ es')) i = None ->
  progress_of (session_run sk lg bytes (es ++ es' ++ Request i ts :: es'')) i = Some (WantsChannel k).
Proof. exact never. Qed.
Print Assumptions C88_never_refuted.
Theorem C88_junos_refuted : forall sk lg bytes es es' es'' i ts k, sk = mx_sender \/ sk = jx_sender -> let s := session_run sk lg bytes es in
  ss_kept s = Some k -> stage_of s k = Some Gone -> (forall k', ~ In (LoggedIn k') es') -> progress_of (session_run sk lg bytes (es ++ es')) i = None ->
  progress_of (session_run sk lg bytes (es ++ es' ++ Request i ts :: es'')) i = Some (WantsChannel k).
Proof. intros sk lg b es es' es'' i ts k [-> | ->]; apply C88_never_refuted; reflexivity. Qed.
Print Assumptions C88_junos_refuted.
(** If the connection is lost in a conversation, nothing is written for anyone any more. *)
Theorem C88_silent_refuted : forall sk lg bytes es es' i k c, sk_locks sk = true -> let s := session_run sk lg bytes es in
  progress_of s i = Some (Talking k c) -> stage_of s k = Some Gone ->
  writers (ss_sent (session_run sk lg bytes (es ++ es'))) = writers (ss_sent s).
Proof. intros sk lg b es es' i k c H s P G. rewrite run_app. apply (stuck_run sk lg b es' _ i k c); auto; [apply good_run|apply lock_run, H]. Qed.
Print Assumptions C88_silent_refuted.

(** * Examples *)
Definition lg1 : login := key_login "fp" "id.pub" "id".
Definition answers : list string := ["x>" +++ LF; "[edit]" +++ LF; "commit complete" +++ LF].
Definition opened : list happening := Request 7 (ex_turns ["set a"]) :: opens 0 7 "fp".
(** A request from the beginning to its end, and a second on the same connection. *)
Example C87_ex : let s := session_run ex_sender lg1 false (opened ++ map (Arrived 7) answers ++ Request 8 (ex_turns ["set b"]) :: [ChannelOpen 8; Shell 8 true]) in
  ss_sent s = [Offered 0 (Keys "id.pub" "id"); Wrote 0 7 "configure"; Wrote 0 7 "set a"; Wrote 0 7 "commit"; Wrote 0 8 "configure"] /\
  progress_of s 7 = Some Succeeded /\ stage_of s 0 = Some Up /\ received ex_channel false answers (begin (ex_turns ["set a"])) = Ok (mkChan "" None [] ["configure"; "set a"; "commit"] true).
Proof. vm_compute. auto. Qed.
(** A device with another key sees nothing, and the request does not end. *)
Example C87_ex_refused : let s := session_run br_sender lg1 false [Request 7 (br_turns "pw" ["vlan 1"]); Connected 0; HostKey 0 "other"; LoggedIn 0; ChannelOpen 7; Shell 7 true] in
  ss_sent s = [] /\ stage_of s 0 = Some Gone /\ progress_of s 7 = Some (WantsWire 0).
Proof. vm_compute. auto. Qed.
(** With a lock one waits for the other; without one their lines are mixed. *)
Definition two (ts : string -> list turn) : list happening :=
  Request 7 (ts "a") :: opens 0 7 "fp" ++ [Request 8 (ts "b"); ChannelOpen 8; Shell 8 true] ++ [Arrived 7 ("[edit]" +++ LF); Arrived 7 (">" +++ LF)].
Example C87_ex_lock : writers (ss_sent (session_run mx_sender lg1 false (two (fun c => mx_turns [c])))) = [7; 7]%nat /\
  progress_of (session_run mx_sender lg1 false (two (fun c => mx_turns [c]))) 8 = Some (WantsLock 0) /\
  writers (ss_sent (session_run ex_sender lg1 false (two (fun c => ex_turns [c])))) = [7; 8; 7]%nat.
Proof. vm_compute. auto. Qed.
Example C87_ex_unlocked : ~ uninterrupted [7; 8; 7]%nat.
Proof. intros H. specialize (H [] [8%nat] [] 7%nat eq_refl 8%nat (or_introl eq_refl)). discriminate. Qed.
Example C87_ex_password : force10_login "fp" (Some "pw") None None = Some (mkLogin ["fp"] None None (Some "pw")) /\
  configured (mkLogin ["fp"] None None (Some "pw")) (Password "pw") /\ force10_login "fp" None (Some "id.pub") (Some "id") = None.
Proof. split; [reflexivity|]. split; [|reflexivity]. apply by_password; discriminate || reflexivity. Qed.
(** The cases in which a request ends with a failure. *)
Example C88_ex_failed :
  progress_of (session_run br_sender lg1 false [Request 7 (br_turns "pw" []); Refused 0 EConnection]) 7 = Some (Failed EConnection) /\
  progress_of (session_run br_sender (mkLogin ["fp"] None None None) false [Request 7 (br_turns "pw" []); Connected 0; HostKey 0 "fp"]) 7 = Some (Failed EAssertion) /\
  (let s := session_run br_sender lg1 false [Request 7 (br_turns "pw" []); Connected 0; HostKey 0 "fp"; LoggedIn 0; ChannelOpen 7; Shell 7 false] in
   progress_of s 7 = Some (Failed EConnection) /\ stage_of s 0 = Some Gone).
Proof. vm_compute. auto. Qed.
(** The connection is lost: a juniperex sender makes a new one, a junosmx sender does not. *)
Example C88_ex_lost :
  (let s := session_run ex_sender lg1 false (opened ++ [Lost 0; Request 8 (ex_turns ["set b"])]) in
   progress_of s 8 = Some (WantsWire 1) /\ stage_of s 1 = Some Dialing) /\
  (let s := session_run mx_sender lg1 false (Request 7 (mx_turns ["set a"]) :: opens 0 7 "fp" ++ [Lost 0]) in
   ss_kept s = Some 0%nat /\ stage_of s 0 = Some Gone /\ exists c, progress_of s 7 = Some (Talking 0 c) /\ progress_of s 8 = None) /\
  (let s := session_run mx_sender lg1 false (Request 7 (mx_turns ["set a"]) :: opens 0 7 "fp" ++ [Lost 0; Request 8 (mx_turns ["set b"]); Connected 1; LoggedIn 1; ChannelOpen 8; Shell 8 true]) in
   progress_of s 8 = Some (WantsChannel 0)).
Proof. vm_compute. repeat split; eauto. Qed.
