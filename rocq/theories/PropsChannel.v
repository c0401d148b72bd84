(** C80: commands reach a device in order, and success means that it has taken them. *)
From Verif Require Import Base BaseProofs ModelPlugins ProofsPlugins SpecConfig ModelChannel SpecChannel ProofsChannel ProofsTalks.
Open Scope Z_scope.

Lemma junos_kind k : In k [ex_channel; mx_channel; jx_channel] -> k = mkKind (ByLine true) true \/ k = mkKind (ByLine false) true.
Proof. intros [<-|[<-|[<-|[]]]]; auto. Qed.

(** Whatever comes in and in whatever pieces, what has been sent is a beginning
    of the lines of the conversation, and all of them if success is reported. *)
Theorem C80_order : forall cmds k ts lines bytes ps c,
  talk_of cmds k ts lines -> received k bytes ps (begin ts) = Ok c ->
  beginning (ch_sent c) lines /\ (ch_done c = true -> ch_sent c = lines).
Proof. exact order_ok. Qed.
Print Assumptions C80_order.

(** If the device answers every line, and shows its prompt when it does, the
    conversation comes to its end with success, however the answers arrive;
    missing: bytes for all drivers but brocade, and prompts that are cut. *)
Theorem C80_ends_partial : forall cmds k ts lines bytes D,
  talk_of cmds k ts lines -> bytes && kd_text k = false -> answering D -> prompts k D ts -> ends k bytes D ts.
Proof. exact conversation_ends. Qed.
Print Assumptions C80_ends_partial.

(** Junos: success is reported only when the device has said that the commit is
    complete; if it says so only in its answer to the commit, it has then answered
    all lines.  Missing: that it has accepted all of them. *)
Theorem C80_committed : forall cmds k ts lines bytes D t,
  talk_of cmds k ts lines -> In k [ex_channel; mx_channel; jx_channel] ->
  talks k bytes D ts t -> finished t -> mentions "commit complete" (tk_out t).
Proof. intros cmds k ts lines bytes D t T Hk. exact (junos_committed _ _ _ _ _ _ _ T (junos_kind k Hk)). Qed.
Print Assumptions C80_committed.
Theorem C80_executed_partial : forall cmds k ts lines bytes D,
  talk_of cmds k ts lines -> In k [ex_channel; mx_channel; jx_channel] ->
  (forall t, talks k bytes D ts t -> (tk_answered t < List.length lines)%nat -> ~ mentions "commit complete" (tk_out t)) ->
  forall t, talks k bytes D ts t -> finished t -> (List.length lines <= tk_answered t)%nat.
Proof.
  intros cmds k ts lines bytes D T Hk Hn t Ht Hf. destruct (PeanoNat.Nat.le_gt_cases (List.length lines) (tk_answered t)) as [L|L]; [exact L|].
  destruct (Hn t Ht L). exact (C80_committed _ _ _ _ _ _ _ T Hk Ht Hf).
Qed.
Print Assumptions C80_executed_partial.

(** Junos: a line of its own makes a conversation go on with its next turn if,
    without the blanks around it, it is what is waited for, and juniperex.py also
    if it contains it; no other line does. *)
Theorem C80_line : forall k w t r sent x y,
  In k [mx_channel; jx_channel] -> w <> "" -> tn_wait t <> None -> shas "010" x = false -> trims x y ->
  exists c, data_received k false (x +++ LF) (mkChan "" (Some w) (t :: r) sent false) = Ok c /\
    (y = w -> ch_sent c = sent ++ tn_write t) /\ (y <> w -> ch_sent c = sent).
Proof.
  intros k w t r sent x y Hk Hw Ht Hx Hy. assert (Kk : kd_look k = ByLine true) by (destruct Hk as [<-|[<-|[]]]; reflexivity).
  destruct (one_line _ w t r sent x y true Kk Hw Ht Hx Hy) as (c & H1 & H2 & H3); exists c. cbn [line_matches] in *.
  split; [exact H1|]. split; [intros ->; apply H2, eqb_refl|intros N; apply H3, eqb_neq; congruence].
Qed.
Print Assumptions C80_line.
Theorem C80_line_juniperex : forall w t r sent x y,
  w <> "" -> tn_wait t <> None -> shas "010" x = false -> trims x y ->
  exists c, data_received ex_channel false (x +++ LF) (mkChan "" (Some w) (t :: r) sent false) = Ok c /\
    (mentions w y -> ch_sent c = sent ++ tn_write t) /\ (~ mentions w y -> ch_sent c = sent).
Proof.
  intros w t r sent x y Hw Ht Hx Hy. destruct (one_line ex_channel w t r sent x y false eq_refl Hw Ht Hx Hy) as (c & H1 & H2 & H3). exists c. cbn [line_matches] in *.
  split; [exact H1|]. split; [intros M; apply H2, contains_spec, M|].
  intros N. apply H3. destruct (contains w y) eqn:E; [|reflexivity]. apply contains_spec in E. contradiction.
Qed.
Print Assumptions C80_line_juniperex.

(** Brocade: if the device shows its prompt once in each answer and not before,
    it has answered everything but the last line, which ends the configuration. *)
Theorem C80_brocade_executed_partial : forall p cmds bytes D t,
  at_most "#" D (fun _ => 1%nat) -> talks br_channel bytes D (br_turns p cmds) t -> finished t -> (List.length cmds + 2 <= tk_answered t)%nat.
Proof. exact brocade_executed. Qed.
Print Assumptions C80_brocade_executed_partial.
(** Force10: likewise, and "write" has been answered. *)
Theorem C80_force10_executed_partial : forall p cmds bytes D t,
  at_most "#" D (fun l => if String.eqb l "enable" then 0%nat else 1%nat) -> talks f10_channel bytes D (f10_turns p cmds) t -> finished t ->
  (List.length cmds + 4 <= tk_answered t)%nat.
Proof. exact force10_executed. Qed.
Print Assumptions C80_force10_executed_partial.
(** Pica8: if only the answers to "echo" have a line feed, and each has one, every line has been answered. *)
Theorem C80_pica8_executed_partial : forall cmds bytes D t,
  no_command "echo" cmds -> at_most "010" D (fun l => if String.eqb l "echo" then 1%nat else 0%nat) ->
  talks p8_channel bytes D (p8_turns cmds) t -> finished t ->
  tk_answered t = List.length ("echo" :: flat_map (fun c => [c; "echo"]) cmds ++ ["echo"]).
Proof. intros cmds bytes D t Hn Hm Ht Hf. rewrite <- (talk_lines _ _ _ _ (talk_p8 cmds)). exact (pica8_executed cmds bytes D t Hn Hm Ht Hf). Qed.
Print Assumptions C80_pica8_executed_partial.

(** With a lock, what is written is one conversation after the other, in the
    order in which they were asked for. *)
Theorem C80_lock : forall k bytes es s,
  (forall i ts, In (i, ts) (asked es) -> exists cmds k' lines, talk_of cmds k' ts lines) ->
  sender_run (step_locked k bytes) es (mkSender [] [] []) = Ok s -> in_turn (asked es) (sn_log s).
Proof.
  intros k bytes es s H. apply lock_ok. intros i ts Hi. destruct (H i ts Hi) as (cmds & k' & lines & T). exact (talk_not_done _ _ _ _ T).
Qed.
Print Assumptions C80_lock.

(** * What does not hold *)

(** On Python 3 the SSH library hands over bytes, and no conversation but that of
    brocade ever comes to its end. *)
Theorem C80_bytes_refuted : forall cmds p k ts D t,
  In (k, ts) [(ex_channel, ex_turns cmds); (mx_channel, mx_turns cmds); (jx_channel, jx_turns cmds); (p8_channel, p8_turns cmds); (f10_channel, f10_turns p cmds)] ->
  talks k true D ts t -> ~ finished t.
Proof.
  intros cmds p k ts D t [E|[E|[E|[E|[E|[]]]]]]; injection E as <- <-.
  - exact (bytes_never _ _ _ _ D t (talk_ex cmds) eq_refl).
  - exact (bytes_never _ _ _ _ D t (talk_mx cmds) eq_refl).
  - exact (bytes_never _ _ _ _ D t (talk_jx cmds) eq_refl).
  - exact (bytes_never _ _ _ _ D t (talk_p8 cmds) eq_refl).
  - exact (bytes_never _ _ _ _ D t (talk_f10 cmds p) eq_refl).
Qed.
Print Assumptions C80_bytes_refuted.

(** It matters how the output is cut: a line that comes in two pieces is not seen,
    if the first of them has the end of the line before. *)
Theorem C80_cut_refuted : exists cmds pre a b c c',
  received mx_channel false (pre ++ [a +++ b]) (begin (mx_turns cmds)) = Ok c /\ ch_done c = true /\
  received mx_channel false (pre ++ [a; b]) (begin (mx_turns cmds)) = Ok c' /\ ch_done c' = false.
Proof.
  exists ["set x"], [LF +++ "[edit]" +++ LF; LF +++ "[edit]" +++ LF], ("commit" +++ LF +++ "commit com"), ("plete" +++ LF). do 2 eexists.
  split; [vm_compute; reflexivity|]. split; [reflexivity|]. split; [vm_compute; reflexivity|reflexivity].
Qed.
Print Assumptions C80_cut_refuted.

(** Whatever a Brocade switch says before its prompt, success is reported. *)
Theorem C80_refused_refuted : forall bytes p cmds e,
  exists c, received br_channel bytes (">" :: repeat (e +++ "#") (List.length cmds + 2)) (begin (br_turns p cmds)) = Ok c /\ ch_done c = true.
Proof. exact brocade_refused. Qed.
Print Assumptions C80_refused_refuted.

(** If the commit fails, the conversation never ends, and no other starts. *)
Theorem C80_commit_failed_refuted : forall cmds k ts lines bytes i ds others s,
  talk_of cmds k ts lines -> In k [ex_channel; mx_channel; jx_channel] -> ~ mentions "commit complete" (text ds) ->
  sender_run (step_locked k bytes) (Asks i ts :: map (Data i) ds ++ map (fun o => Asks (fst o) (snd o)) others) (mkSender [] [] []) = Ok s ->
  forall j l, In (j, l) (sn_log s) -> j = i.
Proof. intros cmds k ts lines bytes i ds others s T Hk. exact (failed_blocks _ _ _ _ _ _ _ _ _ T (junos_kind k Hk)). Qed.
Print Assumptions C80_commit_failed_refuted.

(** Pica8: a greeting of enough lines is taken for the answers to all commands. *)
Theorem C80_pica8_banner_refuted : forall cmds,
  exists t, talks p8_channel false (mkDevice (fun b => b = repeat LF (List.length cmds + 2)) (fun _ _ _ => False)) (p8_turns cmds) t /\
    finished t /\ tk_answered t = 0%nat.
Proof. exact pica8_nothing. Qed.
Print Assumptions C80_pica8_banner_refuted.

(** Without a lock, conversations mix. *)
Theorem C80_mixed_refuted : exists es s,
  sender_run (step_open ex_channel false) es (mkSender [] [] []) = Ok s /\ ~ in_turn (asked es) (sn_log s).
Proof.
  exists [Asks 0%nat (ex_turns ["set a"]); Asks 1%nat (ex_turns ["set b"]); Data 0%nat ("> " +++ LF); Data 1%nat ("> " +++ LF)]. eexists.
  split; [vm_compute; reflexivity|]. intros (fin & act & rest & part & Ha & Hl & L1 & (r & Hb)). cbn [sn_log] in Hl.
  destruct fin as [|f0 fin].
  - cbn [app flat_map] in Ha, Hl. destruct act as [|a0 [|a1 act]]; [destruct part; [discriminate|discriminate]| |cbn in L1; lia].
    cbn in Ha. injection Ha as <- _. rewrite <- Hl in Hb. discriminate Hb.
  - cbn in Ha. injection Ha as <- _. cbn in Hl. discriminate Hl.
Qed.
Print Assumptions C80_mixed_refuted.

(** * Cases *)

Lemma shows_line w x : shas "010" x = false -> trims x w -> shows mx_channel w (LF +++ x +++ LF).
Proof. intros H1 H2. exists x. auto. Qed.

(** A router with its prompt on a line of its own; the third line is the commit. *)
Definition router : device :=
  mkDevice (fun b => b = ["router> "])
    (fun n l o => o = ["?"; if Nat.eqb n 2 then LF +++ "commit complete" +++ LF else LF +++ "[edit] " +++ LF]).
Example C80_router_prompts : prompts mx_channel router (mx_turns ["set x"]).
Proof.
  assert (Tr : trims "[edit] " "[edit]").
  { exists "", " ". split; [reflexivity|]. split; [reflexivity|]. split; [reflexivity|]. right. split; [exists "["%char, "edit]"; auto|exists "[edit", "]"%char; auto]. }
  assert (Tc : trims "commit complete" "commit complete").
  { exists "", "". split; [reflexivity|]. split; [reflexivity|]. split; [reflexivity|]. right. split; [exists "c"%char, "ommit complete"; auto|exists "commit complet", "e"%char; auto]. }
  intros p t q w E W. split.
  - intros H. exfalso. destruct p as [|p0 [|p1 [|p2 [|p3 p]]]]; cbn in E; injection E; intros; subst; discriminate.
  - intros _ n l o Hn Ho. cbn in Ho. subst o.
    destruct p as [|p0 [|p1 [|p2 p]]]; cbn in E.
    + injection E as <- _. cbn in W, Hn. injection W as <-. injection Hn as ->. eexists. split; [right; left; reflexivity|]. exact (shows_line _ "[edit] " eq_refl Tr).
    + injection E as <- <- _. cbn in W, Hn. injection W as <-. injection Hn as ->. eexists. split; [right; left; reflexivity|]. exact (shows_line _ "[edit] " eq_refl Tr).
    + injection E as <- <- <- _. cbn in W, Hn. injection W as <-. injection Hn as ->. eexists. split; [right; left; reflexivity|]. exact (shows_line _ "commit complete" eq_refl Tc).
    + exfalso. apply (f_equal (@List.length turn)) in E. cbn in E. rewrite app_length in E. cbn in E. lia.
Qed.
Example C80_router_ends : ends mx_channel false router (mx_turns ["set x"]).
Proof.
  apply (C80_ends_partial ["set x"] mx_channel (mx_turns ["set x"]) _ false router (talk_mx ["set x"]) eq_refl); [|exact C80_router_prompts].
  intros n l. eexists. reflexivity.
Qed.
(** the output of a router, cut in the middle of a prompt *)
Example C80_order_ex : exists c, received mx_channel false ["[ed"; "it]" +++ LF; "[edit]" +++ LF; "commit complete" +++ LF] (begin (mx_turns ["set x"])) = Ok c /\
  ch_done c = true /\ ch_sent c = ["edit private"; "set x"; "commit"].
Proof. eexists. split; [vm_compute; reflexivity|]. split; reflexivity. Qed.
Example C80_order_some : exists c, received mx_channel false ["[edit]" +++ LF; "error" +++ LF] (begin (mx_turns ["set x"])) = Ok c /\
  ch_done c = false /\ ch_sent c = ["edit private"; "set x"].
Proof. eexists. split; [vm_compute; reflexivity|]. split; reflexivity. Qed.
(** a switch with bytes *)
Example C80_brocade_ex : exists c, received br_channel true ["FES>"; "enable" ; LF +++ "FES#"; "FES#FE"; "S#"; "FES#"] (begin (br_turns "pw" ["vlan 4"; "tag e 1"])) = Ok c /\
  ch_done c = true /\ ch_sent c = ["enable pw"; "configure terminal"; "vlan 4"; "tag e 1"; "end"].
Proof. eexists. split; [vm_compute; reflexivity|]. split; reflexivity. Qed.
(** an EX switch whose prompt has more on its line *)
Example C80_line_ex : exists c c', data_received ex_channel false ("user@ex> " +++ LF) (begin (ex_turns ["set a"])) = Ok c /\ ch_sent c = ["configure"; "set a"] /\
  data_received mx_channel false ("user@mx [edit]" +++ LF) (begin (mx_turns ["set a"])) = Ok c' /\ ch_sent c' = ["edit private"].
Proof. do 2 eexists. split; [vm_compute; reflexivity|]. split; [reflexivity|]. split; [vm_compute; reflexivity|reflexivity]. Qed.
(** two links of a router with a lock *)
Example C80_lock_ex : exists s, sender_run (step_locked mx_channel false)
    [Asks 0%nat (mx_turns []); Asks 1%nat (mx_turns ["set b"]); Data 0%nat ("[edit]" +++ LF); Data 1%nat ("[edit]" +++ LF);
     Data 0%nat ("commit complete" +++ LF); Data 1%nat ("[edit]" +++ LF)] (mkSender [] [] []) = Ok s /\
  sn_log s = [(0%nat, "edit private"); (0%nat, "commit"); (1%nat, "edit private"); (1%nat, "set b")].
Proof. eexists. split; [vm_compute; reflexivity|reflexivity]. Qed.
(** a switch, and a conversation with it that has come to its end *)
Definition switch : device := mkDevice (fun b => b = ["FES>"]) (fun n l o => o = ["FES#"]).
Example C80_switch : at_most "#" switch (fun _ => 1%nat).
Proof. split; [intros b ->; reflexivity|intros n l o ->; cbn; lia]. Qed.
Example C80_switch_ends : exists t, talks br_channel true switch (br_turns "pw" ["vlan 4"]) t /\ finished t /\ tk_answered t = 3%nat.
Proof.
  assert (An : forall c n w h l, nth_error (ch_sent c) n = Some l -> tstep br_channel true switch (mkTalk c n w h) (mkTalk c (S n) (w ++ ["FES#"]) (h +++ text ["FES#"]))).
  { intros. eapply device_answers; [eassumption|reflexivity]. }
  set (got := fun (c : chan) (a : string) => match data_received br_channel true (text [a]) c with Ok c' => c' | Err _ => c end).
  assert (Ar : forall c n a h, data_received br_channel true (text [a]) c = Ok (got c a) -> tstep br_channel true switch (mkTalk c n ([a] ++ []) h) (mkTalk (got c a) n [] h)).
  { intros. apply chunks_arrive; [discriminate|assumption]. }
  pose proof (talks_start br_channel true switch (br_turns "pw" ["vlan 4"]) ["FES>"] eq_refl) as T.
  eassert (T1 := talks_on _ _ _ _ _ _ T (Ar _ _ "FES>" _ _)). Unshelve. 2:{ vm_compute; reflexivity. }
  eassert (T2 := talks_on _ _ _ _ _ _ T1 (An _ _ _ _ "enable pw" _)). Unshelve. 2:{ vm_compute; reflexivity. }
  eassert (T3 := talks_on _ _ _ _ _ _ T2 (Ar _ _ "FES#" _ _)). Unshelve. 2:{ vm_compute; reflexivity. }
  eassert (T4 := talks_on _ _ _ _ _ _ T3 (An _ _ _ _ "configure terminal" _)). Unshelve. 2:{ vm_compute; reflexivity. }
  eassert (T5 := talks_on _ _ _ _ _ _ T4 (Ar _ _ "FES#" _ _)). Unshelve. 2:{ vm_compute; reflexivity. }
  eassert (T6 := talks_on _ _ _ _ _ _ T5 (An _ _ _ _ "vlan 4" _)). Unshelve. 2:{ vm_compute; reflexivity. }
  eassert (T7 := talks_on _ _ _ _ _ _ T6 (Ar _ _ "FES#" _ _)). Unshelve. 2:{ vm_compute; reflexivity. }
  eexists. split; [exact T7|]. split; [vm_compute; reflexivity|reflexivity].
Qed.
(** an Open vSwitch that is silent but for its echoes *)
Example C80_ovs : at_most "010" (mkDevice (fun b => b = []) (fun n l o => o = if String.eqb l "echo" then [LF] else [])) (fun l => if String.eqb l "echo" then 1%nat else 0%nat).
Proof. split; [intros b ->; reflexivity|]. intros n l o Ho. cbn in Ho. subst o. destruct (String.eqb l "echo"); cbn; lia. Qed.
(** a Force10 switch that asks for the password *)
Example C80_f10 : at_most "#" (mkDevice (fun b => b = ["f10>"]) (fun n l o => o = if String.eqb l "enable" then ["Password:"] else ["f10#"])) (fun l => if String.eqb l "enable" then 0%nat else 1%nat).
Proof. split; [intros b ->; reflexivity|]. intros n l o Ho. cbn in Ho. subst o. destruct (String.eqb l "enable"); cbn; lia. Qed.
