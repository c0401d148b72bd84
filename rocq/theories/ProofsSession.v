(** Proofs about sessions with a device: connections and what leaves on them. *)
From Verif Require Import Base BaseProofs ModelChannel SpecChannel ModelSession SpecSession.
Open Scope Z_scope.

Definition wire (s : session) (k : nat) : option (stage * nat) := aget k (ss_wires s).
Definition req (s : session) (i : nat) : option (list turn * progress) := aget i (ss_reqs s).
Lemma stage_wire s k : stage_of s k = option_map fst (wire s k). Proof. reflexivity. Qed.
Lemma progress_req s i : progress_of s i = option_map snd (req s i). Proof. reflexivity. Qed.

Lemma aget_snoc {V} (l : list (nat * V)) n v k : aget k (l ++ [(n, v)]) = match aget k l with Some x => Some x | None => if eqb k n then Some v else None end.
Proof. induction l as [|[k' v'] r IH]; cbn [aget app]; [reflexivity|]. destruct (eqb k k'); [reflexivity|exact IH]. Qed.
Lemma aset_length {V} (l : list (nat * V)) k v x : aget k l = Some x -> List.length (aset k v l) = List.length l.
Proof.
  induction l as [|[k' v'] r IH]; cbn [aget aset]; [discriminate|]. destruct (eqb k k'); intros H; cbn [List.length]; [reflexivity|]. f_equal. exact (IH H).
Qed.

(** * What each function changes *)
Lemma wire_set_stage k x s k' : wire (set_stage k x s) k' =
  if eqb k' k then match wire s k with Some (_, i) => Some (x, i) | None => None end else wire s k'.
Proof.
  unfold set_stage, wire. destruct (aget k (ss_wires s)) as [[y i]|] eqn:E.
  - cbn [ss_wires]. rewrite aget_aset. reflexivity.
  - destruct (eqb_ok k' k) as [->|]; [exact E|reflexivity].
Qed.
Lemma req_set_stage k x s i : req (set_stage k x s) i = req s i.
Proof. unfold set_stage, req. destruct (aget k (ss_wires s)) as [[y j]|]; reflexivity. Qed.
Lemma kept_set_stage k x s : ss_kept (set_stage k x s) = ss_kept s.
Proof. unfold set_stage. destruct (aget k (ss_wires s)) as [[y j]|]; reflexivity. Qed.
Lemma lock_set_stage k x s : ss_lock (set_stage k x s) = ss_lock s.
Proof. unfold set_stage. destruct (aget k (ss_wires s)) as [[y j]|]; reflexivity. Qed.
Lemma queue_set_stage k x s : ss_queue (set_stage k x s) = ss_queue s.
Proof. unfold set_stage. destruct (aget k (ss_wires s)) as [[y j]|]; reflexivity. Qed.
Lemma sent_set_stage k x s : ss_sent (set_stage k x s) = ss_sent s.
Proof. unfold set_stage. destruct (aget k (ss_wires s)) as [[y j]|]; reflexivity. Qed.
Lemma len_set_stage k x s : List.length (ss_wires (set_stage k x s)) = List.length (ss_wires s).
Proof. unfold set_stage. destruct (aget k (ss_wires s)) as [[y j]|] eqn:E; [|reflexivity]. cbn [ss_wires]. exact (aset_length _ _ _ _ E). Qed.

Lemma wire_set_progress i x s k : wire (set_progress i x s) k = wire s k.
Proof. unfold set_progress, wire. destruct (aget i (ss_reqs s)) as [[y j]|]; reflexivity. Qed.
Lemma req_set_progress i x s j : req (set_progress i x s) j =
  if eqb j i then match req s i with Some (ts, _) => Some (ts, x) | None => None end else req s j.
Proof.
  unfold set_progress, req. destruct (aget i (ss_reqs s)) as [[y p]|] eqn:E.
  - cbn [ss_reqs]. rewrite aget_aset. reflexivity.
  - destruct (eqb_ok j i) as [->|]; [exact E|reflexivity].
Qed.
Lemma kept_set_progress i x s : ss_kept (set_progress i x s) = ss_kept s.
Proof. unfold set_progress. destruct (aget i (ss_reqs s)) as [[y j]|]; reflexivity. Qed.
Lemma lock_set_progress i x s : ss_lock (set_progress i x s) = ss_lock s.
Proof. unfold set_progress. destruct (aget i (ss_reqs s)) as [[y j]|]; reflexivity. Qed.
Lemma queue_set_progress i x s : ss_queue (set_progress i x s) = ss_queue s.
Proof. unfold set_progress. destruct (aget i (ss_reqs s)) as [[y j]|]; reflexivity. Qed.
Lemma sent_set_progress i x s : ss_sent (set_progress i x s) = ss_sent s.
Proof. unfold set_progress. destruct (aget i (ss_reqs s)) as [[y j]|]; reflexivity. Qed.
Lemma len_set_progress i x s : List.length (ss_wires (set_progress i x s)) = List.length (ss_wires s).
Proof. unfold set_progress. destruct (aget i (ss_reqs s)) as [[y j]|]; reflexivity. Qed.

Lemma wire_leaves l s k : wire (leaves l s) k = wire s k. Proof. reflexivity. Qed.
Lemma req_leaves l s k : req (leaves l s) k = req s k. Proof. reflexivity. Qed.
Lemma sent_leaves l s : ss_sent (leaves l s) = ss_sent s ++ l. Proof. reflexivity. Qed.

Lemma wire_dial i s k : wire (dial i s) k =
  match wire s k with Some x => Some x | None => if eqb k (List.length (ss_wires s)) then Some (Dialing, i) else None end.
Proof. unfold dial. rewrite wire_set_progress. unfold wire. cbn [ss_wires]. apply aget_snoc. Qed.
Lemma len_dial i s : List.length (ss_wires (dial i s)) = S (List.length (ss_wires s)).
Proof. unfold dial. rewrite len_set_progress. cbn [ss_wires]. rewrite app_length. cbn. lia. Qed.
Lemma req_dial i s j : req (dial i s) j =
  if eqb j i then match req s i with Some (ts, _) => Some (ts, WantsWire (List.length (ss_wires s))) | None => None end else req s j.
Proof. unfold dial. rewrite req_set_progress. reflexivity. Qed.
Lemma kept_dial i s : ss_kept (dial i s) = ss_kept s. Proof. unfold dial. rewrite kept_set_progress. reflexivity. Qed.
Lemma lock_dial i s : ss_lock (dial i s) = ss_lock s. Proof. unfold dial. rewrite lock_set_progress. reflexivity. Qed.
Lemma queue_dial i s : ss_queue (dial i s) = ss_queue s. Proof. unfold dial. rewrite queue_set_progress. reflexivity. Qed.
Lemma sent_dial i s : ss_sent (dial i s) = ss_sent s. Proof. unfold dial. rewrite sent_set_progress. reflexivity. Qed.

Lemma wire_release s k : wire (release_lock s) k = wire s k.
Proof.
  unfold release_lock. destruct (ss_queue s) as [|j r]; [reflexivity|]. cbv zeta.
  destruct (progress_of _ j) as [[| |k'| | | |]|]; try reflexivity. rewrite wire_set_progress. reflexivity.
Qed.
Lemma sent_release s : ss_sent (release_lock s) = ss_sent s.
Proof.
  unfold release_lock. destruct (ss_queue s) as [|j r]; [reflexivity|]. cbv zeta.
  destruct (progress_of _ j) as [[| |k'| | | |]|]; try reflexivity. rewrite sent_set_progress. reflexivity.
Qed.
Lemma kept_release s : ss_kept (release_lock s) = ss_kept s.
Proof.
  unfold release_lock. destruct (ss_queue s) as [|j r]; [reflexivity|]. cbv zeta.
  destruct (progress_of _ j) as [[| |k'| | | |]|]; try reflexivity. rewrite kept_set_progress. reflexivity.
Qed.
Lemma len_release s : List.length (ss_wires (release_lock s)) = List.length (ss_wires s).
Proof.
  unfold release_lock. destruct (ss_queue s) as [|j r]; [reflexivity|]. cbv zeta.
  destruct (progress_of _ j) as [[| |k'| | | |]|]; try reflexivity. rewrite len_set_progress. reflexivity.
Qed.

(** * Stages *)

Lemma stage_set_stage k x s k' : stage_of (set_stage k x s) k' =
  if eqb k' k then match stage_of s k with Some _ => Some x | None => None end else stage_of s k'.
Proof. rewrite !stage_wire, wire_set_stage. destruct (eqb k' k); [|reflexivity]. destruct (wire s k) as [[? ?]|]; reflexivity. Qed.
Lemma stage_set_progress i x s k : stage_of (set_progress i x s) k = stage_of s k.
Proof. rewrite !stage_wire, wire_set_progress. reflexivity. Qed.
Lemma stage_release s k : stage_of (release_lock s) k = stage_of s k.
Proof. rewrite !stage_wire, wire_release. reflexivity. Qed.
Lemma stage_leaves l s k : stage_of (leaves l s) k = stage_of s k. Proof. reflexivity. Qed.
Lemma stage_dial i s k : stage_of (dial i s) k =
  match stage_of s k with Some x => Some x | None => if eqb k (List.length (ss_wires s)) then Some Dialing else None end.
Proof. rewrite !stage_wire, wire_dial. destruct (wire s k) as [[? ?]|]; [reflexivity|]. destruct (eqb k _); reflexivity. Qed.

(** How a stage changes. *)
Inductive stage_step (lg : login) (e : happening) (k : nat) : option stage -> option stage -> Prop :=
| st_same x : stage_step lg e k x x
| st_new : stage_step lg e k None (Some Dialing)
| st_conn : e = Connected k -> stage_step lg e k (Some Dialing) (Some Unproved)
| st_proved fp : e = HostKey k fp -> In fp (lg_fingerprints lg) -> stage_step lg e k (Some Unproved) (Some LoggingIn)
| st_up c : e = LoggedIn k -> offer lg = Ok c -> stage_step lg e k (Some LoggingIn) (Some Up)
| st_gone x : stage_step lg e k (Some x) (Some Gone).
(** What leaves. *)
Inductive sent_step (lg : login) (e : happening) (s : session) : list sent -> Prop :=
| sn_nothing : sent_step lg e s []
| sn_offer k fp c : e = HostKey k fp -> In fp (lg_fingerprints lg) -> offer lg = Ok c -> stage_of s k = Some Unproved -> sent_step lg e s [Offered k c]
| sn_lines k i l : stage_of s k = Some Up -> (progress_of s i = Some (WantsShell k) \/ exists c, progress_of s i = Some (Talking k c)) -> sent_step lg e s (map (Wrote k i) l).

Lemma is_up_stage s k : is_up s k = true -> stage_of s k = Some Up.
Proof. unfold is_up. destruct (stage_of s k) as [[]|]; congruence. Qed.

Lemma finish_stage sk i k x s k' : stage_of (finish sk i k x s) k' = stage_of s k' \/ (exists y, stage_of s k' = Some y) /\ stage_of (finish sk i k x s) k' = Some Gone.
Proof.
  unfold finish. cbv zeta. assert (H : forall s', stage_of (if sk_locks sk then release_lock s' else s') k' = stage_of s' k') by (intros s'; destruct (sk_locks sk); [apply stage_release|reflexivity]).
  rewrite H. destruct (sk_keeps sk); [|left; apply stage_set_progress].
  rewrite stage_set_stage. destruct (eqb_ok k' k) as [->|]; [|left; apply stage_set_progress].
  rewrite stage_set_progress. destruct (stage_of s k) as [y|]; [right; eauto|left; reflexivity].
Qed.
Lemma finish_sent sk i k x s : ss_sent (finish sk i k x s) = ss_sent s.
Proof.
  unfold finish. cbv zeta. assert (H : forall s', ss_sent (if sk_locks sk then release_lock s' else s') = ss_sent s') by (intros s'; destruct (sk_locks sk); [apply sent_release|reflexivity]).
  rewrite H. destruct (sk_keeps sk); rewrite ?sent_set_stage, sent_set_progress; reflexivity.
Qed.
Lemma talk_stage sk i k n c s k' : stage_of (talk_on sk i k n c s) k' = stage_of s k' \/ (exists y, stage_of s k' = Some y) /\ stage_of (talk_on sk i k n c s) k' = Some Gone.
Proof.
  unfold talk_on. cbv zeta. assert (H : stage_of (if is_up s k then leaves (map (Wrote k i) (skipn n (ch_sent c))) s else s) k' = stage_of s k') by (destruct (is_up s k); reflexivity).
  destruct (ch_done c); [|left; rewrite stage_set_progress; exact H].
  destruct (finish_stage sk i k Succeeded (if is_up s k then leaves (map (Wrote k i) (skipn n (ch_sent c))) s else s) k') as [E|E]; rewrite H in E; [left; exact E|right; exact E].
Qed.
Lemma talk_sent sk i k n c s : ss_sent (talk_on sk i k n c s) = ss_sent s ++ if is_up s k then map (Wrote k i) (skipn n (ch_sent c)) else [].
Proof.
  unfold talk_on. cbv zeta.
  assert (H : ss_sent (if is_up s k then leaves (map (Wrote k i) (skipn n (ch_sent c))) s else s) = ss_sent s ++ if is_up s k then map (Wrote k i) (skipn n (ch_sent c)) else []).
  { destruct (is_up s k); [reflexivity|]. rewrite app_nil_r. reflexivity. }
  destruct (ch_done c); [rewrite finish_sent|rewrite sent_set_progress]; exact H.
Qed.

Lemma happen_stage sk lg b s e k : stage_step lg e k (stage_of s k) (stage_of (happen sk lg b s e) k).
Proof.
  assert (G : forall x y, y = x \/ (exists z, x = Some z) /\ y = Some Gone -> stage_step lg e k x y).
  { intros x y [->|[[z ->] ->]]; constructor. }
  assert (S1 : forall k' y s', (forall z, stage_of s k = Some z -> k = k' -> stage_step lg e k (Some z) (Some y)) -> s' = set_stage k' y s -> stage_step lg e k (stage_of s k) (stage_of s' k)).
  { intros k' y s' H ->. rewrite stage_set_stage. destruct (eqb_ok k k') as [->|]; [|constructor].
    destruct (stage_of s k') as [z|] eqn:Ez; [apply (H z eq_refl eq_refl)|constructor]. }
  destruct e as [i ts|k0|k0 x|k0 fp|k0|i|i yes|i data|k0]; cbn [happen].
  - unfold ask. destruct (aget i (ss_reqs s)); [constructor|]. unfold choose.
    set (s1 := mkSession _ _ _ _ _ _).
    assert (D : stage_step lg (Request i ts) k (stage_of s k) (stage_of (dial i s1) k)).
    { rewrite stage_dial. change (stage_of s1 k) with (stage_of s k). destruct (stage_of s k); [constructor|].
      destruct (eqb k _); constructor. }
    destruct (sk_keeps sk) as [|looks]; [exact D|]. destruct (ss_kept s1) as [k1|]; [|exact D].
    destruct (looks && stopped s1 k1); [exact D|]. rewrite stage_set_progress. constructor.
  - destruct (aget k0 (ss_wires s)) as [[[] j]|] eqn:E; try constructor.
    apply (S1 k0 Unproved _); [|reflexivity]. intros z Ez ->. rewrite stage_wire in Ez. unfold wire in Ez. rewrite E in Ez. injection Ez as <-. constructor. reflexivity.
  - destruct (aget k0 (ss_wires s)) as [[[] j]|] eqn:E; try constructor. rewrite stage_set_progress.
    apply (S1 k0 Gone _); [|reflexivity]. intros z _ _. constructor.
  - unfold host_key. destruct (aget k0 (ss_wires s)) as [[[] j]|] eqn:E; try constructor.
    + destruct (verify_host_key lg fp) eqn:V.
      * apply mem_In in V. assert (A : stage_step lg (HostKey k0 fp) k (stage_of s k) (stage_of (set_stage k0 LoggingIn s) k)).
        { apply (S1 k0 LoggingIn _); [|reflexivity]. intros z Ez ->. rewrite stage_wire in Ez. unfold wire in Ez. rewrite E in Ez. injection Ez as <-. econstructor; eauto. }
        destruct (offer lg); [rewrite stage_leaves|rewrite stage_set_progress]; exact A.
      * apply (S1 k0 Gone _); [|reflexivity]. intros z _ _. constructor.
    + destruct (verify_host_key lg fp); [constructor|]. apply (S1 k0 Gone _); [|reflexivity]. intros z _ _. constructor.
    + destruct (verify_host_key lg fp); [constructor|]. apply (S1 k0 Gone _); [|reflexivity]. intros z _ _. constructor.
  - unfold logged_in. destruct (aget k0 (ss_wires s)) as [[[] j]|] eqn:E; try constructor. destruct (offer lg) as [c|] eqn:O; [|constructor]. cbv zeta.
    assert (A : stage_step lg (LoggedIn k0) k (stage_of s k) (stage_of (set_progress j (WantsChannel k0) (set_stage k0 Up s)) k)).
    { rewrite stage_set_progress. apply (S1 k0 Up _); [|reflexivity]. intros z Ez ->. rewrite stage_wire in Ez. unfold wire in Ez. rewrite E in Ez. injection Ez as <-. econstructor; eauto. }
    destruct (sk_keeps sk); exact A.
  - unfold channel_open. destruct (progress_of s i) as [[|k1| | | | |]|]; try constructor. destruct (is_up s k1); [|constructor].
    destruct (sk_locks sk); [destruct (ss_lock s)|]; rewrite stage_set_progress; constructor.
  - unfold shell. destruct (aget i (ss_reqs s)) as [[ts [| | |k1| | |]]|]; try constructor. apply G. destruct yes; [apply talk_stage|apply finish_stage].
  - unfold arrived. destruct (progress_of s i) as [[| | | |k1 c| |]|]; try constructor. destruct (is_up s k1); [|constructor].
    destruct (data_received _ _ _ _); [apply G, talk_stage|]. apply (S1 k1 Gone _); [|reflexivity]. intros z _ _. constructor.
  - destruct (stage_of s k0) as [[]|]; try constructor; (apply (S1 k0 Gone _); [|reflexivity]; intros z _ _; constructor).
Qed.

Lemma happen_sent sk lg b s e : exists l, ss_sent (happen sk lg b s e) = ss_sent s ++ l /\ sent_step lg e s l.
Proof.
  assert (N : forall s', ss_sent s' = ss_sent s -> exists l, ss_sent s' = ss_sent s ++ l /\ sent_step lg e s l).
  { intros s' H. exists []. rewrite H, app_nil_r. split; [reflexivity|constructor]. }
  assert (T : forall i k n c, (progress_of s i = Some (WantsShell k) \/ exists c, progress_of s i = Some (Talking k c)) ->
    exists l, ss_sent (talk_on sk i k n c s) = ss_sent s ++ l /\ sent_step lg e s l).
  { intros i k n c Hp. eexists. rewrite talk_sent. split; [reflexivity|]. destruct (is_up s k) eqn:U; [|constructor]. apply sn_lines; [exact (is_up_stage _ _ U)|exact Hp]. }
  destruct e as [i ts|k0|k0 x|k0 fp|k0|i|i yes|i data|k0]; cbn [happen].
  - apply N. unfold ask. destruct (aget i (ss_reqs s)); [reflexivity|]. unfold choose.
    set (s1 := mkSession _ _ _ _ _ _).
    change (ss_sent s) with (ss_sent s1).
    destruct (sk_keeps sk) as [|looks]; [apply sent_dial|]. destruct (ss_kept s1) as [k1|]; [|apply sent_dial].
    destruct (looks && stopped s1 k1); [apply sent_dial|]. apply sent_set_progress.
  - apply N. destruct (aget k0 (ss_wires s)) as [[[] j]|]; try reflexivity. apply sent_set_stage.
  - apply N. destruct (aget k0 (ss_wires s)) as [[[] j]|]; try reflexivity. rewrite sent_set_progress. apply sent_set_stage.
  - unfold host_key. destruct (aget k0 (ss_wires s)) as [[[] j]|] eqn:E; try (apply N; reflexivity).
    + destruct (verify_host_key lg fp) eqn:V; [|apply N, sent_set_stage]. apply mem_In in V.
      destruct (offer lg) as [c|] eqn:O; [|apply N; rewrite sent_set_progress; apply sent_set_stage].
      exists [Offered k0 c]. rewrite sent_leaves, sent_set_stage. split; [reflexivity|]. apply sn_offer with fp; auto.
      rewrite stage_wire. unfold wire. rewrite E. reflexivity.
    + destruct (verify_host_key lg fp); apply N; [reflexivity|apply sent_set_stage].
    + destruct (verify_host_key lg fp); apply N; [reflexivity|apply sent_set_stage].
  - apply N. unfold logged_in. destruct (aget k0 (ss_wires s)) as [[[] j]|]; try reflexivity. destruct (offer lg); [|reflexivity]. cbv zeta.
    destruct (sk_keeps sk); cbn [ss_sent]; rewrite sent_set_progress; apply sent_set_stage.
  - apply N. unfold channel_open. destruct (progress_of s i) as [[|k1| | | | |]|]; try reflexivity. destruct (is_up s k1); [|reflexivity].
    destruct (sk_locks sk); [destruct (ss_lock s)|]; rewrite sent_set_progress; reflexivity.
  - unfold shell. destruct (aget i (ss_reqs s)) as [[ts [| | |k1| | |]]|] eqn:E; try (apply N; reflexivity). destruct yes; [apply T|apply N, finish_sent].
    left. rewrite progress_req. unfold req. rewrite E. reflexivity.
  - unfold arrived. destruct (progress_of s i) as [[| | | |k1 c| |]|] eqn:E; try (apply N; reflexivity). destruct (is_up s k1); [|apply N; reflexivity].
    destruct (data_received _ _ _ _); [apply T; right; eauto|apply N, sent_set_stage].
  - apply N. destruct (stage_of s k0) as [[]|]; try reflexivity; apply sent_set_stage.
Qed.

(** * Runs *)
Lemma run_snoc sk lg b es e : session_run sk lg b (es ++ [e]) = happen sk lg b (session_run sk lg b es) e.
Proof. unfold session_run. rewrite fold_left_app. reflexivity. Qed.
Lemma run_app sk lg b es es' : session_run sk lg b (es ++ es') = fold_left (happen sk lg b) es' (session_run sk lg b es).
Proof. unfold session_run. apply fold_left_app. Qed.

Definition past_key (x : option stage) : bool := match x with Some LoggingIn | Some Up => true | _ => false end.

Lemma key_first sk lg b es k :
  (past_key (stage_of (session_run sk lg b es) k) = true \/ sent_on k (ss_sent (session_run sk lg b es)) <> []) ->
  exists fp, In (HostKey k fp) es /\ In fp (lg_fingerprints lg).
Proof.
  induction es as [|e es IH] using rev_ind; [intros [H|H]; [discriminate|elim H; reflexivity]|].
  assert (U : (past_key (stage_of (session_run sk lg b es) k) = true \/ sent_on k (ss_sent (session_run sk lg b es)) <> []) ->
    exists fp, In (HostKey k fp) (es ++ [e]) /\ In fp (lg_fingerprints lg)).
  { intros H. destruct (IH H) as (fp & A & B). exists fp. split; [apply in_or_app; left; exact A|exact B]. }
  clear IH. rewrite run_snoc. set (s := session_run sk lg b es) in *. intros [H|H].
  - destruct (happen_stage sk lg b s e k); try discriminate; [apply U; left; exact H| |apply U; left; reflexivity].
    exists fp. split; [apply in_or_app; right; left; exact H0|exact H1].
  - destruct (happen_sent sk lg b s e) as (l & E & N). rewrite E in H. unfold sent_on in H. rewrite filter_app in H.
    destruct N as [|k' fp c He Hf Ho Hs|k' i l Hs _].
    + apply U. right. rewrite app_nil_r in H. exact H.
    + cbn [filter on_wire] in H. destruct (Nat.eqb_spec k' k) as [->|].
      * exists fp. split; [apply in_or_app; right; left; exact He|exact Hf].
      * apply U. right. rewrite app_nil_r in H. exact H.
    + destruct (Nat.eq_dec k' k) as [->|Hn]; [apply U; left; rewrite Hs; reflexivity|].
      apply U. right. intros E0. apply H. unfold sent_on in E0. rewrite E0. cbn [app]. clear - Hn.
      induction l as [|x r IH]; [reflexivity|]. cbn [map filter on_wire]. apply Nat.eqb_neq in Hn. rewrite Hn. exact IH.
Qed.

Definition wrote_on (k : nat) (x : sent) : bool := match x with Wrote k' _ _ => Nat.eqb k' k | Offered _ _ => false end.
Lemma login_first sk lg b es k :
  (stage_of (session_run sk lg b es) k = Some Up \/ (exists i l, In (Wrote k i l) (ss_sent (session_run sk lg b es)))) -> In (LoggedIn k) es.
Proof.
  induction es as [|e es IH] using rev_ind; [intros [H|(i & l & [])]; discriminate|].
  rewrite run_snoc. set (s := session_run sk lg b es) in *. intros H. apply in_or_app.
  assert (U : stage_of s k = Some Up \/ (exists i l, In (Wrote k i l) (ss_sent s)) -> In (LoggedIn k) es \/ In (LoggedIn k) [e]) by (intros X; left; exact (IH X)).
  destruct H as [H|(i & l & H)].
  - destruct (happen_stage sk lg b s e k) as [| | | |c He| ]; try discriminate; [apply U; left; exact H|]. right. left. exact He.
  - destruct (happen_sent sk lg b s e) as (l' & E & N). rewrite E in H. apply in_app_or in H as [H|H]; [apply U; right; eauto|].
    destruct N as [|k' fp c He Hf Ho Hs|k' i' l' Hs _]; [destruct H|destruct H as [H|[]]; discriminate|].
    apply in_map_iff in H as (y & E1 & _). injection E1 as -> -> ->. apply U. left. exact Hs.
Qed.

(** a connection that is gone stays so, and nothing more leaves on it *)
Lemma gone_step sk lg b s e k : stage_of s k = Some Gone ->
  stage_of (happen sk lg b s e) k = Some Gone /\ sent_on k (ss_sent (happen sk lg b s e)) = sent_on k (ss_sent s).
Proof.
  intros H. split.
  - pose proof (happen_stage sk lg b s e k) as T. rewrite H in T. inversion T; reflexivity.
  - destruct (happen_sent sk lg b s e) as (l & E & N). rewrite E. unfold sent_on. rewrite filter_app.
    destruct N as [|k' fp c He Hf Ho Hs|k' i l Hs _].
    + apply app_nil_r.
    + cbn [filter on_wire]. destruct (Nat.eqb_spec k' k) as [->|]; [congruence|apply app_nil_r].
    + assert (Hn : k' <> k) by congruence. apply Nat.eqb_neq in Hn. rewrite <- (app_nil_r (filter _ (ss_sent s))) at 2. f_equal. clear - Hn.
      induction l as [|x r IH]; [reflexivity|]. cbn [map filter on_wire]. rewrite Hn. exact IH.
Qed.
Lemma gone_for_good sk lg b es : forall s k, stage_of s k = Some Gone ->
  stage_of (fold_left (happen sk lg b) es s) k = Some Gone /\ sent_on k (ss_sent (fold_left (happen sk lg b) es s)) = sent_on k (ss_sent s).
Proof.
  induction es as [|e es IH]; intros s k H; [auto|]. cbn [fold_left]. destruct (gone_step sk lg b s e k H) as [A B].
  destruct (IH _ _ A) as [C D]. split; [exact C|]. rewrite D. exact B.
Qed.
Lemma refused_key sk lg b s k fp x : stage_of s k = Some x -> x <> Dialing -> ~ In fp (lg_fingerprints lg) ->
  stage_of (happen sk lg b s (HostKey k fp)) k = Some Gone /\ ss_sent (happen sk lg b s (HostKey k fp)) = ss_sent s.
Proof.
  intros H Hd Hf. cbn [happen]. unfold host_key. assert (V : verify_host_key lg fp = false).
  { unfold verify_host_key. destruct (mem fp (lg_fingerprints lg)) eqn:E; [apply mem_In in E; contradiction|reflexivity]. }
  rewrite V. rewrite stage_wire in H. unfold wire in H. destruct (aget k (ss_wires s)) as [[y j]|] eqn:E; [|discriminate]. injection H as ->.
  assert (G : stage_of (set_stage k Gone s) k = Some Gone /\ ss_sent (set_stage k Gone s) = ss_sent s).
  { rewrite stage_set_stage, eqb_refl, sent_set_stage, stage_wire. unfold wire. rewrite E. auto. }
  destruct x; try exact G; [congruence|]. rewrite stage_wire. unfold wire. rewrite E. auto.
Qed.

(** What leaves on a connection: first the credentials, then lines. *)
Definition only_lines (l : list sent) : Prop := forall x, In x l -> match x with Wrote _ _ _ => True | Offered _ _ => False end.
Lemma offer_spec lg c : offer lg = Ok c <-> configured lg c.
Proof.
  unfold offer, given. split.
  - destruct (lg_public lg) as [p|] eqn:P; [destruct (eqb_ok p "") as [Ep|Ep]|]; (destruct (lg_private lg) as [q|] eqn:Q; [destruct (eqb_ok q "") as [Eq|Eq]|]);
      (destruct (lg_password lg) as [w|] eqn:W; [destruct (eqb_ok w "") as [Ew|Ew]|]); intros [= <-]; try (apply by_password; [intros a b Ha Hb; rewrite ?P, ?Q in *; try discriminate; injection Ha as <-; injection Hb as <-; auto|exact W|exact Ew]);
      apply by_keys; auto.
  - intros [p q P Q Hp Hq|w H W Hw].
    + rewrite P, Q. rewrite (eqb_neq p "") by exact Hp. rewrite (eqb_neq q "") by exact Hq. reflexivity.
    + rewrite W, (eqb_neq w "") by exact Hw. destruct (lg_public lg) as [p|]; [|reflexivity]. destruct (eqb_ok p "") as [|Hp]; [reflexivity|].
      destruct (lg_private lg) as [q|]; [|reflexivity]. destruct (eqb_ok q "") as [|Hq]; [reflexivity|].
      destruct (H p q eq_refl eq_refl); contradiction.
Qed.
Lemma accepted_key sk lg b s k fp c : stage_of s k = Some Unproved -> In fp (lg_fingerprints lg) -> offer lg = Ok c ->
  stage_of (happen sk lg b s (HostKey k fp)) k = Some LoggingIn /\ ss_sent (happen sk lg b s (HostKey k fp)) = ss_sent s ++ [Offered k c].
Proof.
  intros H Hf Ho. cbn [happen]. unfold host_key. assert (V : verify_host_key lg fp = true) by (apply mem_In; exact Hf).
  rewrite V, Ho. rewrite stage_wire in H. unfold wire in H. destruct (aget k (ss_wires s)) as [[y j]|] eqn:E; [|discriminate]. injection H as ->.
  rewrite stage_leaves, sent_leaves, stage_set_stage, sent_set_stage, eqb_refl, stage_wire. unfold wire. rewrite E. auto.
Qed.
Definition shape (lg : login) (k : nat) (l : list sent) : Prop := l = [] \/ exists c r, l = Offered k c :: r /\ configured lg c /\ only_lines r.
Lemma shape_inv sk lg b es k : let s := session_run sk lg b es in
  match stage_of s k with
  | None | Some Dialing | Some Unproved => sent_on k (ss_sent s) = []
  | Some LoggingIn => shape lg k (sent_on k (ss_sent s)) /\ (forall c, offer lg = Ok c -> sent_on k (ss_sent s) <> [])
  | Some Up => shape lg k (sent_on k (ss_sent s)) /\ sent_on k (ss_sent s) <> []
  | Some Gone => shape lg k (sent_on k (ss_sent s))
  end.
Proof.
  induction es as [|e es IH] using rev_ind; [reflexivity|]. cbv zeta in *. rewrite run_snoc. set (s := session_run sk lg b es) in *.
  pose proof (happen_stage sk lg b s e k) as T.
  assert (Pr : forall fp c, e = HostKey k fp -> In fp (lg_fingerprints lg) -> offer lg = Ok c -> stage_of s k = Some Unproved ->
    stage_of (happen sk lg b s e) k = Some LoggingIn /\ ss_sent (happen sk lg b s e) = ss_sent s ++ [Offered k c]).
  { intros fp c -> Hf Ho Hs. exact (accepted_key sk lg b s k fp c Hs Hf Ho). }
  destruct (happen_sent sk lg b s e) as (l & E & N). set (s' := happen sk lg b s e) in *. clearbody s' s.
  assert (E' : sent_on k (ss_sent s') = sent_on k (ss_sent s) ++ sent_on k l) by (rewrite E; apply filter_app).
  assert (Sh0 : sent_on k (ss_sent s) = [] -> shape lg k (sent_on k (ss_sent s))) by (intros ->; left; reflexivity).
  assert (L : sent_on k l = [] \/
     (exists c fp, sent_on k l = [Offered k c] /\ e = HostKey k fp /\ In fp (lg_fingerprints lg) /\ offer lg = Ok c /\ stage_of s k = Some Unproved) \/
     (only_lines (sent_on k l) /\ stage_of s k = Some Up)).
  { destruct N as [|k' fp c He Hf Ho Hs|k' i l Hs _]; [left; reflexivity| |].
    - unfold sent_on. cbn [filter on_wire]. destruct (Nat.eqb_spec k' k) as [->|]; [right; left; exists c, fp; auto|left; reflexivity].
    - destruct (Nat.eq_dec k' k) as [->|Hn]; [right; right; split; [|exact Hs]|left].
      + intros x Hx. apply filter_In in Hx as [Hx _]. apply in_map_iff in Hx as (y & <- & _). exact I.
      + apply Nat.eqb_neq in Hn. unfold sent_on. clear - Hn. induction l as [|x r IHl]; [reflexivity|]. cbn [map filter on_wire]. rewrite Hn. apply IHl. }
  destruct L as [L|[(c & fp & L & He & Hf & Ho & Hs)|[L Hs]]].
  - rewrite E', L, app_nil_r. inversion T as [x E1 E2|E1 E2|He E1 E2|fp He Hf E1 E2|c He Ho E1 E2|x E1 E2]; rewrite <- E1 in IH.
    + rewrite <- E1. exact IH.
    + exact IH.
    + exact IH.
    + split; [auto|]. intros c Ho. destruct (Pr fp c He Hf Ho (eq_sym E1)) as [_ Q]. exfalso.
      rewrite E in Q. apply app_inv_head in Q. subst l. unfold sent_on in L. cbn [filter on_wire] in L. rewrite Nat.eqb_refl in L. discriminate.
    + split; [apply IH|]. exact (proj2 IH c Ho).
    + destruct x; try apply Sh0, IH; try apply IH; exact IH.
  - destruct (Pr fp c He Hf Ho Hs) as [Q _]. rewrite Q, E', L. rewrite Hs in IH. rewrite IH.
    split; [right; exists c, []; split; [reflexivity|split; [apply offer_spec; exact Ho|intros x []]]|]. intros _ _. discriminate.
  - rewrite Hs in IH, T. destruct IH as [[IH|(c & r & IH & Hc & Hr)] Hne]; [contradiction|].
    assert (Sh : shape lg k (sent_on k (ss_sent s'))).
    { right. exists c, (r ++ sent_on k l). rewrite E', IH. split; [reflexivity|]. split; [exact Hc|].
      intros x Hx. apply in_app_or in Hx as [Hx|Hx]; [exact (Hr x Hx)|exact (L x Hx)]. }
    inversion T as [x E1 E2|E1 E2|He' E1 E2|fp' He' Hf' E1 E2|c' He' Ho' E1 E2|x E1 E2]; [|exact Sh].
    split; [exact Sh|]. rewrite E', IH. discriminate.
Qed.
Lemma shape_run sk lg b es k : shape lg k (sent_on k (ss_sent (session_run sk lg b es))).
Proof.
  pose proof (shape_inv sk lg b es k) as H. cbv zeta in H. destruct (stage_of _ k) as [[]|]; try (left; exact H); try apply H; exact H.
Qed.
