(** Proofs about sessions with a device: requests. *)
From Verif Require Import Base BaseProofs ModelChannel SpecChannel ProofsChannel ModelSession SpecSession ProofsSession.
Open Scope Z_scope.

Definition young (lg : login) (x : stage) : Prop := x = Dialing \/ x = Unproved \/ x = LoggingIn /\ exists c, offer lg = Ok c.
Definition settled (s : session) (k : nat) : Prop := stage_of s k = Some Up \/ stage_of s k = Some Gone.
Definition place (p : progress) : option nat :=
  match p with WantsChannel k | WantsLock k | WantsShell k | Talking k _ => Some k | _ => None end.
Definition lines_ok (s : session) (i : nat) (r : option (list turn * progress)) : Prop :=
  let w := written i (ss_sent s) in
  match r with
  | Some (_, Talking k c) => (forall x, In x w -> fst x = k) /\ beginning (map snd w) (ch_sent c) /\ (stage_of s k = Some Up -> map snd w = ch_sent c)
  | Some (ts, Succeeded) => (exists k, forall x, In x w -> fst x = k) /\ beginning (map snd w) (all_lines ts) /\ (waits ts -> map snd w = all_lines ts)
  | _ => w = []
  end.
Record fair (P : nat -> Prop) (lg : login) (s : session) : Prop := mkFair {
  f_fresh : forall k, wire s k <> None -> (k < List.length (ss_wires s))%nat;
  f_young : forall k x i, wire s k = Some (x, i) -> young lg x -> exists ts, req s i = Some (ts, WantsWire k);
  f_wants : forall i ts k, req s i = Some (ts, WantsWire k) -> exists x, wire s k = Some (x, i) /\ x <> Up;
  f_kept : forall k, ss_kept s = Some k -> settled s k;
  f_placed : forall i ts p k, req s i = Some (ts, p) -> place p = Some k -> settled s k;
  f_chan : forall i ts k c, req s i = Some (ts, Talking k c) -> ch_done c = false /\ exists pre, at_turn ts c pre;
  f_lines : forall i, P i -> lines_ok s i (req s i) }.
Definition good := fair (fun _ => True).

Lemma fair_stage P lg k x s : fair P lg s ->
  (forall y i, wire s k = Some (y, i) -> (young lg x -> young lg y) /\ x <> Up /\ (y = Up \/ y = Gone -> x = Gone)) -> fair P lg (set_stage k x s).
Proof.
  intros [F1 F2 F3 F4 F5 F6 F7] H.
  assert (Se : forall k', settled s k' -> settled (set_stage k x s) k').
  { intros k' X. unfold settled. rewrite stage_set_stage. destruct (eqb_ok k' k) as [->|]; [|exact X].
    unfold settled in X. rewrite stage_wire in *. destruct (wire s k) as [[y i]|] eqn:E; [|destruct X; discriminate].
    destruct (H y i eq_refl) as (_ & _ & H3). right. cbn. rewrite H3; [reflexivity|]. cbn in X. destruct X as [[= ->]|[= ->]]; auto. }
  split.
  - intros k'. rewrite wire_set_stage, len_set_stage. destruct (eqb_ok k' k) as [->|]; [|apply F1].
    intros X. apply F1. destruct (wire s k); congruence.
  - intros k' y i. rewrite wire_set_stage, req_set_stage. destruct (eqb_ok k' k) as [->|]; [|apply F2].
    destruct (wire s k) as [[z j]|] eqn:E; [|discriminate]. intros [= <- <-] Y. apply (F2 _ _ _ E). apply (H z j eq_refl). exact Y.
  - intros i ts k'. rewrite req_set_stage, wire_set_stage. intros X. destruct (F3 _ _ _ X) as (y & W & U).
    destruct (eqb_ok k' k) as [->|]; [|eauto]. rewrite W. exists x. split; [reflexivity|]. apply (H y i W).
  - intros k'. rewrite kept_set_stage. intros X. apply Se, F4, X.
  - intros i ts p k'. rewrite req_set_stage. intros X Y. apply Se. exact (F5 _ _ _ _ X Y).
  - intros i ts k' c. rewrite req_set_stage. apply F6.
  - intros i Pi. specialize (F7 i Pi). rewrite req_set_stage. unfold lines_ok in *. rewrite sent_set_stage.
    destruct (req s i) as [[ts [| | | |k' c| |]]|]; try exact F7. destruct F7 as (A & B & C). split; [exact A|]. split; [exact B|].
    rewrite stage_set_stage. destruct (eqb_ok k' k) as [->|]; [|exact C]. rewrite stage_wire. destruct (wire s k) as [[y j]|] eqn:E; [|discriminate].
    cbn. intros [= ->]. destruct (H y j eq_refl) as (_ & U & _). elim U. reflexivity.
Qed.
Lemma fair_gone P lg k s : fair P lg s -> fair P lg (set_stage k Gone s).
Proof. intros F. apply fair_stage; [exact F|]. intros y i _. split; [intros [|[|[? _]]]; discriminate|]. split; [discriminate|reflexivity]. Qed.

Lemma fair_progress (P : nat -> Prop) lg i p s ts p0 : fair P lg s -> (forall j, j <> i -> P j) -> req s i = Some (ts, p0) ->
  (forall k x, wire s k = Some (x, i) -> ~ young lg x) -> (forall k, p <> WantsWire k) ->
  (forall k, place p = Some k -> settled s k) ->
  (forall k c, p = Talking k c -> ch_done c = false /\ exists pre, at_turn ts c pre) ->
  lines_ok s i (Some (ts, p)) -> good lg (set_progress i p s).
Proof.
  intros [F1 F2 F3 F4 F5 F6 F7] HP R Y NW Pl Ch L.
  assert (Rq : forall j, req (set_progress i p s) j = if eqb j i then Some (ts, p) else req s j) by (intros j; rewrite req_set_progress, R; reflexivity).
  assert (Se : forall k', settled s k' -> settled (set_progress i p s) k') by (intros k'; unfold settled; rewrite stage_set_progress; auto).
  split.
  - intros k. rewrite wire_set_progress, len_set_progress. apply F1.
  - intros k x j. rewrite wire_set_progress, Rq. intros W Yx. destruct (eqb_ok j i) as [->|]; [elim (Y k x W Yx)|exact (F2 _ _ _ W Yx)].
  - intros j tj k. rewrite wire_set_progress, Rq. destruct (eqb_ok j i) as [->|]; [intros [= _ E]; elim (NW k E)|apply F3].
  - intros k. rewrite kept_set_progress. intros X. apply Se, F4, X.
  - intros j tj pj k. rewrite Rq. destruct (eqb_ok j i) as [->|]; [intros [= <- <-] X; apply Se, Pl, X|]. intros A B. exact (Se _ (F5 _ _ _ _ A B)).
  - intros j tj k c. rewrite Rq. destruct (eqb_ok j i) as [->|]; [intros [= <- E]; exact (Ch _ _ E)|apply F6].
  - intros j _. rewrite Rq. unfold lines_ok. rewrite sent_set_progress.
    assert (St : forall k, stage_of (set_progress i p s) k = stage_of s k) by (intros; apply stage_set_progress).
    destruct (eqb_ok j i) as [->|Hn].
    + unfold lines_ok in L. destruct p; rewrite ?St; exact L.
    + specialize (F7 j (HP j Hn)). unfold lines_ok in F7. destruct (req s j) as [[tj [| | | | | |]]|]; rewrite ?St; exact F7.
Qed.

Lemma good_all P lg s : good lg s -> fair P lg s.
Proof. intros [F1 F2 F3 F4 F5 F6 F7]. split; auto. Qed.

(** no connection is being made for a request that does not wait for one *)
Lemma no_young P lg s i ts p : fair P lg s -> req s i = Some (ts, p) -> (forall k, p <> WantsWire k) -> forall k x, wire s k = Some (x, i) -> ~ young lg x.
Proof. intros F R N k x W Y. destruct (f_young _ _ _ F _ _ _ W Y) as (t & E). rewrite R in E. injection E as _ E. exact (N k E). Qed.

Lemma good_new lg i ts s : good lg s -> req s i = None ->
  good lg (mkSession (ss_wires s) (ss_reqs s ++ [(i, (ts, Failed EFuel))]) (ss_kept s) (ss_lock s) (ss_queue s) (ss_sent s)).
Proof.
  intros [F1 F2 F3 F4 F5 F6 F7] N. set (s1 := mkSession _ _ _ _ _ _).
  assert (R : forall j, req s1 j = match req s j with Some x => Some x | None => if eqb j i then Some (ts, Failed EFuel) else None end)
    by (intros j; unfold req, s1; cbn [ss_reqs]; apply aget_snoc).
  split; try assumption.
  - intros k x j W Y. destruct (F2 _ _ _ W Y) as (t & E). exists t. rewrite R, E. reflexivity.
  - intros j t k. rewrite R. destruct (req s j) as [[tj pj]|] eqn:E; [intros [= -> ->]; exact (F3 _ _ _ E)|]. destruct (eqb j i); discriminate.
  - intros j t p k. rewrite R. destruct (req s j) as [[tj pj]|] eqn:E; [intros [= -> ->]; exact (F5 _ _ _ _ E)|]. destruct (eqb j i); [intros [= _ <-]; discriminate|discriminate].
  - intros j t k c. rewrite R. destruct (req s j) as [[tj pj]|] eqn:E; [intros [= -> ->]; exact (F6 _ _ _ _ E)|]. destruct (eqb j i); discriminate.
  - intros j _. rewrite R. specialize (F7 j I). unfold lines_ok in *. destruct (req s j) as [[tj pj]|]; [exact F7|]. destruct (eqb j i); exact F7.
Qed.

Lemma fresh_none lg s : good lg s -> wire s (List.length (ss_wires s)) = None.
Proof. intros F. destruct (wire s (List.length (ss_wires s))) eqn:E; [|reflexivity]. pose proof (f_fresh _ _ _ F (List.length (ss_wires s))) as X. rewrite E in X. specialize (X ltac:(discriminate)). lia. Qed.

Lemma good_dial lg i ts e s : good lg s -> req s i = Some (ts, Failed e) -> good lg (dial i s).
Proof.
  intros F R. pose proof (fresh_none _ _ F) as Fn. pose proof (no_young _ _ _ _ _ _ F R ltac:(discriminate)) as NY. destruct F as [F1 F2 F3 F4 F5 F6 F7].
  set (n := List.length (ss_wires s)) in *.
  assert (Rq : forall j, req (dial i s) j = if eqb j i then Some (ts, WantsWire n) else req s j) by (intros j; rewrite req_dial, R; reflexivity).
  assert (Wi : forall k, wire (dial i s) k = if eqb k n then Some (Dialing, i) else wire s k).
  { intros k. rewrite wire_dial. fold n. destruct (eqb_ok k n) as [->|]; [rewrite Fn; reflexivity|]. destruct (wire s k); reflexivity. }
  assert (Se : forall k, settled s k -> settled (dial i s) k).
  { intros k. unfold settled. rewrite !stage_wire, Wi. destruct (eqb_ok k n) as [->|]; [|auto]. rewrite Fn. cbn. intros [|]; discriminate. }
  split.
  - intros k. rewrite Wi, len_dial. fold n. destruct (eqb_ok k n) as [->|]; [intros _; lia|]. intros X. specialize (F1 _ X). fold n in F1. lia.
  - intros k x j. rewrite Wi, Rq. destruct (eqb_ok k n) as [->|].
    + intros [= <- <-] _. rewrite eqb_refl. eauto.
    + intros W Y. destruct (eqb_ok j i) as [->|]; [elim (NY _ _ W Y)|exact (F2 _ _ _ W Y)].
  - intros j tj k. rewrite Wi, Rq. destruct (eqb_ok j i) as [->|].
    + intros [= <- <-]. rewrite eqb_refl. exists Dialing. split; [reflexivity|discriminate].
    + intros X. destruct (F3 _ _ _ X) as (x & W & U). destruct (eqb_ok k n) as [->|]; [congruence|eauto].
  - intros k. rewrite kept_dial. intros X. apply Se, F4, X.
  - intros j tj p k. rewrite Rq. destruct (eqb_ok j i) as [->|]; [intros [= _ <-]; discriminate|]. intros A B. exact (Se _ (F5 _ _ _ _ A B)).
  - intros j tj k c. rewrite Rq. destruct (eqb_ok j i) as [->|]; [discriminate|apply F6].
  - intros j _. rewrite Rq. specialize (F7 j I). destruct (eqb_ok j i) as [->|].
    + rewrite R in F7. unfold lines_ok in *. rewrite sent_dial. exact F7.
    + unfold lines_ok in *. rewrite sent_dial. destruct (req s j) as [[tj [| | | |k c| |]]|] eqn:E; try exact F7. destruct F7 as (A & B & C).
      split; [exact A|]. split; [exact B|]. intros X. apply C. rewrite !stage_wire, Wi in *. destruct (eqb_ok k n) as [->|]; [discriminate|exact X].
Qed.

Lemma good_release lg s : good lg s -> good lg (release_lock s).
Proof.
  intros F. unfold release_lock. destruct (ss_queue s) as [|j r]; [destruct F; split; assumption|]. cbv zeta.
  set (s1 := mkSession _ _ _ _ _ _). assert (F1 : good lg s1) by (destruct F; split; assumption). rewrite progress_req.
  destruct (req s1 j) as [[ts [| |k| | | |]]|] eqn:E; cbn [option_map snd]; try exact F1.
  apply (fair_progress (fun _ => True) lg j (WantsShell k) s1 ts (WantsLock k)); auto.
  - exact (no_young _ _ _ _ _ _ F1 E ltac:(discriminate)).
  - discriminate.
  - intros k' [= <-]. exact (f_placed _ _ _ F1 _ _ _ _ E eq_refl).
  - discriminate.
  - pose proof (f_lines _ _ _ F1 j I) as L. rewrite E in L. exact L.
Qed.

(** * Talking *)
Lemma written_app i a b : written i (a ++ b) = written i a ++ written i b. Proof. apply flat_map_app. Qed.
Lemma written_lines i j k l : written i (map (Wrote k j) l) = if Nat.eqb j i then map (pair k) l else [].
Proof.
  induction l as [|x r IH]; [destruct (Nat.eqb j i); reflexivity|]. cbn [map]. unfold written in *. cbn [flat_map]. rewrite IH.
  destruct (Nat.eqb j i); reflexivity.
Qed.
Lemma go_on_done ts : forall buf sent, ch_done (go_on buf sent ts) = true -> ~ waits ts.
Proof.
  induction ts as [|t r IH]; intros buf sent H (t' & [] & W).
  - subst t'. cbn [go_on] in H. destruct (tn_wait t); [discriminate|congruence].
  - cbn [go_on] in H. destruct (tn_wait t); [discriminate|]. apply (IH _ _ H). exists t'. auto.
Qed.
Lemma at_begin ts : exists pre, at_turn ts (begin ts) pre.
Proof. unfold begin. destruct (go_on_at ts [] ts "" eq_refl) as (pre & A & _). exists pre. exact A. Qed.
Lemma at_done ts c pre : at_turn ts c pre -> ch_done c = true -> ch_sent c = all_lines ts.
Proof.
  intros (A & B & [(_ & _ & L)|(w & p & t & _ & D & _)]) H; [|congruence]. rewrite L, app_nil_r in A. subst pre. exact B.
Qed.
Lemma at_beginning ts c pre : at_turn ts c pre -> beginning (ch_sent c) (all_lines ts).
Proof. intros (A & B & _). rewrite B, A. unfold all_lines. rewrite flat_map_app. exists (lines_of (ch_left c)). reflexivity. Qed.
Lemma beginning_skip {A} (a b : list A) : beginning a b -> a ++ skipn (List.length a) b = b.
Proof. intros [r ->]. rewrite skipn_app, skipn_all, Nat.sub_diag. reflexivity. Qed.

Lemma good_finish sk lg i k x s ts p0 (P : nat -> Prop) : fair P lg s -> (forall j, j <> i -> P j) -> req s i = Some (ts, p0) -> (forall k, p0 <> WantsWire k) ->
  (forall k, x <> WantsWire k) -> place x = None -> lines_ok s i (Some (ts, x)) -> good lg (finish sk i k x s).
Proof.
  intros F HP R NW NX Pl L. unfold finish. cbv zeta.
  assert (G : good lg (set_progress i x s)).
  { apply (fair_progress P lg i x s ts p0); auto; [exact (no_young _ _ _ _ _ _ F R NW)| |]; intros; subst; discriminate || congruence. }
  assert (G2 : good lg (match sk_keeps sk with EachTime => set_stage k Gone (set_progress i x s) | Kept _ => set_progress i x s end)).
  { destruct (sk_keeps sk); [apply fair_gone; exact G|exact G]. }
  destruct (sk_locks sk); [apply good_release; exact G2|exact G2].
Qed.

Lemma good_talk sk lg i k n c s ts p0 pre : good lg s -> req s i = Some (ts, p0) -> (forall k, p0 <> WantsWire k) -> settled s k ->
  at_turn ts c pre ->
  (forall x, In x (written i (ss_sent s)) -> fst x = k) ->
  beginning (map snd (written i (ss_sent s))) (ch_sent c) ->
  (is_up s k = true -> map snd (written i (ss_sent s)) ++ skipn n (ch_sent c) = ch_sent c) ->
  (is_up s k = false -> ch_done c = true -> ~ waits ts) ->
  good lg (talk_on sk i k n c s).
Proof.
  intros G R NW Se At Wk Bg Hu Hd. unfold talk_on. cbv zeta.
  set (s1 := if is_up s k then _ else s).
  assert (W1 : written i (ss_sent s1) = written i (ss_sent s) ++ if is_up s k then map (pair k) (skipn n (ch_sent c)) else []).
  { unfold s1. destruct (is_up s k); [|rewrite app_nil_r; reflexivity]. rewrite sent_leaves, written_app, written_lines, Nat.eqb_refl. reflexivity. }
  assert (Wo : forall j, j <> i -> written j (ss_sent s1) = written j (ss_sent s)).
  { intros j Hj. unfold s1. destruct (is_up s k); [|reflexivity]. rewrite sent_leaves, written_app, written_lines.
    destruct (Nat.eqb_spec i j); [congruence|]. apply app_nil_r. }
  assert (S1 : forall k', stage_of s1 k' = stage_of s k') by (intros k'; unfold s1; destruct (is_up s k); reflexivity).
  assert (R1 : forall j, req s1 j = req s j) by (intros j; unfold s1; destruct (is_up s k); reflexivity).
  assert (F : fair (fun j => j <> i) lg s1).
  { assert (Wr : forall k, wire s1 k = wire s k) by (intros k'; unfold s1; destruct (is_up s k); reflexivity).
    assert (Ln : ss_wires s1 = ss_wires s) by (unfold s1; destruct (is_up s k); reflexivity).
    assert (Kp : ss_kept s1 = ss_kept s) by (unfold s1; destruct (is_up s k); reflexivity).
    destruct G as [F1 F2 F3 F4 F5 F6 F7]. split.
    - intros k'. rewrite Wr, Ln. apply F1.
    - intros k' x j. rewrite Wr, R1. apply F2.
    - intros j t k'. rewrite Wr, R1. apply F3.
    - intros k'. rewrite Kp. unfold settled. rewrite S1. apply F4.
    - intros j t p k'. rewrite R1. unfold settled. rewrite S1. apply F5.
    - intros j t k' c'. rewrite R1. apply F6.
    - intros j Hj. specialize (F7 j I). rewrite R1. unfold lines_ok in *. rewrite (Wo j Hj). destruct (req s j) as [[tj [| | | |k' c'| |]]|]; rewrite ?S1; exact F7. }
  assert (M1 : (is_up s k = true -> map snd (written i (ss_sent s1)) = ch_sent c) /\ beginning (map snd (written i (ss_sent s1))) (ch_sent c)).
  { rewrite W1, map_app. destruct (is_up s k) eqn:U.
    - rewrite map_map. cbn [snd]. rewrite map_id. rewrite (Hu eq_refl). split; [reflexivity|apply beginning_refl].
    - cbn [map]. rewrite app_nil_r. split; [discriminate|exact Bg]. }
  assert (K1 : forall x, In x (written i (ss_sent s1)) -> fst x = k).
  { intros x. rewrite W1. intros X. apply in_app_or in X as [X|X]; [exact (Wk x X)|]. destruct (is_up s k); [|destruct X]. apply in_map_iff in X as (y & <- & _). reflexivity. }
  destruct M1 as [M1 M2]. destruct (ch_done c) eqn:D.
  - apply (good_finish sk lg i k Succeeded s1 ts p0 (fun j => j <> i)); auto; [rewrite R1; exact R|discriminate|].
    unfold lines_ok. split; [exists k; exact K1|]. rewrite <- (at_done _ _ _ At D). split; [exact M2|]. intros Wt.
    destruct (is_up s k) eqn:U; [exact (M1 eq_refl)|]. elim (Hd eq_refl eq_refl Wt).
  - apply (fair_progress (fun j => j <> i) lg i (Talking k c) s1 ts p0); auto.
    + rewrite R1. exact R.
    + apply (no_young _ _ _ i ts p0 F); [rewrite R1; exact R|exact NW].
    + discriminate.
    + intros k' [= <-]. unfold settled. rewrite S1. exact Se.
    + intros k' c' [= <- <-]. split; [exact D|eauto].
    + unfold lines_ok. split; [exact K1|]. split; [exact M2|]. rewrite S1. intros U. apply M1. unfold is_up. rewrite U. reflexivity.
Qed.

(** * Every step *)
Lemma good_step sk lg b s e : good lg s -> good lg (happen sk lg b s e).
Proof.
  intros G. destruct e as [i ts|k0|k0 x|k0 fp|k0|i|i yes|i data|k0]; cbn [happen].
  - unfold ask. destruct (aget i (ss_reqs s)) eqn:E; [exact G|]. pose proof (good_new lg i ts s G E) as G1. unfold choose.
    set (s1 := mkSession _ _ _ _ _ _) in *.
    assert (R1 : req s1 i = Some (ts, Failed EFuel)). { unfold req, s1. cbn [ss_reqs]. rewrite aget_snoc, E, eqb_refl. reflexivity. }
    pose proof (good_dial lg i ts EFuel s1 G1 R1) as D. destruct (sk_keeps sk) as [|looks]; [exact D|]. destruct (ss_kept s1) as [k1|] eqn:K; [|exact D].
    destruct (looks && stopped s1 k1); [exact D|].
    apply (fair_progress (fun _ => True) lg i (WantsChannel k1) s1 ts (Failed EFuel)); auto; try discriminate.
    + exact (no_young _ _ _ _ _ _ G1 R1 ltac:(discriminate)).
    + intros k [= <-]. exact (f_kept _ _ _ G1 _ K).
    + pose proof (f_lines _ _ _ G1 i I) as L. rewrite R1 in L. exact L.
  - destruct (aget k0 (ss_wires s)) as [[[] j]|] eqn:E; try exact G. apply fair_stage; [exact G|]. intros y i W. unfold wire in W. rewrite E in W. injection W as <- <-.
    split; [intros _; left; reflexivity|]. split; [discriminate|intros []; discriminate].
  - destruct (aget k0 (ss_wires s)) as [[[] j]|] eqn:E; try exact G. pose proof (fair_gone _ _ k0 s G) as G1.
    destruct (f_young _ _ _ G _ _ _ E (or_introl eq_refl)) as (ts & R).
    apply (fair_progress (fun _ => True) lg j (Failed x) (set_stage k0 Gone s) ts (WantsWire k0)); auto; try discriminate.
    + rewrite req_set_stage. exact R.
    + intros k y W Y. destruct (f_young _ _ _ G1 _ _ _ W Y) as (t & R2). rewrite req_set_stage, R in R2. injection R2 as _ <-.
      rewrite wire_set_stage, eqb_refl in W. unfold wire in W. rewrite E in W. injection W as <-. destruct Y as [|[|[? _]]]; discriminate.
    + pose proof (f_lines _ _ _ G1 j I) as L. rewrite req_set_stage, R in L. exact L.
  - unfold host_key. destruct (aget k0 (ss_wires s)) as [[[] j]|] eqn:E; try exact G.
    + destruct (verify_host_key lg fp); [|apply fair_gone; exact G].
      assert (Ex : forall y i, wire s k0 = Some (y, i) -> y = Unproved) by (intros y i W; unfold wire in W; rewrite E in W; congruence).
      assert (G1 : good lg (set_stage k0 LoggingIn s)).
      { apply fair_stage; [exact G|]. intros y i W. rewrite (Ex y i W). split; [intros _; right; left; reflexivity|]. split; [discriminate|intros []; discriminate]. }
      destruct (offer lg) as [c|e] eqn:O.
      * destruct G1 as [F1 F2 F3 F4 F5 F6 F7]. split; try assumption. intros i _. specialize (F7 i I). unfold lines_ok in *.
        assert (W0 : written i (ss_sent (leaves [Offered k0 c] (set_stage k0 LoggingIn s))) = written i (ss_sent (set_stage k0 LoggingIn s))).
        { rewrite sent_leaves, written_app. apply app_nil_r. }
        rewrite W0. exact F7.
      * destruct (f_young _ _ _ G _ _ _ E (or_intror (or_introl eq_refl))) as (ts & R).
        apply (fair_progress (fun _ => True) lg j (Failed e) (set_stage k0 LoggingIn s) ts (WantsWire k0)); auto; try discriminate.
        -- rewrite req_set_stage. exact R.
        -- intros k y W Y. destruct (f_young _ _ _ G1 _ _ _ W Y) as (t & R2). rewrite req_set_stage, R in R2. injection R2 as _ <-.
           rewrite wire_set_stage, eqb_refl in W. unfold wire in W. rewrite E in W. injection W as <-. destruct Y as [|[|[_ (c & ?)]]]; congruence.
        -- pose proof (f_lines _ _ _ G1 j I) as L. rewrite req_set_stage, R in L. exact L.
    + destruct (verify_host_key lg fp); [exact G|apply fair_gone; exact G].
    + destruct (verify_host_key lg fp); [exact G|apply fair_gone; exact G].
  - unfold logged_in. destruct (aget k0 (ss_wires s)) as [[[] j]|] eqn:E; try exact G. destruct (offer lg) as [c|] eqn:O; [|exact G]. cbv zeta.
    destruct (f_young _ _ _ G _ _ _ E (or_intror (or_intror (conj eq_refl (ex_intro _ c O))))) as (ts & R).
    set (s1 := set_progress j (WantsChannel k0) (set_stage k0 Up s)).
    assert (Wi : forall k, wire s1 k = if eqb k k0 then Some (Up, j) else wire s k).
    { intros k. unfold s1. rewrite wire_set_progress, wire_set_stage. unfold wire at 1. rewrite E. reflexivity. }
    assert (Rq : forall i, req s1 i = if eqb i j then Some (ts, WantsChannel k0) else req s i).
    { intros i. unfold s1. rewrite req_set_progress, !req_set_stage, R. reflexivity. }
    assert (Sk : settled s1 k0). { left. rewrite stage_wire, Wi, eqb_refl. reflexivity. }
    assert (Se : forall k, settled s k -> settled s1 k).
    { intros k X. destruct (eqb_ok k k0) as [->|N]; [exact Sk|]. unfold settled in *. rewrite !stage_wire, Wi in *. rewrite (eqb_neq k k0 N). exact X. }
    assert (G1 : good lg s1).
    { destruct G as [F1 F2 F3 F4 F5 F6 F7]. split.
      - intros k. rewrite Wi. unfold s1. rewrite len_set_progress, len_set_stage. intros X. apply F1. destruct (eqb_ok k k0) as [E0|]; [|exact X]. rewrite E0. unfold wire. rewrite E. discriminate.
      - intros k x i. rewrite Wi, Rq. destruct (eqb_ok k k0) as [->|N].
        + intros [= <- <-] [|[|[? _]]]; discriminate.
        + intros W Y. destruct (F2 _ _ _ W Y) as (t & R2). destruct (eqb_ok i j) as [->|]; [congruence|eauto].
      - intros i t k. rewrite Wi, Rq. destruct (eqb_ok i j) as [->|N]; [discriminate|]. intros X. destruct (F3 _ _ _ X) as (x & W & U).
        destruct (eqb_ok k k0) as [->|]; [|eauto]. unfold wire in W. rewrite E in W. congruence.
      - intros k. unfold s1. rewrite kept_set_progress, kept_set_stage. fold s1. intros X. apply Se, F4, X.
      - intros i t p k. rewrite Rq. destruct (eqb_ok i j) as [->|N]; [intros [= _ <-] [= <-]; exact Sk|]. intros A B. exact (Se _ (F5 _ _ _ _ A B)).
      - intros i t k c'. rewrite Rq. destruct (eqb_ok i j); [discriminate|apply F6].
      - intros i _. rewrite Rq. specialize (F7 i I). destruct (eqb_ok i j) as [->|N].
        + rewrite R in F7. unfold lines_ok, s1 in *. rewrite sent_set_progress, sent_set_stage. exact F7.
        + unfold lines_ok in *. replace (ss_sent s1) with (ss_sent s) by (unfold s1; rewrite sent_set_progress, sent_set_stage; reflexivity).
          destruct (req s i) as [[ti [| | | |k c'| |]]|] eqn:Ri; try exact F7. destruct F7 as (A & B & C). split; [exact A|]. split; [exact B|].
          intros U. apply C. destruct (F5 _ _ _ _ Ri eq_refl) as [X|X]; [exact X|]. rewrite !stage_wire, Wi in *. destruct (eqb_ok k k0) as [->|]; [|congruence].
          unfold wire in X. rewrite E in X. discriminate. }
    destruct (sk_keeps sk); [exact G1|]. destruct G1 as [F1 F2 F3 F4 F5 F6 F7]. split; try assumption. intros k [= <-]. exact Sk.
  - unfold channel_open. destruct (progress_of s i) as [[|k1| | | | |]|] eqn:E; try exact G. destruct (is_up s k1); [|exact G].
    rewrite progress_req in E. destruct (req s i) as [[ts p]|] eqn:R; [|discriminate]. injection E as ->.
    assert (A : forall p s1, req s1 i = Some (ts, WantsChannel k1) -> good lg s1 -> place p = Some k1 -> (p = WantsShell k1 \/ p = WantsLock k1) -> good lg (set_progress i p s1)).
    { intros p s1 R1 G1 Pl Hp. apply (fair_progress (fun _ => True) lg i p s1 ts (WantsChannel k1)); auto.
      - exact (no_young _ _ _ _ _ _ G1 R1 ltac:(discriminate)).
      - destruct Hp; subst p; discriminate.
      - intros k Hk. rewrite Pl in Hk. injection Hk as <-. exact (f_placed _ _ _ G1 _ _ _ _ R1 eq_refl).
      - destruct Hp; subst p; discriminate.
      - pose proof (f_lines _ _ _ G1 i I) as L. rewrite R1 in L. destruct Hp; subst p; exact L. }
    destruct (sk_locks sk); [destruct (ss_lock s)|]; apply A; auto; destruct G; split; assumption.
  - unfold shell. destruct (aget i (ss_reqs s)) as [[ts [| | |k1| | |]]|] eqn:E; try exact G.
    pose proof (f_lines _ _ _ G i I) as L. unfold req in L. rewrite E in L. unfold lines_ok in L.
    destruct yes.
    + destruct (at_begin ts) as (pre & At). apply (good_talk sk lg i k1 0 (begin ts) s ts (WantsShell k1) pre); auto.
      * discriminate.
      * exact (f_placed _ _ _ G _ _ _ _ E eq_refl).
      * rewrite L. intros x [].
      * rewrite L. exists (ch_sent (begin ts)). reflexivity.
      * intros _. rewrite L. reflexivity.
      * intros _. apply go_on_done.
    + apply (good_finish sk lg i k1 (Failed EConnection) s ts (WantsShell k1) (fun _ => True)); auto; discriminate.
  - unfold arrived. destruct (progress_of s i) as [[| | | |k1 c| |]|] eqn:E; try exact G. destruct (is_up s k1) eqn:U; [|exact G].
    rewrite progress_req in E. destruct (req s i) as [[ts p]|] eqn:R; [|discriminate]. injection E as ->.
    destruct (data_received _ _ _ _) as [c'|] eqn:Dr; [|apply fair_gone; exact G].
    destruct (f_chan _ _ _ G _ _ _ _ R) as (D & pre & At).
    pose proof (f_lines _ _ _ G i I) as L. rewrite R in L. unfold lines_ok in L. destruct L as (La & Lb & Lc). specialize (Lc (is_up_stage _ _ U)).
    assert (X : exists pre', at_turn ts c' pre' /\ beginning (ch_sent c) (ch_sent c')).
    { destruct (data_place _ _ _ _ _ _ _ At Dr) as [Sp|(pre' & At' & (r & Bg) & _)].
      - exists pre. split; [exact (at_same _ _ _ _ At Sp)|]. destruct Sp as (_ & _ & Sp & _). rewrite Sp. apply beginning_refl.
      - exists pre'. split; [exact At'|]. destruct At as (_ & S1 & _). destruct At' as (_ & S2 & _). rewrite S1, S2, Bg, lines_app. exists (lines_of r). reflexivity. }
    destruct X as (pre' & At' & Bg).
    apply (good_talk sk lg i k1 _ c' s ts (Talking k1 c) pre'); auto.
    + discriminate.
    + exact (f_placed _ _ _ G _ _ _ _ R eq_refl).
    + rewrite Lc. exact Bg.
    + intros _. rewrite Lc. apply beginning_skip. exact Bg.
    + congruence.
  - destruct (stage_of s k0) as [[]|]; try exact G; apply fair_gone; exact G.
Qed.
Lemma good0 lg : good lg session0.
Proof. split; try discriminate; intros; try (elim H; reflexivity). Qed.
Lemma good_run sk lg b es : good lg (session_run sk lg b es).
Proof. induction es as [|e es IH] using rev_ind; [apply good0|]. rewrite run_snoc. apply good_step. exact IH. Qed.
