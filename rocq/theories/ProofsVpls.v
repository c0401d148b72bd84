(** Proofs for C97. *)
From Verif Require Import Base BaseProofs ModelPlugins ProofsPlugins SpecConfig ProofsConfig ModelChannel SpecChannel ProofsChannel ProofsTalks ModelVpls SpecVpls.
Open Scope Z_scope.

Definition total (ts : list wturn) : Z := fold_right (fun t n => wt_secs t + n) 0 ts.
Lemma total_app a b : total (a ++ b) = total a + total b.
Proof. unfold total. induction a as [|x a IH]; cbn [app fold_right]; lia. Qed.

Section Run.
Variables (rep : bool) (start : Z) (ts : list wturn).
Hypothesis Hsecs : forall t, In t ts -> 0 < wt_secs t.

(** In the middle of a turn, or at the end. *)
Record mid (H : string) (c : vpls) (pre : list wturn) (t : wturn) : Prop := {
  md_ts : ts = pre ++ t :: vp_left c;
  md_sent : vp_sent c = map wt_write (pre ++ [t]);
  md_end : vp_end c <> Success;
  md_wait : (vp_wait c = Some (wt_wait t) /\ vp_end c = Going /\ exists d, vp_timer c = Some d /\ vp_now c < d <= start + total (pre ++ [t])) \/
            (vp_wait c = None /\ vp_timer c = None /\ (rep = true -> vp_end c = Failure));
  md_heard : exists a, H = a +++ vp_buf c }.
Record fin (H : string) (c : vpls) : Prop := {
  fn_end : vp_end c = Success; fn_sent : vp_sent c = map wt_write ts; fn_wait : vp_wait c = None; fn_timer : vp_timer c = None;
  fn_buf : exists a, H = a +++ vp_buf c;
  fn_heard : exists pre t, ts = pre ++ [t] /\ mentions (wt_wait t) H }.
Definition vinv (H : string) (c : vpls) : Prop := (exists pre t, mid H c pre t) \/ fin H c.

Lemma line_inv H c l : vinv H c -> mentions (strip l) H -> vinv H (vpls_line c l).
Proof.
  intros [(pre & t & [T S E W B])|F] M; unfold vpls_line.
  - destruct W as [(W & G & d & D & R)|(W & N & Fa)]; rewrite W; [|left; exists pre, t; constructor; auto].
    destruct (contains (wt_wait t) (strip l)) eqn:C; [|left; exists pre, t; constructor; auto; left; eauto].
    unfold vpls_next. cbn [vp_left vp_buf vp_sent vp_end vp_now]. destruct (vp_left c) as [|u r] eqn:L.
    + right. constructor; cbn; auto. * rewrite T, S. reflexivity.
      * exists pre, t. split; [exact T|]. apply contains_spec in C. exact (mentions_trans _ _ _ C M).
    + left. exists (pre ++ [t]), u. constructor; cbn [vp_left vp_sent vp_end vp_wait vp_timer vp_now vp_buf].
      * rewrite <- app_assoc. exact T.
      * rewrite S, !map_app. reflexivity.
      * exact E.
      * left. split; [reflexivity|]. split; [exact G|]. eexists. split; [reflexivity|].
        assert (P : 0 < wt_secs u) by (apply Hsecs; rewrite T; apply in_or_app; right; right; left; reflexivity).
        rewrite (total_app (pre ++ [t]) [u]). cbn [total fold_right]. lia.
      * exact B.
  - rewrite (fn_wait _ _ F). right. exact F.
Qed.
Lemma lines_inv H ls : (forall l, In l ls -> mentions (strip l) H) -> forall c, vinv H c -> vinv H (fold_left vpls_line ls c).
Proof.
  induction ls as [|l ls IH]; intros M c I; [exact I|]. cbn [fold_left]. apply IH; [intros x X; apply M; right; exact X|].
  apply line_inv; [exact I|apply M; left; reflexivity].
Qed.
Lemma inv_more H c d b : vinv H c -> (exists a, H +++ d = a +++ b) -> vinv (H +++ d) (mkVpls b (vp_wait c) (vp_timer c) (vp_left c) (vp_sent c) (vp_end c) (vp_now c)).
Proof.
  intros [(pre & t & [T S E W B])|[E S W N B (pre & t & T & M)]] X.
  - left. exists pre, t. constructor; cbn; auto.
  - right. constructor; cbn; auto. exists pre, t. split; [exact T|]. exact (mentions_more _ "" _ d M).
Qed.
Lemma inv_buf H c : vinv H c -> exists a, H = a +++ vp_buf c.
Proof. intros [(pre & t & M)|F]; [exact (md_heard _ _ _ _ M)|exact (fn_buf _ _ F)]. Qed.
Lemma data_inv H d c : vinv H c -> vinv (H +++ d) (vpls_data false d c).
Proof.
  intros I. destruct (inv_buf _ _ I) as (a & B). unfold vpls_data.
  destruct (eqb d "") eqn:Ed.
  { apply (proj1 (eqb_true d "")) in Ed. subst d. rewrite append_nil_r. exact I. }
  destruct (shas "010" d) eqn:Hd.
  - apply lines_inv.
    + intros l Hl. apply filter_In in Hl as [Hl _]. apply in_map_iff in Hl as (x & <- & Hx). rewrite strip_strip.
      apply in_split_mentions in Hx. rewrite B, append_assoc. apply (mentions_trans _ _ _ (strip_mentions x)). apply (mentions_trans _ _ _ Hx). exists a, "". rewrite append_nil_r. reflexivity.
    + apply inv_more; [exact I|]. exists (H +++ d). rewrite append_nil_r. reflexivity.
  - apply inv_more; [exact I|]. exists a. rewrite B, append_assoc. reflexivity.
Qed.
Lemma clock_inv H t c : vinv H c -> vinv H (vpls_clock rep t c).
Proof.
  intros [(pre & u & [T S E W B])|[E S W N B M]]; unfold vpls_clock; cbn [vp_now].
  - left. exists pre, u. destruct W as [(W & G & d & D & R)|(W & N & Fa)].
    + rewrite D. destruct (Z.leb_spec d (Z.max (vp_now c) t)) as [Le|Gt].
      * constructor; cbn; auto. -- rewrite G. destruct rep; discriminate. -- right. split; [reflexivity|]. split; [reflexivity|]. intros ->. reflexivity.
      * constructor; cbn; auto. left. split; [exact W|]. split; [exact G|]. exists d. split; [first [exact D|reflexivity]|lia].
    + rewrite N. constructor; cbn; auto.
  - rewrite N. right. constructor; cbn; auto.
Qed.
End Run.

Lemma vpls_secs cmds t : In t (vpls_turns cmds) -> 0 < wt_secs t.
Proof.
  unfold vpls_turns. intros [<-|H]; [reflexivity|]. apply in_app_iff in H as [H|[<-|[]]]; [|reflexivity]. apply in_map_iff in H as (c & <- & _). reflexivity.
Qed.
Lemma vpls_total cmds : total (vpls_turns cmds) = vpls_limit cmds.
Proof.
  unfold vpls_turns, vpls_limit. change (total (?a :: ?l)) with (wt_secs a + total l). rewrite total_app.
  assert (E : total (map (fun c => mkWturn c "[edit]" 3) cmds) = 3 * Z.of_nat (List.length cmds)).
  { induction cmds as [|c cmds IH]; [reflexivity|]. cbn [map List.length]. change (total (?a :: ?l)) with (wt_secs a + total l). rewrite IH. cbn [wt_secs]. lia. }
  rewrite E. cbn [wt_secs total fold_right]. lia.
Qed.
Lemma vpls_writes cmds : map wt_write (vpls_turns cmds) = vpls_lines cmds.
Proof. unfold vpls_turns, vpls_lines. cbn [map wt_write]. rewrite map_app, map_map. cbn [map wt_write]. rewrite map_id. reflexivity. Qed.

Definition taken (bytes : bool) (es : list vevent) : string := if bytes then "" else vpls_heard es.
Lemma run_inv rep bytes now cmds es : vinv rep now (vpls_turns cmds) (taken bytes es) (vpls_run rep bytes now cmds es).
Proof.
  induction es as [|e es IH] using rev_ind.
  - left. exists [], (mkWturn "configure private" "[edit]" 3). constructor; cbn; try reflexivity; [discriminate| |].
    + left. split; [reflexivity|]. split; [reflexivity|]. eexists. split; [reflexivity|]. lia.
    + exists "". destruct bytes; reflexivity.
  - unfold vpls_run. rewrite fold_left_app. cbn [fold_left]. fold (vpls_run rep bytes now cmds es).
    assert (Hh : vpls_heard (es ++ [e]) = vpls_heard es +++ match e with VData d => d | VClock _ => "" end).
    { unfold vpls_heard. rewrite flat_map_app, text_app. destruct e; cbn [flat_map app text]; rewrite ?append_nil_r; reflexivity. }
    destruct e as [d|t]; cbn [vpls_step].
    + destruct bytes.
      * unfold vpls_data. destruct (eqb d ""); exact IH.
      * unfold taken in *. rewrite Hh. apply data_inv; [apply vpls_secs|exact IH].
    + unfold taken in *. rewrite Hh, append_nil_r. apply clock_inv; [apply vpls_secs|exact IH].
Qed.

Theorem vpls_order rep bytes now cmds es : let c := vpls_run rep bytes now cmds es in
  beginning (vp_sent c) (vpls_lines cmds) /\ (vp_end c = Success -> vp_sent c = vpls_lines cmds).
Proof.
  cbn zeta. rewrite <- vpls_writes. destruct (run_inv rep bytes now cmds es) as [(pre & t & M)|F].
  - split; [|intros E; destruct (md_end _ _ _ _ _ _ _ M E)]. rewrite (md_sent _ _ _ _ _ _ _ M), (md_ts _ _ _ _ _ _ _ M). eexists. rewrite !map_app. cbn [map]. rewrite <- app_assoc. reflexivity.
  - split; [|intros _; exact (fn_sent _ _ _ F)]. rewrite (fn_sent _ _ _ F). exists []. symmetry. apply app_nil_r.
Qed.
Theorem vpls_committed rep bytes now cmds es : vp_end (vpls_run rep bytes now cmds es) = Success -> mentions "commit complete" (vpls_heard es).
Proof.
  intros E. destruct (run_inv rep bytes now cmds es) as [(pre & t & M)|F]; [destruct (md_end _ _ _ _ _ _ _ M E)|].
  destruct (fn_heard _ _ _ F) as (pre & t & T & M).
  assert (W : wt_wait t = "commit complete").
  { unfold vpls_turns in T. rewrite app_comm_cons in T. apply app_inj_tail in T as [_ <-]. reflexivity. }
  rewrite W in M. unfold taken in M. destruct bytes; [|exact M]. destruct M as (a & b & M). destruct a; discriminate M.
Qed.
Theorem vpls_ends bytes now cmds es : let c := vpls_run true bytes now cmds es in now + vpls_limit cmds <= vp_now c -> vp_end c <> Going.
Proof.
  cbn zeta. intros L E. destruct (run_inv true bytes now cmds es) as [(pre & t & M)|F]; [|rewrite (fn_end _ _ _ F) in E; discriminate].
  destruct (md_wait _ _ _ _ _ _ _ M) as [(_ & _ & d & D & R)|(_ & _ & Fa)]; [|rewrite (Fa eq_refl) in E; discriminate].
  rewrite <- vpls_total, (md_ts _ _ _ _ _ _ _ M) in L.
  assert (P : total (pre ++ [t]) <= total (pre ++ t :: vp_left (vpls_run true bytes now cmds es))).
  { rewrite !total_app. change (total (t :: vp_left (vpls_run true bytes now cmds es))) with (wt_secs t + total (vp_left (vpls_run true bytes now cmds es))). change (total [t]) with (wt_secs t + 0).
    assert (Q : forall l, (forall x, In x l -> 0 < wt_secs x) -> 0 <= total l).
    { induction l as [|x l IH]; intros Hl; [reflexivity|]. change (total (x :: l)) with (wt_secs x + total l). pose proof (Hl x (or_introl eq_refl)). pose proof (IH (fun y Y => Hl y (or_intror Y))). lia. }
    pose proof (Q (vp_left (vpls_run true bytes now cmds es)) (fun x X => vpls_secs cmds x ltac:(rewrite (md_ts _ _ _ _ _ _ _ M); apply in_or_app; right; right; exact X))). lia. }
  lia.
Qed.
Theorem vpls_never bytes now cmds es : vp_end (vpls_run false bytes now cmds es) <> Failure.
Proof.
  assert (L : forall ls c, vp_end c <> Failure -> vp_end (fold_left vpls_line ls c) <> Failure).
  { induction ls as [|l ls IH]; intros c H; [exact H|]. cbn [fold_left]. apply IH. unfold vpls_line. destruct (vp_wait c); [|exact H]. destruct (contains _ _); [|exact H].
    unfold vpls_next. cbn [vp_left]. destruct (vp_left c); [discriminate|exact H]. }
  induction es as [|e es IH] using rev_ind; [discriminate|]. unfold vpls_run. rewrite fold_left_app. cbn [fold_left]. fold (vpls_run false bytes now cmds es).
  destruct e as [d|t]; cbn [vpls_step].
  - unfold vpls_data. destruct (eqb d ""); [exact IH|]. destruct bytes; [exact IH|]. destruct (shas "010" d); [apply L; exact IH|exact IH].
  - unfold vpls_clock. destruct (vp_timer _); [|exact IH]. destruct (_ <=? _); exact IH.
Qed.

(** Nothing happens to a channel that waits for nothing. *)
Lemma idle_run rep bytes es : forall c, vp_wait c = None -> vp_timer c = None ->
  let c' := fold_left (vpls_step rep bytes) es c in vp_sent c' = vp_sent c /\ vp_end c' = vp_end c.
Proof.
  assert (L : forall ls c, vp_wait c = None -> fold_left vpls_line ls c = c).
  { induction ls as [|l ls IH]; intros c H; [reflexivity|]. cbn [fold_left]. unfold vpls_line at 2. rewrite H. apply IH. exact H. }
  cbn zeta. induction es as [|e es IH]; intros c W T; [auto|]. cbn [fold_left].
  assert (S : exists b n, vpls_step rep bytes c e = mkVpls b None None (vp_left c) (vp_sent c) (vp_end c) n).
  { destruct c as [b w t l s f n]. cbn in W, T. subst w t. destruct e as [d|t]; cbn [vpls_step].
    - unfold vpls_data. destruct (eqb d ""); [cbn; eauto|]. destruct bytes; [cbn; eauto|]. destruct (shas "010" d); [rewrite L by reflexivity|]; cbn; eauto.
    - unfold vpls_clock. cbn. eauto. }
  destruct S as (b & n & S). rewrite S. destruct (IH (mkVpls b None None (vp_left c) (vp_sent c) (vp_end c) n) eq_refl eq_refl) as [H1 H2]. rewrite H1, H2. auto.
Qed.
Theorem vpls_final rep bytes now cmds es es' : let c := vpls_run rep bytes now cmds es in let c' := vpls_run rep bytes now cmds (es ++ es') in
  vp_end c <> Going -> vp_sent c' = vp_sent c /\ vp_end c' = vp_end c.
Proof.
  cbn zeta. intros E. unfold vpls_run. rewrite fold_left_app. fold (vpls_run rep bytes now cmds es).
  apply idle_run; destruct (run_inv rep bytes now cmds es) as [(pre & t & M)|F].
  - destruct (md_wait _ _ _ _ _ _ _ M) as [(_ & G & _)|(W & _ & _)]; [destruct (E G)|exact W].
  - exact (fn_wait _ _ _ F).
  - destruct (md_wait _ _ _ _ _ _ _ M) as [(_ & G & _)|(_ & W & _)]; [destruct (E G)|exact W].
  - exact (fn_timer _ _ _ F).
Qed.
Theorem vpls_stuck bytes now cmds es t es' : let c := vpls_run false bytes now cmds es in let c' := vpls_run false bytes now cmds (es ++ VClock t :: es') in
  vp_end c = Going -> vp_now c + 20 <= t -> vp_sent c' = vp_sent c /\ vp_end c' = Going.
Proof.
  cbn zeta. intros E Ht. unfold vpls_run. rewrite fold_left_app. fold (vpls_run false bytes now cmds es). cbn [fold_left]. set (c := vpls_run false bytes now cmds es) in *.
  assert (W : forall d, vp_timer c = Some d -> d <= vp_now c + 20).
  { assert (G : forall ls c0, (forall d, vp_timer c0 = Some d -> d <= vp_now c0 + 20) -> (forall u, In u (vp_left c0) -> wt_secs u <= 20) ->
      (forall d, vp_timer (fold_left vpls_line ls c0) = Some d -> d <= vp_now (fold_left vpls_line ls c0) + 20) /\ (forall u, In u (vp_left (fold_left vpls_line ls c0)) -> wt_secs u <= 20)).
    { induction ls as [|l ls IH]; intros c0 H1 H2; [auto|]. cbn [fold_left]. apply IH; unfold vpls_line; destruct (vp_wait c0); auto; destruct (contains _ _); auto;
        unfold vpls_next; cbn [vp_left]; destruct (vp_left c0) as [|u r] eqn:L; cbn; try discriminate; try contradiction.
      - intros d [= <-]. pose proof (H2 u (or_introl eq_refl)). lia.
      - intros v V. apply H2. right. exact V. }
    assert (B : (forall d, vp_timer c = Some d -> d <= vp_now c + 20) /\ (forall u, In u (vp_left c) -> wt_secs u <= 20)); [|exact (proj1 B)].
    clear E Ht. unfold c. clear c. induction es as [|e es0 [I1 I2]] using rev_ind.
    - cbn. split; [intros d [= <-]; lia|]. intros u U. apply in_app_iff in U as [U|[<-|[]]]; [apply in_map_iff in U as (x & <- & _); cbn; lia|cbn; lia].
    - unfold vpls_run. rewrite fold_left_app. cbn [fold_left]. fold (vpls_run false bytes now cmds es0). set (c := vpls_run false bytes now cmds es0) in *.
      destruct e as [d|u]; cbn [vpls_step].
      + unfold vpls_data. destruct (eqb d ""); [auto|]. destruct bytes; [auto|]. destruct (shas "010" d); [apply G; assumption|cbn; auto].
      + unfold vpls_clock. destruct (vp_timer c) as [d|] eqn:D; [|cbn; split; [discriminate|exact I2]]. destruct (_ <=? _); cbn; [split; [discriminate|exact I2]|].
        split; [|exact I2]. intros d' [= <-]. pose proof (I1 d eq_refl). lia. }
  assert (S : exists n, vpls_step false bytes c (VClock t) = mkVpls (vp_buf c) None None (vp_left c) (vp_sent c) (vp_end c) n).
  { cbn [vpls_step]. unfold vpls_clock. destruct (run_inv false bytes now cmds es) as [(pre & u & M)|F]; [|fold c in F; rewrite (fn_end _ _ _ F) in E; discriminate]. fold c in M.
    destruct (md_wait _ _ _ _ _ _ _ M) as [(_ & _ & d & D & R)|(W1 & W2 & _)].
    - rewrite D. cbn [vp_now]. pose proof (W d D). destruct (Z.leb_spec d (Z.max (vp_now c) t)); [|lia]. unfold vpls_timeout. cbn. eauto.
    - rewrite W2, W1. eauto. }
  destruct S as (n & ->). destruct (idle_run false bytes es' (mkVpls (vp_buf c) None None (vp_left c) (vp_sent c) (vp_end c) n) eq_refl eq_refl) as [H1 H2]. rewrite H1, H2. auto.
Qed.

Lemma one_vline c x y w : vp_buf c = "" -> vp_wait c = Some w -> w <> "" -> shas "010" x = false -> trims x y -> mentions w y ->
  vpls_data false (x +++ LF) c = vpls_next (mkVpls "" None None (vp_left c) (vp_sent c) (vp_end c) (vp_now c)).
Proof.
  intros B W Nw Hx Hy Hm. unfold vpls_data. rewrite eqb_neq by (destruct x; discriminate).
  assert (Hs : shas "010" (x +++ LF) = true) by (rewrite shas_app; change (shas "010" LF) with true; apply orb_true_r).
  rewrite Hs, B. change ("" +++ x +++ LF) with (x +++ String "010" ""). rewrite split_on_app by exact Hx.
  change (split_on "010" "") with [""]. cbn [map]. change (strip "") with "". rewrite (trims_strip _ _ Hy).
  assert (Sy : strip y = y) by (rewrite <- (trims_strip _ _ Hy); apply strip_strip).
  assert (Ny : y <> "") by (intros ->; destruct Hm as (a & b & E); destruct a; [destruct w; [congruence|discriminate]|discriminate]).
  cbn [filter]. rewrite (eqb_neq y "") by exact Ny. rewrite eqb_refl. cbn [negb fold_left]. unfold vpls_line. cbn [vp_wait vp_buf vp_left vp_sent vp_end vp_now]. rewrite W, Sy.
  replace (contains w y) with true by (symmetry; apply contains_spec; exact Hm). reflexivity.
Qed.
Lemma timely_runs rep es : forall now l, timely now l es -> forall c t r, l = (wt_wait t, wt_secs t) :: map (fun u => (wt_wait u, wt_secs u)) r -> (forall u, In u (t :: r) -> wt_wait u <> "") ->
  vp_buf c = "" -> vp_wait c = Some (wt_wait t) -> vp_timer c = Some (now + wt_secs t) -> vp_left c = r -> vp_now c = now ->
  vp_end (fold_left (vpls_step rep false) es c) = Success.
Proof.
  intros now l H. induction H as [now|now t0 w s x y rest es Ht Hx Hy Hm H IH]; intros c t r El Nw B W T L N; [discriminate|].
  injection El as -> -> ->. cbn [fold_left].
  assert (S1 : vpls_step rep false c (VClock t0) = mkVpls "" (Some (wt_wait t)) (vp_timer c) r (vp_sent c) (vp_end c) t0).
  { cbn [vpls_step]. unfold vpls_clock. rewrite T. cbn [vp_now]. rewrite N. replace (Z.max now t0) with t0 by lia. destruct (Z.leb_spec (now + wt_secs t) t0); [lia|]. rewrite B, W, L. reflexivity. }
  rewrite S1. cbn [vpls_step]. rewrite (one_vline _ x y (wt_wait t)); try reflexivity; try assumption; [|apply Nw; left; reflexivity].
  unfold vpls_next. cbn [vp_left vp_buf vp_sent vp_end vp_now]. destruct r as [|u r].
  - cbn [map] in H. inversion H. subst. reflexivity.
  - apply (IH _ u r); try reflexivity. intros v V. apply Nw. right. exact V.
Qed.
Theorem vpls_success rep now cmds es : timely now (vpls_prompts cmds) es -> vp_end (vpls_run rep false now cmds es) = Success.
Proof.
  intros H. unfold vpls_run. eapply (timely_runs rep es now _ H _ (mkWturn "configure private" "[edit]" 3) (map (fun c => mkWturn c "[edit]" 3) cmds ++ [mkWturn "commit" "commit complete" 20])); try reflexivity.
  - unfold vpls_prompts. f_equal. rewrite map_app, map_map. reflexivity.
  - intros u [<-|U]; [discriminate|]. apply in_app_iff in U as [U|[<-|[]]]; [|discriminate]. apply in_map_iff in U as (x & <- & _). discriminate.
Qed.
