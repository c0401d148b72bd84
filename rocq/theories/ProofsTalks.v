(** Proofs about the conversations with devices: order, ending, and what has been executed. *)
From Verif Require Import Base BaseProofs ModelPlugins ProofsPlugins SpecConfig ProofsConfig ModelChannel SpecChannel ProofsChannel.
Open Scope Z_scope.

Lemma begin_at ts : exists pre, at_turn ts (begin ts) pre.
Proof. destruct (go_on_at ts [] ts "" eq_refl) as (pre & A & _). exists pre. exact A. Qed.

Lemma place_at ts pre c c' : at_turn ts c pre -> same_place c c' \/ moved ts pre c c' ->
  exists pre', at_turn ts c' pre' /\ beginning pre pre'.
Proof.
  intros A [S|(pre' & M & B & _)]; [exists pre; split; [exact (at_same _ _ _ _ A S)|apply beginning_refl]|exists pre'; auto].
Qed.

Lemma received_at ts k bytes ps : forall c c' pre, at_turn ts c pre -> received k bytes ps c = Ok c' -> exists pre', at_turn ts c' pre'.
Proof.
  induction ps as [|p r IH]; intros c c' pre A; cbn [received].
  - intros [= <-]. eauto.
  - destruct (data_received k bytes p c) as [c1|e] eqn:E; cbn [Base.bind]; [|discriminate]. intros H.
    destruct (place_at ts pre c c1 A (data_place _ _ _ _ _ _ _ A E)) as (p1 & A1 & _). exact (IH _ _ _ A1 H).
Qed.

Lemma flat_says ls w : flat_map tn_write (map (fun c => says c w) ls) = ls.
Proof. induction ls as [|x r IH]; [reflexivity|]. cbn. rewrite IH. reflexivity. Qed.
Lemma flat_echo ls : flat_map tn_write (map (fun c => mkTurn [c; "echo"] (Some LF)) ls) = flat_map (fun c => [c; "echo"]) ls.
Proof. induction ls as [|x r IH]; [reflexivity|]. cbn. rewrite IH. reflexivity. Qed.
Lemma talk_lines cmds k ts lines : talk_of cmds k ts lines -> flat_map tn_write ts = lines.
Proof.
  intros []; unfold ex_turns, mx_turns, jx_turns, br_turns, p8_turns, f10_turns; cbn [flat_map says tn_write app]; rewrite flat_map_app, ?flat_says, ?flat_echo; reflexivity.
Qed.

Lemma at_order ts c pre : at_turn ts c pre -> beginning (ch_sent c) (flat_map tn_write ts) /\ (ch_done c = true -> ch_sent c = flat_map tn_write ts).
Proof.
  intros (A & B & C). split.
  - exists (lines_of (ch_left c)). rewrite B, A. apply flat_map_app.
  - intros Hd. destruct C as [(_ & _ & L)|(w & p & t & _ & F & _)]; [|congruence]. rewrite L, app_nil_r in A. rewrite B, A. reflexivity.
Qed.

Lemma order_ok cmds k ts lines bytes ps c : talk_of cmds k ts lines -> received k bytes ps (begin ts) = Ok c ->
  beginning (ch_sent c) lines /\ (ch_done c = true -> ch_sent c = lines).
Proof.
  intros T H. destruct (begin_at ts) as (p0 & A0). destruct (received_at ts k bytes ps _ _ _ A0 H) as (pre & A).
  rewrite <- (talk_lines _ _ _ _ T). exact (at_order _ _ _ A).
Qed.

(** * Ending *)

Definition live (k : channel_kind) (D : device) (ts : list turn) (t : talk) : Prop :=
  exists pre, at_turn ts (tk_chan t) pre /\ (tk_answered t <= List.length (lines_of pre))%nat /\
    (ch_done (tk_chan t) = false ->
      (tk_answered t < List.length (lines_of pre))%nat \/ exists w s, ch_wait (tk_chan t) = Some w /\ In s (tk_way t) /\ shows k w s).

Lemma data_total k bytes d c : bytes && kd_text k = false -> exists c', data_received k bytes d c = Ok c'.
Proof.
  intros H. unfold data_received. rewrite H. destruct (eqb d ""); [eauto|]. destruct (kd_look k) as [wh|]; [destruct (shas "010" d); eauto|].
  destruct (ch_wait c); [destruct (contains _ _); eauto|eauto].
Qed.
Lemma data_bytes k bytes d c : bytes && kd_text k = false -> data_received k bytes d c = data_received k false d c.
Proof. intros H. unfold data_received. rewrite H. reflexivity. Qed.

Lemma lines_mono (a b : list turn) : beginning a b -> (List.length (lines_of a) <= List.length (lines_of b))%nat.
Proof. intros [x ->]. rewrite lines_app, app_length. lia. Qed.

Section Live.
  Variables (k : channel_kind) (bytes : bool) (D : device) (ts : list turn).
  Hypothesis Hb : bytes && kd_text k = false.
  Hypothesis Hp : prompts k D ts.
  Hypothesis Hw : forall t, In t ts -> tn_wait t <> Some "".

  Lemma wait_in c pre w : at_turn ts c pre -> ch_wait c = Some w -> w <> "" /\
    exists p t, pre = p ++ [t] /\ tn_wait t = Some w /\ ts = p ++ t :: ch_left c.
  Proof.
    intros (A & B & C) E. destruct C as [(C & _)|(w' & p & t & C & _ & P & T)]; [congruence|].
    assert (w' = w) by congruence. subst w'. subst pre. rewrite <- app_assoc in A. cbn in A. split; [|eauto].
    intros ->. apply (Hw t); [rewrite A; apply in_or_app; right; left; reflexivity|exact T].
  Qed.
  (** The last turn that has been said after a move has lines of its own. *)
  Lemma moved_lines c c' pre : at_turn ts c pre -> moved ts pre c c' ->
    exists pre', at_turn ts c' pre' /\ beginning pre pre' /\
      (ch_done c' = false -> (List.length (lines_of pre) < List.length (lines_of pre'))%nat).
  Proof.
    intros A (pre' & A' & B & W & L). exists pre'. split; [exact A'|]. split; [exact B|]. intros Hd.
    destruct L as [L|L]; [|congruence].
    destruct (ch_wait c') as [w|] eqn:E.
    2:{ destruct A' as (_ & _ & [(_ & F & _)|(w & p & t & F & _)]); congruence. }
    destruct (wait_in c' pre' w A' E) as (_ & p & t & -> & T & Et).
    destruct B as (x & B). destruct x as [|y x] using rev_ind; [rewrite app_nil_r in B; subst pre; rewrite app_length in L; cbn in L; lia|].
    rewrite app_assoc in B. apply app_inj_tail in B as [B <-]. clear IHx.
    destruct (Hp p t (ch_left c') w Et T) as [P1 P2].
    assert (N : tn_write t <> []).
    { intros E0. destruct (P1 E0) as (-> & _). assert (pre = []) by (destruct pre; [reflexivity|discriminate]). subst pre.
      destruct A as (_ & _ & [(F & _)|(w0 & q & u & _ & _ & F & _)]); [exact (W F)|]. destruct q; discriminate F. }
    rewrite lines_app, B, lines_app, !app_length. cbn. rewrite app_nil_r. destruct (tn_write t); [congruence|cbn; lia].
  Qed.

  Lemma live_start b : dv_banner D b -> live k D ts (mkTalk (begin ts) 0 b (text b)).
  Proof.
    intros Hban. destruct (begin_at ts) as (pre & A). exists pre. split; [exact A|]. split; [cbn; lia|]. cbn [tk_chan tk_answered tk_way].
    intros Hd. destruct (ch_wait (begin ts)) as [w|] eqn:E.
    2:{ destruct A as (_ & _ & [(_ & F & _)|(w & p & t & F & _)]); congruence. }
    destruct (wait_in _ pre w A E) as (_ & p & t & -> & T & Et). destruct (Hp p t _ w Et T) as [P1 P2].
    destruct (tn_write t) as [|l ls] eqn:El.
    - right. destruct (P1 eq_refl) as (-> & P). destruct (P b Hban) as (s & Hs & Sh). exists w, s. auto.
    - left. rewrite lines_app, app_length. cbn. rewrite El. cbn. lia.
  Qed.

  Lemma live_step t t' : live k D ts t -> tstep k bytes D t t' -> live k D ts t'.
  Proof.
    intros (pre & A & Ln & L) H. destruct H as [c n w h l o Hn Ha|c n a b h c' Hne Hd]; cbn [tk_chan tk_answered tk_way] in *.
    - assert (Hlt : (n < List.length (lines_of pre))%nat).
      { destruct A as (_ & B & _). rewrite <- B. apply nth_error_Some. congruence. }
      exists pre. split; [exact A|]. split; [exact Hlt|]. cbn [tk_chan tk_answered tk_way]. intros Hdn.
      destruct (PeanoNat.Nat.eq_dec (S n) (List.length (lines_of pre))) as [E|E]; [|left; lia]. right.
      destruct (ch_wait c) as [x|] eqn:Ew.
      2:{ destruct A as (_ & _ & [(_ & F & _)|(w' & p & t & F & _)]); congruence. }
      destruct (wait_in c pre x A Ew) as (_ & p & t & Epre & T & Et). destruct (Hp p t _ x Et T) as [P1 P2].
      destruct (tn_write t) as [|l0 ls] eqn:El.
      + exfalso. destruct (P1 eq_refl) as (-> & _). subst pre. cbn in Hlt. rewrite El in Hlt. cbn in Hlt. lia.
      + destruct (P2 ltac:(discriminate) n l o) as (s & Hs & Sh); [subst pre; exact E|exact Ha|].
        exists x, s. split; [reflexivity|]. split; [apply in_or_app; right; exact Hs|exact Sh].
    - rewrite data_bytes in Hd by exact Hb.
      assert (Mv : moved ts pre c c' -> live k D ts (mkTalk c' n b h)).
      { intros M. destruct (moved_lines c c' pre A M) as (pre' & A' & Bg & Lt). exists pre'. split; [exact A'|]. cbn [tk_chan tk_answered tk_way].
        pose proof (lines_mono _ _ Bg). split; [lia|]. intros Hdn. left. specialize (Lt Hdn). lia. }
      destruct (data_place _ _ _ _ _ _ _ A Hd) as [S|M]; [|exact (Mv M)].
      destruct (ch_done c') eqn:Hdn.
      + exists pre. split; [exact (at_same _ _ _ _ A S)|]. split; [exact Ln|]. cbn. congruence.
      + destruct S as (S1 & S2 & S3 & S4). rewrite <- S4 in L. destruct (L Hdn) as [Lt|(x & s & Hx & Hs & Sh)].
        * exists pre. split; [exact (at_same _ _ _ _ A (conj S1 (conj S2 (conj S3 S4))))|]. split; [exact Ln|]. intros _. left. exact Lt.
        * apply in_app_or in Hs as [Hs|Hs].
          -- apply Mv. destruct (wait_in c pre x A Hx) as (Hx0 & _). exact (data_shown _ _ _ _ _ _ _ A Hx Hx0 (ex_intro _ s (conj Hs Sh)) Hd).
          -- exists pre. split; [exact (at_same _ _ _ _ A (conj S1 (conj S2 (conj S3 S4))))|]. split; [exact Ln|]. intros _. right.
             exists x, s. cbn [tk_chan tk_way]. split; [congruence|]. split; [exact Hs|exact Sh].
  Qed.
  Lemma live_all t : talks k bytes D ts t -> live k D ts t.
  Proof. induction 1 as [b Hban|t t' _ IH Hs]; [exact (live_start b Hban)|exact (live_step _ _ IH Hs)]. Qed.

  Lemma live_bound t : live k D ts t -> (tk_answered t <= List.length (lines_of ts))%nat.
  Proof. intros (pre & (A & _) & L & _). assert (B : beginning pre ts) by (exists (ch_left (tk_chan t)); exact A). apply lines_mono in B. lia. Qed.
  Lemma live_acc t : live k D ts t -> Acc (fun b a => tstep k bytes D a b) t.
  Proof.
    remember (List.length (lines_of ts) - tk_answered t)%nat as m eqn:Em. revert t Em.
    induction m as [m IHm] using (well_founded_induction Wf_nat.lt_wf). intros t. remember (List.length (tk_way t)) as v eqn:Ev. revert t Ev.
    induction v as [v IHv] using (well_founded_induction Wf_nat.lt_wf). intros t Ev Em L. constructor. intros t' Hs.
    pose proof (live_step _ _ L Hs) as L'. pose proof (live_bound _ L') as B'. pose proof (live_bound _ L) as B.
    destruct Hs as [c n w h l o Hn Ha|c n a b h c' Hne Hd]; cbn [tk_answered tk_way] in *.
    - eapply IHm; [|reflexivity|exact L']. cbn [tk_answered]. lia.
    - eapply (IHv (List.length b)); [|reflexivity| |exact L']; [|exact Em]. rewrite Ev, app_length. destruct a; [congruence|cbn; lia].
  Qed.
  Lemma ends_ok : answering D -> ends k bytes D ts.
  Proof.
    intros An t Ht. pose proof (live_all t Ht) as L. split; [exact (live_acc t L)|]. intros Stuck. unfold finished.
    destruct (ch_done (tk_chan t)) eqn:Hd; [reflexivity|exfalso]. destruct L as (pre & A & Ln & L). specialize (L Hd).
    destruct t as [c n w h]. cbn [tk_chan tk_answered tk_way] in *. destruct L as [L|(x & s & _ & Hs & _)].
    - destruct A as (_ & B & _). rewrite <- B in L. destruct (nth_error (ch_sent c) n) as [l|] eqn:E; [|apply nth_error_None in E; lia].
      destruct (An n l) as (o & Ho). exact (Stuck _ (device_answers k bytes D c n w h l o E Ho)).
    - destruct w as [|s0 w]; [destruct Hs|]. destruct (data_total k bytes (text [s0]) c Hb) as (c' & Hc).
      exact (Stuck _ (chunks_arrive k bytes D c n [s0] w h c' ltac:(discriminate) Hc)).
  Qed.
End Live.

Lemma talk_waits cmds k ts lines : talk_of cmds k ts lines -> forall t, In t ts -> tn_wait t <> Some "".
Proof.
  intros T t Ht. destruct T; unfold ex_turns, mx_turns, jx_turns, br_turns, p8_turns, f10_turns in Ht;
    repeat (destruct Ht as [<-|Ht]; [discriminate|]); apply in_app_or in Ht as [Ht|Ht];
    try (apply in_map_iff in Ht as (c & <- & _); discriminate);
    repeat (destruct Ht as [<-|Ht]; [discriminate|]); destruct Ht.
Qed.

Lemma conversation_ends cmds k ts lines bytes D : talk_of cmds k ts lines -> bytes && kd_text k = false ->
  answering D -> prompts k D ts -> ends k bytes D ts.
Proof. intros T Hb An Hp. exact (ends_ok k bytes D ts Hb Hp (talk_waits _ _ _ _ T) An). Qed.

(** * What the device has said when a conversation is at its end *)

Lemma mentions_more w a s b : mentions w s -> mentions w (a +++ s +++ b).
Proof. intros (x & y & ->). exists (a +++ x), (y +++ b). rewrite !append_assoc. reflexivity. Qed.
Lemma mentions_trans a b c : mentions a b -> mentions b c -> mentions a c.
Proof. intros Ha (x & y & ->). apply mentions_more. exact Ha. Qed.
Lemma in_split_mentions c s x : In x (split_on c s) -> mentions x s.
Proof.
  intros H. apply in_split in H as (l & r & E). rewrite <- (join_split_on c s), E. clear E.
  induction l as [|y l IH].
  - cbn [app]. exists "". destruct r as [|z r]; [exists ""; cbn; rewrite append_nil_r; reflexivity|].
    exists (String c "" +++ join (String c "") (z :: r)). reflexivity.
  - assert (E : join (String c "") ((y :: l) ++ x :: r) = y +++ String c "" +++ join (String c "") (l ++ x :: r)).
    { cbn [app]. destruct (l ++ x :: r) eqn:E; [destruct l; discriminate|reflexivity]. }
    rewrite E. destruct IH as (u & v & ->). exists (y +++ String c "" +++ u), v. rewrite !append_assoc. reflexivity.
Qed.
Lemma strip_mentions s : mentions (strip s) s.
Proof. destruct (strip_trims s) as (a & b & E & _). exists a, b. exact E. Qed.
Lemma line_mentions whole w l : line_matches whole w (strip l) = true -> mentions w l.
Proof.
  destruct whole; cbn [line_matches]; intros H.
  - apply (proj1 (eqb_true w (strip l))) in H. subst w. apply strip_mentions.
  - apply contains_spec in H. exact (mentions_trans _ _ _ H (strip_mentions l)).
Qed.

Section Last.
  Variables (ts0 : list turn) (tl : turn) (w : string).
  Hypothesis Hl : tn_wait tl = Some w.
  Let ts := ts0 ++ [tl].

  Lemma last_goes c pre buf : at_turn ts c pre -> ch_wait c <> None -> ch_done (go_on buf (ch_sent c) (ch_left c)) = true -> ch_wait c = Some w.
  Proof.
    intros (A & B & C) Hw Hd. destruct (ch_left c) as [|u r] using rev_ind.
    - destruct C as [(C & _)|(w' & p & t & C & _ & P & T)]; [congruence|]. rewrite app_nil_r in A. subst pre.
      apply app_inj_tail in P as [_ <-]. congruence.
    - exfalso. rewrite app_assoc in A. apply app_inj_tail in A as [_ <-].
      revert Hd. clear - Hl. generalize (ch_sent c). induction r as [|v r IH]; intros x; cbn [app go_on]; [rewrite Hl; discriminate|].
      destruct (tn_wait v); [discriminate|apply IH].
  Qed.
  Lemma fold_done whole ls : forall c pre, at_turn ts c pre -> ch_done c = false ->
    ch_done (fold_left (match_line whole) ls c) = true -> exists l, In l ls /\ mentions w l.
  Proof.
    induction ls as [|l r IH]; intros c pre A Hd; cbn [fold_left]; [congruence|]. intros H.
    destruct (ch_done (match_line whole c l)) eqn:E.
    - exists l. split; [left; reflexivity|]. unfold match_line in E. destruct (ch_wait c) as [x|] eqn:Ew; [|congruence].
      destruct (line_matches whole x (strip l)) eqn:M; [|congruence].
      assert (W : ch_wait c = Some w) by (apply (last_goes c pre (ch_buf c) A); [rewrite Ew; discriminate|exact E]).
      assert (x = w) by congruence. subst x. exact (line_mentions _ _ _ M).
    - destruct (place_at ts pre c (match_line whole c l) A (proj1 (match_line_place ts pre whole c l A))) as (pre' & A' & _).
      destruct (IH _ pre' A' E H) as (l' & Hi & Hm). exists l'. split; [right; exact Hi|exact Hm].
  Qed.
  Lemma data_done k bytes d c c' pre : at_turn ts c pre -> ch_done c = false -> data_received k bytes d c = Ok c' -> ch_done c' = true ->
    mentions w (ch_buf c +++ d).
  Proof.
    intros A Hd. unfold data_received. destruct (eqb d ""); [congruence|]. destruct (bytes && kd_text k); [discriminate|].
    destruct (kd_look k) as [whole|].
    - destruct (shas "010" d); intros E; apply Ok_inj in E; subst c'; [|cbn [ch_done]; congruence]. intros H.
      destruct (fold_done whole _ (mkChan "" (ch_wait c) (ch_left c) (ch_sent c) (ch_done c)) pre A Hd H) as (l & Hi & Hm).
      apply filter_In in Hi as [Hi _]. apply in_map_iff in Hi as (x & <- & Hx).
      exact (mentions_trans _ _ _ Hm (mentions_trans _ _ _ (strip_mentions x) (in_split_mentions _ _ _ Hx))).
    - destruct (ch_wait c) as [x|] eqn:Ew; [|intros E; apply Ok_inj in E; subst c'; cbn [ch_done]; congruence].
      destruct (contains x (ch_buf c +++ d)) eqn:Cn; intros E; apply Ok_inj in E; subst c'; [|cbn [ch_done]; congruence]. intros H.
      assert (W : ch_wait c = Some w) by (apply (last_goes c pre "" A); [rewrite Ew; discriminate|exact H]).
      assert (x = w) by congruence. subst x. apply contains_spec in Cn. exact Cn.
  Qed.
  (** What a channel keeps is the end of what has come in. *)
  Lemma data_buf k bytes d c c' : data_received k bytes d c = Ok c' -> exists x, ch_buf c +++ d = x +++ ch_buf c'.
  Proof.
    unfold data_received. destruct (eqb d "") eqn:Ed.
    { intros E. apply Ok_inj in E. subst c'. apply (proj1 (eqb_true d "")) in Ed. subst d. exists "". rewrite append_nil_r. reflexivity. }
    destruct (bytes && kd_text k); [discriminate|].
    assert (Z : forall ch, ch_buf ch = "" -> exists x, ch_buf c +++ d = x +++ ch_buf ch) by (intros ch ->; exists (ch_buf c +++ d); rewrite append_nil_r; reflexivity).
    assert (G : forall b ls l, ch_buf (go_on b ls l) = b) by (intros b ls l; revert ls; induction l as [|t r IH]; intros ls; cbn; [reflexivity|destruct (tn_wait t); [reflexivity|apply IH]]).
    destruct (kd_look k) as [whole|].
    - destruct (shas "010" d); intros E; apply Ok_inj in E; subst c'; [|exists ""; reflexivity]. apply Z.
      assert (F : forall ls ch, ch_buf (fold_left (match_line whole) ls ch) = ch_buf ch).
      { induction ls as [|l r IH]; intros ch; [reflexivity|]. cbn [fold_left]. rewrite IH. unfold match_line. destruct (ch_wait ch); [|reflexivity].
        destruct (line_matches _ _ _); [apply G|reflexivity]. }
      rewrite F. reflexivity.
    - destruct (ch_wait c); [destruct (contains _ _)|]; intros E; apply Ok_inj in E; subst c'; [apply Z, G|exists ""; reflexivity|exists ""; reflexivity].
  Qed.

  Definition heard (t : talk) : Prop :=
    (exists pre, at_turn ts (tk_chan t) pre) /\ (exists x, tk_out t = x +++ ch_buf (tk_chan t) +++ text (tk_way t)) /\
    (ch_done (tk_chan t) = true -> mentions w (tk_out t)).
  Lemma go_buf b ls l : ch_buf (go_on b ls l) = b.
  Proof. revert ls; induction l as [|t r IH]; intros ls; cbn; [reflexivity|destruct (tn_wait t); [reflexivity|apply IH]]. Qed.
  Lemma heard_all k bytes D t : talks k bytes D ts t -> heard t.
  Proof.
    induction 1 as [b Hb|t t' _ (A & (x & O) & M) Hs].
    - split; [exact (begin_at ts)|]. cbn [tk_chan tk_out tk_way]. split; [exists ""; unfold begin; rewrite go_buf; reflexivity|].
      intros Hd. exfalso. revert Hd. unfold begin, ts. generalize (@nil string). clear - Hl. induction ts0 as [|u r IH]; intros l; cbn [app go_on]; [rewrite Hl; discriminate|].
      destruct (tn_wait u); [discriminate|apply IH].
    - destruct A as (pre & A). destruct Hs as [c n wy h l o Hn Ha|c n a b h c' Hne Hd]; unfold heard; cbn [tk_chan tk_out tk_way] in *.
      + split; [eauto|]. split; [exists x; rewrite O, text_app, !append_assoc; reflexivity|]. intros Hd.
        apply (mentions_more _ "" h (text o)) in M; [exact M|exact Hd].
      + split; [destruct (place_at ts pre c c' A (data_place _ _ _ _ _ _ _ A Hd)) as (p' & A' & _); eauto|].
        destruct (data_buf k bytes (text a) c c' Hd) as (y & Ey). rewrite text_app in O.
        assert (O' : h = (x +++ y) +++ ch_buf c' +++ text b).
        { rewrite O, append_assoc. f_equal. rewrite <- !append_assoc, <- Ey, !append_assoc. reflexivity. }
        split; [exists (x +++ y); exact O'|]. intros Hdn. destruct (ch_done c) eqn:E; [exact (M eq_refl)|].
        pose proof (data_done k bytes (text a) c c' pre A E Hd Hdn) as Mn. rewrite O.
        replace (x +++ ch_buf c +++ text a +++ text b) with (x +++ (ch_buf c +++ text a) +++ text b) by (rewrite !append_assoc; reflexivity).
        apply mentions_more. exact Mn.
  Qed.
End Last.

(** * Counting prompts *)

Lemma count_app c a b : count c (a +++ b) = (count c a + count c b)%nat.
Proof. induction a as [|d a IH]; cbn; [reflexivity|]. rewrite IH. lia. Qed.
Lemma contains_count c s : contains (String c "") s = true -> (1 <= count c s)%nat.
Proof. intros H. apply contains_spec in H as (a & b & ->). rewrite !count_app. cbn. rewrite Ascii.eqb_refl. lia. Qed.

Definition waits_for (c : ascii) (t : turn) : nat := match tn_wait t with Some w => if String.eqb w (String c "") then 1 else 0 | None => 0 end%nat.
Definition hits (c : ascii) (l : list turn) : nat := list_sum (map (waits_for c) l).
Lemma hits_app c a b : hits c (a ++ b) = (hits c a + hits c b)%nat.
Proof. unfold hits. rewrite map_app, list_sum_app. reflexivity. Qed.
Definition passed (c : chan) (pre : list turn) : list turn := if ch_done c then pre else removelast pre.

Lemma go_on_hits ch ts pre rest buf : ts = pre ++ rest ->
  exists pre', at_turn ts (go_on buf (lines_of pre) rest) pre' /\ hits ch (passed (go_on buf (lines_of pre) rest) pre') = hits ch pre.
Proof.
  revert pre. induction rest as [|t r IH]; intros pre H; cbn [go_on].
  - exists pre. split; [|reflexivity]. split; [exact H|]. split; [reflexivity|]. left. auto.
  - assert (L : lines_of pre ++ tn_write t = lines_of (pre ++ [t])) by (rewrite lines_app; cbn; rewrite app_nil_r; reflexivity).
    destruct (tn_wait t) as [w|] eqn:E.
    + exists (pre ++ [t]). split; [|unfold passed; cbn [ch_done]; rewrite removelast_last; reflexivity].
      split; [cbn [ch_left]; rewrite <- app_assoc; exact H|]. split; [cbn [ch_sent]; exact L|]. right. exists w, pre, t. auto.
    + rewrite L. destruct (IH (pre ++ [t])) as (pre' & A & Hh); [rewrite <- app_assoc; exact H|].
      exists pre'. split; [exact A|]. rewrite Hh, hits_app. unfold hits at 2. cbn. unfold waits_for. rewrite E. cbn. lia.
Qed.

Definition counted (ch : ascii) (ts : list turn) (t : talk) : Prop :=
  exists pre, at_turn ts (tk_chan t) pre /\
    (hits ch (passed (tk_chan t) pre) + count ch (ch_buf (tk_chan t)) + count ch (text (tk_way t)) <= count ch (tk_out t))%nat.
Lemma counted_all ch k bytes D ts t : kd_look k = ByData -> talks k bytes D ts t -> counted ch ts t.
Proof.
  intros Hk. induction 1 as [b Hb|t t' _ (pre & A & L) Hs].
  - destruct (go_on_hits ch ts [] ts "" eq_refl) as (pre & A & Hh). exists pre. cbn [tk_chan tk_way tk_out]. split; [exact A|].
    unfold begin. change (@nil string) with (lines_of []). rewrite Hh, go_buf. cbn. lia.
  - destruct Hs as [c n wy h l o Hn Ha|c n a b h c' Hne Hd]; cbn [tk_chan tk_way tk_out] in *.
    + exists pre. cbn [tk_chan tk_way tk_out]. split; [exact A|]. rewrite text_app, !count_app. lia.
    + rewrite text_app, count_app in L. unfold data_received in Hd.
      destruct (eqb (text a) "") eqn:Ea; [apply Ok_inj in Hd; subst c'; exists pre; cbn [tk_chan tk_way tk_out]; split; [exact A|lia]|].
      destruct (bytes && kd_text k); [discriminate|]. rewrite Hk in Hd.
      assert (St : c' = mkChan (ch_buf c +++ text a) (ch_wait c) (ch_left c) (ch_sent c) (ch_done c) -> counted ch ts (mkTalk c' n b h)).
      { intros ->. exists pre. cbn [tk_chan tk_way tk_out ch_buf]. split; [exact A|]. unfold passed in *. cbn [ch_done]. rewrite count_app. lia. }
      destruct (ch_wait c) as [w|] eqn:Ew.
      2:{ apply Ok_inj in Hd. apply St. congruence. }
      destruct (contains w (ch_buf c +++ text a)) eqn:Cn; apply Ok_inj in Hd; [|apply St; congruence].
      subst c'. clear St. pose proof A as (A1 & A2 & A3). rewrite A2.
      destruct (go_on_hits ch ts pre (ch_left c) "" A1) as (pre' & A' & Hh). exists pre'. cbn [tk_chan tk_way tk_out]. split; [exact A'|].
      rewrite Hh, go_buf. cbn [count].
      destruct A3 as [(A3 & _)|(w' & p & t & A3 & Dn & P & T)]; [congruence|]. assert (w' = w) by congruence. subst w' pre.
      unfold passed in L. rewrite Dn, removelast_last in L. rewrite hits_app. unfold hits at 2. cbn. unfold waits_for. rewrite T.
      destruct (String.eqb w (String ch "")) eqn:Eq; [|lia]. apply String.eqb_eq in Eq. subst w. apply contains_count in Cn. rewrite count_app in Cn. lia.
Qed.
Lemma finished_hits ch k bytes D ts t : kd_look k = ByData -> talks k bytes D ts t -> finished t -> (hits ch ts <= count ch (tk_out t))%nat.
Proof.
  intros Hk Ht Hf. destruct (counted_all ch k bytes D ts t Hk Ht) as (pre & A & L). unfold finished in Hf. unfold passed in L. rewrite Hf in L.
  destruct A as (A & _ & [(_ & _ & E)|(w & p & u & _ & F & _)]); [|congruence]. rewrite E, app_nil_r in A. subst pre. lia.
Qed.

(** How many of the prompts that answers may have are there. *)
Definition allowed (f : string -> nat) (l : list string) : nat := list_sum (map f l).
Lemma allowed_app f a b : allowed f (a ++ b) = (allowed f a + allowed f b)%nat.
Proof. unfold allowed. rewrite map_app, list_sum_app. reflexivity. Qed.
Lemma out_bound ch f k bytes D ts t : at_most ch D f -> talks k bytes D ts t ->
  (tk_answered t <= List.length (ch_sent (tk_chan t)))%nat /\
  (count ch (tk_out t) <= allowed f (firstn (tk_answered t) (flat_map tn_write ts)))%nat.
Proof.
  intros (Hb & Ha). induction 1 as [b Hban|t t' Ht IH Hs].
  - cbn [tk_answered tk_out tk_chan]. split; [lia|]. rewrite (Hb b Hban). lia.
  - assert (At : exists pre, at_turn ts (tk_chan t) pre).
    { clear -Ht. induction Ht as [b Hb|t t' _ (pre & A) Hs]; [exact (begin_at ts)|]. destruct Hs as [c n wy h l o Hn Ha|c n a b h c' Hne Hd]; [exists pre; exact A|].
      destruct (place_at ts pre c c' A (data_place _ _ _ _ _ _ _ A Hd)) as (p' & A' & _). exists p'. exact A'. }
    destruct At as (pre & A). destruct Hs as [c n wy h l o Hn Hans|c n a b h c' Hne Hd]; cbn [tk_answered tk_out tk_chan] in *.
    + assert (Lt : (n < List.length (ch_sent c))%nat) by (apply nth_error_Some; congruence). split; [exact Lt|].
      destruct (at_order _ _ _ A) as ((r & E) & _).
      assert (Hn' : nth_error (flat_map tn_write ts) n = Some l) by (rewrite E, nth_error_app1 by exact Lt; exact Hn).
      assert (F : firstn (S n) (flat_map tn_write ts) = firstn n (flat_map tn_write ts) ++ [l]).
      { clear -Hn'. revert n Hn'. generalize (flat_map tn_write ts). intros ls. induction ls as [|x ls IH]; intros [|n] H; try discriminate H; cbn in *; [congruence|].
        f_equal. exact (IH n H). }
      rewrite F, allowed_app, count_app. unfold allowed at 2. cbn. specialize (Ha n l o Hans). lia.
    + destruct IH as (L & C). split; [|exact C]. destruct (place_at ts pre c c' A (data_place _ _ _ _ _ _ _ A Hd)) as (p' & A' & B).
      destruct A as (_ & E1 & _), A' as (_ & E2 & _). rewrite E1 in L. rewrite E2. apply lines_mono in B. lia.
Qed.

Lemma junos_committed cmds k ts lines bytes D t :
  talk_of cmds k ts lines -> k = mkKind (ByLine true) true \/ k = mkKind (ByLine false) true -> talks k bytes D ts t -> finished t -> mentions "commit complete" (tk_out t).
Proof.
  intros T Hk Ht Hf. destruct T; try (destruct Hk; discriminate).
  - apply (heard_all (says "configure" ">" :: map (fun c => says c "[edit]") cmds) (says "commit" "commit complete") "commit complete" eq_refl _ _ _ _ Ht). exact Hf.
  - apply (heard_all (says "edit private" "[edit]" :: map (fun c => says c "[edit]") cmds) (says "commit" "commit complete") "commit complete" eq_refl _ _ _ _ Ht). exact Hf.
  - apply (heard_all (says "edit private" "{master:0}[edit]" :: map (fun c => says c "{master:0}[edit]") cmds) (says "commit" "commit complete") "commit complete" eq_refl _ _ _ _ Ht). exact Hf.
Qed.

Lemma hits_says ch cmds w : hits ch (map (fun c => says c w) cmds) = if String.eqb w (String ch "") then List.length cmds else 0%nat.
Proof.
  unfold hits. rewrite map_map. induction cmds as [|x r IH]; [destruct (String.eqb w (String ch "")); reflexivity|].
  cbn [map list_sum fold_right]. unfold list_sum in IH. rewrite IH. unfold waits_for. cbn [says tn_wait]. destruct (String.eqb w (String ch "")); reflexivity.
Qed.
Lemma allowed_ones l : allowed (fun _ => 1%nat) l = List.length l.
Proof. induction l as [|x r IH]; [reflexivity|]. cbn [List.length]. rewrite <- IH. reflexivity. Qed.
Lemma allowed_le f l : (forall x, f x <= 1)%nat -> (allowed f l <= List.length l)%nat.
Proof. intros H. induction l as [|x r IH]; [cbn; lia|]. change (allowed f (x :: r)) with (f x + allowed f r)%nat. cbn [List.length]. specialize (H x). lia. Qed.

Lemma brocade_executed p cmds bytes D t : at_most "#" D (fun _ => 1%nat) -> talks br_channel bytes D (br_turns p cmds) t -> finished t ->
  (List.length cmds + 2 <= tk_answered t)%nat.
Proof.
  intros Hm Ht Hf. pose proof (finished_hits "#" br_channel bytes D _ t eq_refl Ht Hf) as H1.
  destruct (out_bound "#" _ _ _ _ _ _ Hm Ht) as (_ & H2). rewrite allowed_ones in H2. pose proof (firstn_le_length (tk_answered t) (flat_map tn_write (br_turns p cmds))) as H3.
  rewrite firstn_length in H2.
  assert (E : hits "#" (br_turns p cmds) = (List.length cmds + 2)%nat).
  { unfold br_turns. change (says ("enable " +++ p) ">" :: says "configure terminal" "#" :: map (fun c => says c "#") cmds ++ [says "end" "#"])
      with ([says ("enable " +++ p) ">"; says "configure terminal" "#"] ++ map (fun c => says c "#") cmds ++ [says "end" "#"]).
    rewrite !hits_app, hits_says. cbn. lia. }
  lia.
Qed.

Lemma force10_executed p cmds bytes D t : at_most "#" D (fun l => if String.eqb l "enable" then 0%nat else 1%nat) ->
  talks f10_channel bytes D (f10_turns p cmds) t -> finished t -> (List.length cmds + 4 <= tk_answered t)%nat.
Proof.
  intros Hm Ht Hf. pose proof (finished_hits "#" f10_channel bytes D _ t eq_refl Ht Hf) as H1.
  destruct (out_bound "#" _ _ _ _ _ _ Hm Ht) as (_ & H2).
  assert (E : hits "#" (f10_turns p cmds) = (List.length cmds + 3)%nat).
  { unfold f10_turns.
    change (mkTurn [] (Some ">") :: says "enable" ":" :: says p "#" :: says "configure" "#" :: map (fun c => says c "#") cmds ++ [says "write" "#"; mkTurn ["exit"] None])
      with ([mkTurn [] (Some ">"); says "enable" ":"; says p "#"; says "configure" "#"] ++ map (fun c => says c "#") cmds ++ [says "write" "#"; mkTurn ["exit"] None]).
    rewrite !hits_app, hits_says. cbn. lia. }
  rewrite (talk_lines _ _ _ _ (talk_f10 cmds p)) in H2. destruct (tk_answered t) as [|n]; [cbn in H2; lia|].
  cbn [firstn] in H2. unfold allowed in H2. cbn [map list_sum fold_right] in H2. change (String.eqb "enable" "enable") with true in H2.
  match type of H2 with context [firstn n ?ls] => pose proof (allowed_le (fun l => if String.eqb l "enable" then 0%nat else 1%nat) (firstn n ls) ltac:(intros x; cbv beta; destruct (String.eqb x "enable"); lia)) as H3; pose proof (firstn_length n ls) as H4 end.
  unfold allowed, list_sum in *. lia.
Qed.

Definition is_echo (l : string) : nat := if String.eqb l "echo" then 1%nat else 0%nat.
Lemma pica8_executed cmds bytes D t : no_command "echo" cmds -> at_most "010" D is_echo ->
  talks p8_channel bytes D (p8_turns cmds) t -> finished t -> tk_answered t = List.length (flat_map tn_write (p8_turns cmds)).
Proof.
  intros Hno Hm Ht Hf. pose proof (finished_hits "010" p8_channel bytes D _ t eq_refl Ht Hf) as H1.
  destruct (out_bound "010" _ _ _ _ _ _ Hm Ht) as (H0 & H2). destruct (counted_all "010" p8_channel _ _ _ _ eq_refl Ht) as (pre & A & _).
  destruct (at_order _ _ _ A) as (_ & Hs). rewrite (Hs Hf) in H0. rewrite (talk_lines _ _ _ _ (talk_p8 cmds)) in *.
  assert (E : hits "010" (p8_turns cmds) = (List.length cmds + 2)%nat).
  { unfold p8_turns. change (says "echo" LF :: map (fun c => mkTurn [c; "echo"] (Some LF)) cmds ++ [says "echo" LF])
      with ([says "echo" LF] ++ map (fun c => mkTurn [c; "echo"] (Some LF)) cmds ++ [says "echo" LF]). rewrite !hits_app.
    assert (X : forall ls, hits "010" (map (fun c => mkTurn [c; "echo"] (Some LF)) ls) = List.length ls).
    { intros ls. induction ls as [|x r IH]; [reflexivity|]. cbn [map List.length]. rewrite <- IH. reflexivity. }
    rewrite X. cbn. lia. }
  assert (Al : allowed is_echo ("echo" :: flat_map (fun c => [c; "echo"]) cmds) = S (List.length cmds)).
  { change ("echo" :: flat_map (fun c => [c; "echo"]) cmds) with (["echo"] ++ flat_map (fun c => [c; "echo"]) cmds). rewrite allowed_app. change (allowed is_echo ["echo"]) with 1%nat.
    cbn [Nat.add]. f_equal. clear -Hno. induction cmds as [|x r IH]; [reflexivity|]. cbn [flat_map]. rewrite allowed_app, IH by (intros H; apply Hno; right; exact H).
    unfold allowed. cbn. unfold is_echo at 1. destruct (String.eqb x "echo") eqn:Ex; [|reflexivity]. apply String.eqb_eq in Ex. exfalso. apply Hno. left. exact Ex. }
  assert (M : forall n l, (allowed is_echo (firstn n l) <= allowed is_echo l)%nat).
  { intros n l. rewrite <- (firstn_skipn n l) at 2. rewrite allowed_app. lia. }
  destruct (PeanoNat.Nat.eq_dec (tk_answered t) (List.length ("echo" :: flat_map (fun c => [c; "echo"]) cmds ++ ["echo"]))) as [Eq|Ne]; [exact Eq|exfalso].
  change ("echo" :: flat_map (fun c => [c; "echo"]) cmds ++ ["echo"]) with (("echo" :: flat_map (fun c => [c; "echo"]) cmds) ++ ["echo"]) in *.
  rewrite app_length in H0, Ne. cbn [List.length] in H0, Ne. rewrite firstn_app in H2.
  replace (tk_answered t - List.length ("echo" :: flat_map (fun c => [c; "echo"]) cmds))%nat with 0%nat in H2 by (cbn [List.length]; lia).
  cbn [firstn] in H2. rewrite app_nil_r in H2. pose proof (M (tk_answered t) ("echo" :: flat_map (fun c => [c; "echo"]) cmds)) as H3. cbn [List.length] in H0. lia.
Qed.

(** * Senders *)

Definition sender_ok (as_ : list (nat * list turn)) (s : sender) : Prop :=
  exists fin, (sn_going s = [] /\ sn_queue s = [] /\ as_ = fin /\ sn_log s = flat_map whole_talk fin) \/
    (exists i ts c pre, sn_going s = [(i, c)] /\ at_turn ts c pre /\ ch_done c = false /\ as_ = fin ++ (i, ts) :: sn_queue s /\
       sn_log s = flat_map whole_talk fin ++ map (pair i) (ch_sent c)).

Definition real (as_ : list (nat * list turn)) : Prop := forall i ts, In (i, ts) as_ -> ch_done (begin ts) = false.

Lemma enter_ok fin i ts q log : ch_done (begin ts) = false -> log = flat_map whole_talk fin -> sender_ok (fin ++ (i, ts) :: q) (enter i ts (mkSender [] q log)).
Proof.
  intros Hd ->. exists fin. right. destruct (begin_at ts) as (pre & A). exists i, ts, (begin ts), pre. unfold enter. rewrite Hd. cbn. auto.
Qed.
Lemma step_locked_ok k bytes as_ s e s' : sender_ok as_ s -> real (as_ ++ asked [e]) -> step_locked k bytes s e = Ok s' -> sender_ok (as_ ++ asked [e]) s'.
Proof.
  intros (fin & H) R. destruct e as [j us|j d]; cbn [step_locked asked flat_map app].
  - intros E. apply Ok_inj in E. subst s'. unfold ask_locked.
    assert (Hj : ch_done (begin us) = false) by (apply (R j us); apply in_or_app; right; left; reflexivity).
    destruct H as [(G & Q & -> & L)|(i & ts & c & pre & G & A & Hd & -> & L)]; rewrite G.
    + destruct s as [g q l]. cbn in *. subst g q. apply enter_ok; assumption.
    + exists fin. right. exists i, ts, c, pre. cbn [sn_going sn_queue sn_log]. split; [reflexivity|]. split; [exact A|]. split; [exact Hd|].
      split; [rewrite <- app_assoc; reflexivity|exact L].
  - rewrite app_nil_r. unfold feed. destruct H as [(G & Q & E & L)|(i & ts & c & pre & G & A & Hd & E & L)].
    + rewrite G. cbn [aget Base.bind]. intros X. apply Ok_inj in X. subst s'. unfold hand_over. rewrite G, Q. exists fin. left. auto.
    + rewrite G. cbn [aget]. destruct (eqb j i) eqn:Eq.
      2:{ cbn [Base.bind]. intros X. apply Ok_inj in X. subst s'. unfold hand_over. rewrite G. exists fin. right. exists i, ts, c, pre. auto. }
      apply (proj1 (eqb_true j i)) in Eq. subst j.
      destruct (data_received k bytes d c) as [c'|er] eqn:Dr; cbn [Base.bind]; [|discriminate]. intros X. apply Ok_inj in X. subst s'.
      destruct (place_at ts pre c c' A (data_place _ _ _ _ _ _ _ A Dr)) as (pre' & A' & (x & B)).
      assert (Sk : ch_sent c ++ skipn (List.length (ch_sent c)) (ch_sent c') = ch_sent c').
      { destruct A as (_ & A & _), A' as (_ & A' & _). rewrite A', B, lines_app, <- A. rewrite skipn_app, skipn_all, PeanoNat.Nat.sub_diag. reflexivity. }
      assert (Lg : sn_log s ++ map (pair i) (skipn (List.length (ch_sent c)) (ch_sent c')) = flat_map whole_talk fin ++ map (pair i) (ch_sent c')).
      { rewrite L, <- app_assoc, <- map_app, Sk. reflexivity. }
      rewrite Lg. destruct (ch_done c') eqn:Hd'.
      * cbn [adel]. rewrite eqb_refl. unfold hand_over. cbn [sn_going sn_queue].
        assert (Wh : flat_map whole_talk fin ++ map (pair i) (ch_sent c') = flat_map whole_talk (fin ++ [(i, ts)])).
        { rewrite flat_map_app. f_equal. cbn [flat_map]. rewrite app_nil_r. unfold whole_talk. cbn [fst snd]. destruct (at_order _ _ _ A') as (_ & S). rewrite (S Hd'). reflexivity. }
        rewrite Wh. destruct (sn_queue s) as [|[j us] q] eqn:Q.
        -- exists (fin ++ [(i, ts)]). left. auto.
        -- cbn [sn_log]. rewrite E. replace (fin ++ (i, ts) :: (j, us) :: q) with ((fin ++ [(i, ts)]) ++ (j, us) :: q) by (rewrite <- app_assoc; reflexivity).
           apply enter_ok; [|reflexivity]. apply (R j us). rewrite app_nil_r, E. apply in_or_app. right. right. left. reflexivity.
      * cbn [aset]. rewrite eqb_refl. unfold hand_over. cbn [sn_going]. exists fin. right. exists i, ts, c', pre'. auto.
Qed.
Lemma run_locked_ok k bytes es : forall as_ s s', sender_ok as_ s -> real (as_ ++ asked es) -> sender_run (step_locked k bytes) es s = Ok s' -> sender_ok (as_ ++ asked es) s'.
Proof.
  induction es as [|e r IH]; intros as_ s s' H R; cbn [sender_run].
  - intros E. apply Ok_inj in E. subst s'. cbn. rewrite app_nil_r. exact H.
  - destruct (step_locked k bytes s e) as [s1|er] eqn:E; cbn [Base.bind]; [|discriminate]. intros X.
    assert (As : as_ ++ asked (e :: r) = (as_ ++ asked [e]) ++ asked r) by (unfold asked; cbn; rewrite app_nil_r, <- app_assoc; reflexivity).
    rewrite As in *. apply (IH _ s1); [|exact R|exact X]. apply (step_locked_ok k bytes as_ s e s1 H); [|exact E].
    intros i ts Hi. apply (R i ts). apply in_or_app. left. exact Hi.
Qed.
Lemma lock_ok k bytes es s : real (asked es) -> sender_run (step_locked k bytes) es (mkSender [] [] []) = Ok s -> in_turn (asked es) (sn_log s).
Proof.
  intros R H. destruct (run_locked_ok k bytes es [] (mkSender [] [] []) s) as (fin & F); [exists []; left; auto|exact R|exact H|].
  cbn [app] in F. destruct F as [(_ & _ & E & L)|(i & ts & c & pre & _ & A & _ & E & L)].
  - exists fin, [], [], []. rewrite !app_nil_r. split; [exact E|]. split; [exact L|]. split; [cbn; lia|]. exists []. reflexivity.
  - exists fin, [(i, ts)], (sn_queue s), (map (pair i) (ch_sent c)). split; [exact E|]. split; [exact L|]. split; [cbn; lia|].
    destruct (at_order _ _ _ A) as ((x & B) & _). exists (map (pair i) x). cbn. rewrite app_nil_r. unfold whole_talk. cbn. rewrite B, map_app. reflexivity.
Qed.
Lemma talk_not_done cmds k ts lines : talk_of cmds k ts lines -> ch_done (begin ts) = false.
Proof. intros []; reflexivity. Qed.

(** * What does not hold *)

Lemma received_talks k bytes D ts ps : dv_banner D ps -> forall c, received k bytes ps (begin ts) = Ok c ->
  talks k bytes D ts (mkTalk c 0 [] (text ps)).
Proof.
  intros Hb. assert (G : forall qs c0 c, talks k bytes D ts (mkTalk c0 0 qs (text ps)) -> received k bytes qs c0 = Ok c -> talks k bytes D ts (mkTalk c 0 [] (text ps))).
  { induction qs as [|q r IH]; intros c0 c Ht; cbn [received].
    - intros E. apply Ok_inj in E. subst c0. exact Ht.
    - destruct (data_received k bytes q c0) as [c1|er] eqn:E; cbn [Base.bind]; [|discriminate]. apply IH.
      apply (talks_on k bytes D ts _ _ Ht). apply (chunks_arrive k bytes D c0 0 [q] r (text ps) c1); [discriminate|]. cbn [text]. rewrite append_nil_r. exact E. }
  intros c H. exact (G ps _ c (talks_start k bytes D ts ps Hb) H).
Qed.

Lemma bytes_never cmds k ts lines D t : talk_of cmds k ts lines -> kd_text k = true -> talks k true D ts t -> ~ finished t.
Proof.
  intros T Hk Ht. assert (E : tk_chan t = begin ts).
  { induction Ht as [b Hb|t t' _ IH Hs]; [reflexivity|]. destruct Hs as [c n wy h l o Hn Ha|c n a b h c' Hne Hd]; cbn [tk_chan] in *; [exact IH|].
    unfold data_received in Hd. rewrite Hk in Hd. destruct (eqb (text a) ""); [apply Ok_inj in Hd; congruence|discriminate]. }
  unfold finished. rewrite E, (talk_not_done _ _ _ _ T). discriminate.
Qed.

Lemma junos_waits cmds k ts lines bytes D : talk_of cmds k ts lines -> k = mkKind (ByLine true) true \/ k = mkKind (ByLine false) true ->
  (forall t, talks k bytes D ts t -> ~ mentions "commit complete" (tk_out t)) -> forall t, talks k bytes D ts t -> ~ finished t.
Proof. intros T Hk Hn t Ht Hf. exact (Hn t Ht (junos_committed _ _ _ _ _ _ _ T Hk Ht Hf)). Qed.

(** Data for a link that holds the lock. *)
Lemma feed_alone k bytes i ds : forall c s, sn_going s = [(i, c)] -> ch_done c = false ->
  (forall ps qs c', ds = ps ++ qs -> received k bytes ps c = Ok c' -> ch_done c' = false) ->
  forall s', sender_run (step_locked k bytes) (map (Data i) ds) s = Ok s' -> exists c', sn_going s' = [(i, c')] /\ received k bytes ds c = Ok c' /\ sn_queue s' = sn_queue s /\
    (forall x, In x (sn_log s') -> In x (sn_log s) \/ fst x = i).
Proof.
  induction ds as [|d r IH]; intros c s G Hd H s'; cbn [map sender_run].
  - intros E. apply Ok_inj in E. subst s'. exists c. cbn. auto.
  - cbn [step_locked]. unfold feed. rewrite G. cbn [aget]. rewrite eqb_refl.
    destruct (data_received k bytes d c) as [c1|er] eqn:E; cbn [Base.bind]; [|discriminate].
    assert (D1 : ch_done c1 = false) by (apply (H [d] r c1); [reflexivity|cbn; rewrite E; reflexivity]). rewrite D1. unfold hand_over. cbn [sn_going aset]. rewrite eqb_refl.
    intros R. edestruct (IH c1) as (c' & G' & Rc & Q & L); [| |  |exact R|]; [reflexivity|exact D1| |].
    + intros ps qs c' Eq Rp. apply (H (d :: ps) qs c'); [rewrite Eq; reflexivity|]. cbn. rewrite E. exact Rp.
    + exists c'. split; [exact G'|]. split; [cbn [received]; rewrite E; exact Rc|]. split; [exact Q|]. intros x Hx. apply L in Hx as [Hx|Hx]; [|right; exact Hx].
      cbn [sn_log] in Hx. apply in_app_or in Hx as [Hx|Hx]; [left; exact Hx|right]. apply in_map_iff in Hx as (y & <- & _). reflexivity.
Qed.

Lemma failed_blocks cmds k ts lines bytes i ds others s :
  talk_of cmds k ts lines -> k = mkKind (ByLine true) true \/ k = mkKind (ByLine false) true -> ~ mentions "commit complete" (text ds) ->
  sender_run (step_locked k bytes) (Asks i ts :: map (Data i) ds ++ map (fun o => Asks (fst o) (snd o)) others) (mkSender [] [] []) = Ok s ->
  forall j l, In (j, l) (sn_log s) -> j = i.
Proof.
  intros T Hk Hn. pose proof (talk_not_done _ _ _ _ T) as Hb. cbn [sender_run step_locked Base.bind]. unfold ask_locked at 1. cbn [sn_going]. unfold enter at 1. rewrite Hb. cbn [sn_going sn_queue sn_log app].
  set (s0 := mkSender [(i, begin ts)] [] (map (pair i) (ch_sent (begin ts)))).
  assert (Sp : forall es fs st s2, sender_run (step_locked k bytes) (es ++ fs) st = Ok s2 ->
    exists s1, sender_run (step_locked k bytes) es st = Ok s1 /\ sender_run (step_locked k bytes) fs s1 = Ok s2).
  { induction es as [|e r IH]; intros fs st s2; cbn [app sender_run]; [eauto|]. destruct (step_locked k bytes st e) as [s1|er]; cbn [Base.bind]; [apply IH|discriminate]. }
  intros R. apply Sp in R as (s1 & R1 & R2).
  destruct (feed_alone k bytes i ds (begin ts) s0 eq_refl Hb) with (s' := s1) as (c' & G & _ & Q & L); [|exact R1|].
  { intros ps qs c1 E Rc. destruct (ch_done c1) eqn:Hd; [exfalso|reflexivity].
    set (D := mkDevice (fun b => b = ps) (fun _ _ _ => False)).
    pose proof (junos_committed _ _ _ _ bytes D _ T Hk (received_talks k bytes D ts ps eq_refl c1 Rc) Hd) as M. cbn [tk_out] in M.
    apply Hn. rewrite E, text_app. exact (mentions_more _ "" _ (text qs) M). }
  assert (Lg : forall os st, sn_going st = [(i, c')] -> forall s2, sender_run (step_locked k bytes) (map (fun o : nat * list turn => Asks (fst o) (snd o)) os) st = Ok s2 -> sn_log s2 = sn_log st).
  { induction os as [|o r IH]; intros st Gs s2; cbn [map sender_run]; [intros E; apply Ok_inj in E; congruence|]. cbn [step_locked Base.bind]. unfold ask_locked. rewrite Gs.
    intros E. exact (IH (mkSender [(i, c')] (sn_queue st ++ [(fst o, snd o)]) (sn_log st)) eq_refl s2 E). }
  rewrite (Lg others s1 G s R2). intros j l Hi. apply L in Hi as [Hi|Hi]; [|exact Hi].
  cbn [s0 sn_log] in Hi. apply in_map_iff in Hi as (y & [= <- _] & _). reflexivity.
Qed.

Lemma brocade_refused bytes p cmds e :
  exists c, received br_channel bytes (">" :: repeat (e +++ "#") (List.length cmds + 2)) (begin (br_turns p cmds)) = Ok c /\ ch_done c = true.
Proof.
  assert (C : forall b, contains "#" (b +++ e +++ "#") = true) by (intros b; apply contains_spec; exists (b +++ e), ""; rewrite append_nil_r, append_assoc; reflexivity).
  assert (Ne : eqb (e +++ "#") "" = false) by (apply eqb_neq; destruct e; discriminate).
  assert (G : forall ls buf sent w, exists c, received br_channel bytes (repeat (e +++ "#") (S (List.length ls)))
     (mkChan buf (Some "#") (map (fun c => says c "#") ls) (sent ++ [w]) false) = Ok c /\ ch_done c = true).
  { induction ls as [|x r IH]; intros buf sent w; cbn [repeat List.length received map].
    - unfold data_received. rewrite Ne. cbn [kd_text kd_look br_channel andb ch_wait ch_buf ch_sent ch_left]. rewrite andb_false_r. rewrite C. cbn. eauto.
    - unfold data_received at 1. rewrite Ne. cbn [kd_text kd_look br_channel andb ch_wait ch_buf ch_sent ch_left]. rewrite andb_false_r. rewrite C. cbn [Base.bind go_on says tn_wait tn_write].
      apply IH. }
  cbn [received]. unfold br_turns, begin. cbn [go_on says tn_wait tn_write]. unfold data_received at 1. change (eqb ">" "") with false. cbn [kd_text kd_look br_channel ch_wait ch_buf ch_sent ch_left]. rewrite andb_false_r.
  change (contains ">" ("" +++ ">")) with true. cbn [Base.bind go_on says tn_wait tn_write].
  destruct (G (cmds ++ ["end"]) "" (["enable " +++ p]) "configure terminal") as (c & E & Hd). exists c. split; [|exact Hd].
  rewrite map_app, app_length in E. cbn [List.length map] in E. replace (S (List.length cmds + 1)) with (List.length cmds + 2)%nat in E by lia. exact E.
Qed.

Lemma pica8_nothing cmds : exists t, talks p8_channel false (mkDevice (fun b => b = repeat LF (List.length cmds + 2)) (fun _ _ _ => False)) (p8_turns cmds) t /\
  finished t /\ tk_answered t = 0%nat.
Proof.
  set (D := mkDevice _ _).
  assert (G : forall ls sent, exists c, received p8_channel false (repeat LF (S (List.length ls)))
     (mkChan "" (Some LF) (map (fun c => mkTurn [c; "echo"] (Some LF)) ls ++ [says "echo" LF]) sent false) = Ok c /\
     ch_done c = false /\ ch_wait c = Some LF /\ ch_left c = []).
  { induction ls as [|x r IH]; intros sent; cbn [repeat List.length received map app].
    - eexists. split; [reflexivity|]. cbn. auto.
    - unfold data_received at 1. change (eqb LF "") with false. cbn [kd_text kd_look p8_channel andb ch_wait ch_buf ch_sent ch_left].
      change (contains LF ("" +++ LF)) with true. cbn [Base.bind go_on says tn_wait tn_write]. apply IH. }
  destruct (G cmds ["echo"]) as (c & E & Hd & Hw & Hl).
  assert (Rp : forall ps qs k b c0 c1, received k b ps c0 = Ok c1 -> received k b (ps ++ qs) c0 = received k b qs c1).
  { clear. induction ps as [|q r IH]; intros qs k b c0 c1; cbn [received app]; [intros E; apply Ok_inj in E; congruence|].
    destruct (data_received k b q c0); cbn [Base.bind]; [apply IH|discriminate]. }
  assert (F : exists c', received p8_channel false (repeat LF (List.length cmds + 2)) (begin (p8_turns cmds)) = Ok c' /\ ch_done c' = true).
  { replace (List.length cmds + 2)%nat with (S (List.length cmds) + 1)%nat by lia. rewrite repeat_app.
    assert (X : received p8_channel false (repeat LF (S (List.length cmds)) ++ repeat LF 1) (begin (p8_turns cmds)) = received p8_channel false [LF] c) by exact (Rp _ [LF] _ _ _ _ E).
    rewrite X. cbn [received]. unfold data_received. change (eqb LF "") with false. cbn [kd_text kd_look p8_channel andb]. rewrite Hw, Hl.
    assert (C : contains LF (ch_buf c +++ LF) = true) by (apply contains_spec; exists (ch_buf c), ""; rewrite append_nil_r; reflexivity). rewrite C. cbn. eauto. }
  destruct F as (c' & R & Hd'). exists (mkTalk c' 0 [] (text (repeat LF (List.length cmds + 2)))).
  split; [apply received_talks; [reflexivity|exact R]|]. split; [exact Hd'|reflexivity].
Qed.

Lemma one_line k w t r sent x y whole : kd_look k = ByLine whole -> w <> "" -> tn_wait t <> None -> shas "010" x = false -> trims x y ->
  exists c, data_received k false (x +++ LF) (mkChan "" (Some w) (t :: r) sent false) = Ok c /\
    (line_matches whole w y = true -> ch_sent c = sent ++ tn_write t) /\ (line_matches whole w y = false -> ch_sent c = sent).
Proof.
  intros Hk Hw Ht Hx Hy. unfold data_received. rewrite eqb_neq by (destruct x; discriminate). cbn [andb]. rewrite Hk.
  assert (Hs : shas "010" (x +++ LF) = true).
  { rewrite shas_app. change (shas "010" LF) with true. apply orb_true_r. }
  rewrite Hs. eexists. split; [reflexivity|]. change (ch_buf _ +++ x +++ LF) with (x +++ String "010" ""). rewrite split_on_app by exact Hx.
  change (split_on "010" "") with [""]. cbn [map]. change (strip "") with "". rewrite (trims_strip _ _ Hy).
  assert (F : forall l, filter (fun l0 => negb (eqb l0 "")) [l; ""] = if eqb l "" then [] else [l]).
  { intros l. cbn [filter]. rewrite eqb_refl. cbn [negb]. destruct (eqb l ""); reflexivity. }
  rewrite F. cbn [ch_wait ch_left ch_sent ch_done].
  assert (Sy : strip y = y) by (rewrite <- (trims_strip _ _ Hy); apply strip_strip).
  destruct (eqb y "") eqn:Ey.
  - apply (proj1 (eqb_true y "")) in Ey. subst y. cbn [fold_left ch_sent]. split; [|reflexivity]. intros M. exfalso. apply Hw.
    destruct whole; cbn [line_matches] in M; [exact (proj1 (eqb_true w "") M)|]. apply contains_spec in M as (a & b & E). destruct a; [|discriminate]. destruct w; [reflexivity|discriminate].
  - cbn [fold_left]. unfold match_line. cbn [ch_wait ch_left ch_sent ch_buf]. rewrite Sy. destruct (line_matches whole w y); (split; [|try reflexivity; discriminate]); [|discriminate].
    intros _. cbn [go_on]. destruct (tn_wait t); [reflexivity|congruence].
Qed.
