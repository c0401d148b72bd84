(** Proofs about the conversations with devices. *)
From Verif Require Import Base BaseProofs ModelPlugins ProofsPlugins SpecConfig ProofsConfig ModelChannel SpecChannel.
Open Scope Z_scope.

(** * Where a channel is in its conversation *)

Definition lines_of (ts : list turn) : list string := flat_map tn_write ts.
Lemma lines_app a b : lines_of (a ++ b) = lines_of a ++ lines_of b.
Proof. apply flat_map_app. Qed.

(** [c] has said the turns [pre] of [ts]. *)
Definition at_turn (ts : list turn) (c : chan) (pre : list turn) : Prop :=
  ts = pre ++ ch_left c /\ ch_sent c = lines_of pre /\
  ((ch_wait c = None /\ ch_done c = true /\ ch_left c = []) \/
   (exists w p t, ch_wait c = Some w /\ ch_done c = false /\ pre = p ++ [t] /\ tn_wait t = Some w)).

Lemma go_on_at ts pre rest buf : ts = pre ++ rest ->
  exists pre', at_turn ts (go_on buf (lines_of pre) rest) pre' /\ beginning pre pre' /\ (rest <> [] -> (List.length pre < List.length pre')%nat) /\
    ch_buf (go_on buf (lines_of pre) rest) = buf.
Proof.
  revert pre. induction rest as [|t r IH]; intros pre H; cbn [go_on].
  - exists pre. split; [|split; [exists []; rewrite app_nil_r; reflexivity|split; [congruence|reflexivity]]].
    split; [exact H|]. split; [reflexivity|]. left. auto.
  - assert (L : lines_of pre ++ tn_write t = lines_of (pre ++ [t])) by (rewrite lines_app; cbn; rewrite app_nil_r; reflexivity).
    destruct (tn_wait t) as [w|] eqn:E.
    + exists (pre ++ [t]). split; [|split; [exists [t]; reflexivity|split; [intros _; rewrite app_length; cbn; lia|reflexivity]]].
      split; [cbn [ch_left]; rewrite <- app_assoc; exact H|]. split; [cbn [ch_sent]; exact L|]. right. exists w, pre, t. auto.
    + rewrite L. destruct (IH (pre ++ [t])) as (pre' & A & (x & B) & _ & Hb); [rewrite <- app_assoc; exact H|].
      exists pre'. split; [exact A|]. split; [exists (t :: x); rewrite B, <- app_assoc; reflexivity|]. split; [|exact Hb].
      intros _. rewrite B, !app_length. cbn. lia.
Qed.

(** Nothing but the buffer has changed. *)
Definition same_place (c c' : chan) : Prop :=
  ch_wait c' = ch_wait c /\ ch_left c' = ch_left c /\ ch_sent c' = ch_sent c /\ ch_done c' = ch_done c.
(** The next turn at least has been said. *)
Definition moved (ts pre : list turn) (c c' : chan) : Prop :=
  exists pre', at_turn ts c' pre' /\ beginning pre pre' /\ ch_wait c <> None /\
    ((List.length pre < List.length pre')%nat \/ ch_done c' = true).

Lemma at_same ts pre c c' : at_turn ts c pre -> same_place c c' -> at_turn ts c' pre.
Proof.
  intros (A & B & C) (E1 & E2 & E3 & E4). unfold at_turn. rewrite E1, E2, E3, E4. auto.
Qed.
Lemma beginning_trans {A} (a b c : list A) : beginning a b -> beginning b c -> beginning a c.
Proof. intros [x ->] [y ->]. exists (x ++ y). rewrite app_assoc. reflexivity. Qed.
Lemma beginning_refl {A} (a : list A) : beginning a a.
Proof. exists []. rewrite app_nil_r. reflexivity. Qed.
Lemma beginning_length {A} (a b : list A) : beginning a b -> (List.length a <= List.length b)%nat.
Proof. intros [x ->]. rewrite app_length. lia. Qed.

Lemma go_on_moved ts pre c buf : at_turn ts c pre -> ch_wait c <> None -> moved ts pre c (go_on buf (ch_sent c) (ch_left c)).
Proof.
  intros (A & B & C) Hw. rewrite B. destruct (go_on_at ts pre (ch_left c) buf A) as (pre' & A' & Bg & L & _).
  exists pre'. split; [exact A'|]. split; [exact Bg|]. split; [exact Hw|].
  destruct (ch_left c) as [|t r] eqn:E; [right; reflexivity|left; apply L; discriminate].
Qed.

Lemma same_refl c : same_place c c.
Proof. repeat split. Qed.
Lemma moved_same ts pre c c' c'' : moved ts pre c c' -> same_place c' c'' -> moved ts pre c c''.
Proof.
  intros (pre' & A & B & C & D) S. exists pre'. split; [exact (at_same _ _ _ _ A S)|]. split; [exact B|]. split; [exact C|].
  destruct S as (_ & _ & _ & ->). exact D.
Qed.
Lemma moved_trans ts pre c c' pre' c'' : at_turn ts c' pre' -> beginning pre pre' -> ch_wait c <> None ->
  ((List.length pre < List.length pre')%nat \/ ch_done c' = true) -> moved ts pre' c' c'' -> moved ts pre c c''.
Proof.
  intros A B W L (p2 & A2 & B2 & W2 & L2). exists p2. split; [exact A2|]. split; [exact (beginning_trans _ _ _ B B2)|]. split; [exact W|].
  apply beginning_length in B2. apply beginning_length in B. destruct L2 as [L2|L2]; [left; lia|right; exact L2].
Qed.

Lemma match_line_place ts pre whole c l : at_turn ts c pre ->
  (same_place c (match_line whole c l) \/ moved ts pre c (match_line whole c l)) /\
  (forall w, ch_wait c = Some w -> line_matches whole w (strip l) = true -> moved ts pre c (match_line whole c l)).
Proof.
  intros A. unfold match_line. destruct (ch_wait c) as [w|] eqn:E; [|split; [left; apply same_refl|intros w Hw; discriminate Hw]].
  assert (G : moved ts pre c (go_on (ch_buf c) (ch_sent c) (ch_left c))) by (apply go_on_moved; [exact A|rewrite E; discriminate]).
  destruct (line_matches whole w (strip l)) eqn:M; [split; [right; exact G|intros w' [= <-] _; exact G]|].
  split; [left; apply same_refl|]. intros w' [= <-] M'. congruence.
Qed.
Lemma match_line_moved_on ts pre whole c c' l : moved ts pre c c' -> moved ts pre c (match_line whole c' l).
Proof.
  intros (pre' & A & B & C & D). destruct (proj1 (match_line_place ts pre' whole c' l A)) as [S|M].
  - exact (moved_same _ _ _ c' _ (ex_intro _ pre' (conj A (conj B (conj C D)))) S).
  - exact (moved_trans _ _ _ _ _ _ A B C D M).
Qed.
Lemma fold_moved_on ts pre whole ls : forall c c', moved ts pre c c' -> moved ts pre c (fold_left (match_line whole) ls c').
Proof. induction ls as [|l r IH]; intros c c' H; [exact H|]. cbn [fold_left]. apply IH, match_line_moved_on, H. Qed.
Lemma fold_place ts pre whole ls : forall c, at_turn ts c pre ->
  (same_place c (fold_left (match_line whole) ls c) \/ moved ts pre c (fold_left (match_line whole) ls c)) /\
  (forall w l, ch_wait c = Some w -> In l ls -> line_matches whole w (strip l) = true -> moved ts pre c (fold_left (match_line whole) ls c)).
Proof.
  induction ls as [|x r IH]; intros c A; [split; [left; apply same_refl|intros w l _ []]|]. cbn [fold_left].
  destruct (match_line_place ts pre whole c x A) as [[S|M] F].
  - destruct (IH _ (at_same _ _ _ _ A S)) as [H1 H2]. split.
    + destruct H1 as [H1|H1].
      * left. destruct S as (S1 & S2 & S3 & S4), H1 as (T1 & T2 & T3 & T4). unfold same_place. rewrite T1, T2, T3, T4. auto.
      * right. destruct H1 as (p & P1 & P2 & P3 & P4). exists p. split; [exact P1|]. split; [exact P2|]. split; [|exact P4].
        destruct S as (S1 & _). rewrite S1 in P3. exact P3.
    + intros w l Hw [->|Hl] Hm; [apply fold_moved_on, (F w Hw Hm)|].
      assert (Hw' : ch_wait (match_line whole c x) = Some w) by (destruct S as (S1 & _); rewrite S1; exact Hw).
      destruct (H2 w l Hw' Hl Hm) as (p & P1 & P2 & P3 & P4). exists p. split; [exact P1|]. split; [exact P2|]. split; [congruence|exact P4].
  - split; [right; apply fold_moved_on, M|]. intros. apply fold_moved_on, M.
Qed.

(** * Lines and texts *)

Lemma strip_strip s : strip (strip s) = strip s.
Proof.
  apply trims_strip. destruct (strip_trims s) as (a & b & _ & _ & _ & H). exists "", "". rewrite append_nil_r. auto.
Qed.
Lemma split_on_after c p r : exists x l, split_on c (p +++ String c r) = x :: l ++ split_on c r.
Proof.
  induction p as [|d p (x & l & IH)].
  - exists "", []. cbn. rewrite Ascii.eqb_refl. reflexivity.
  - change (String d p +++ String c r) with (String d (p +++ String c r)). cbn [split_on]. rewrite IH.
    destruct (Ascii.eqb d c); [exists "", (x :: l)|exists (String d x), l]; reflexivity.
Qed.
Lemma line_in p x q : shas "010" x = false -> In x (split_on "010" (p +++ LF +++ x +++ LF +++ q)).
Proof.
  intros H. change (p +++ LF +++ x +++ LF +++ q) with (p +++ String "010" (x +++ String "010" q)).
  destruct (split_on_after "010" p (x +++ String "010" q)) as (y & l & ->). rewrite split_on_app by exact H.
  right. apply in_or_app. right. left. reflexivity.
Qed.
Lemma text_app a b : text (a ++ b) = text a +++ text b.
Proof. induction a as [|x a IH]; cbn; [reflexivity|]. rewrite IH, append_assoc. reflexivity. Qed.
Lemma text_in s a : In s a -> exists p q, text a = p +++ s +++ q.
Proof.
  intros H. apply in_split in H as (x & y & ->). exists (text x), (text y). rewrite text_app. cbn. reflexivity.
Qed.
Lemma shas_LF_mid p x q : shas "010" (p +++ LF +++ x +++ LF +++ q) = true.
Proof. rewrite shas_app. unfold LF at 1. cbn [append]. rewrite shas_cons. cbn. rewrite orb_true_r. reflexivity. Qed.
Lemma contains_mid w p q : contains w (p +++ w +++ q) = true.
Proof. apply contains_spec. eauto. Qed.

(** * What data does to a channel *)

Lemma data_place k bytes ts pre d c c' : at_turn ts c pre -> data_received k bytes d c = Ok c' -> same_place c c' \/ moved ts pre c c'.
Proof.
  intros A. unfold data_received. destruct (eqb d ""); [intros [= <-]; left; apply same_refl|].
  destruct (bytes && kd_text k); [discriminate|]. destruct (kd_look k) as [whole|].
  - destruct (shas "010" d); intros [= <-]; [|left; repeat split].
    apply (proj1 (fold_place ts pre whole _ (mkChan "" (ch_wait c) (ch_left c) (ch_sent c) (ch_done c)) A)).
  - destruct (ch_wait c) as [w|] eqn:E; [|intros [= <-]; left; repeat split; cbn; congruence].
    destruct (contains w (ch_buf c +++ d)); intros [= <-]; [|left; repeat split; cbn; congruence].
    right. apply go_on_moved; [exact A|rewrite E; discriminate].
Qed.

Lemma data_shown k ts pre w a c c' : at_turn ts c pre -> ch_wait c = Some w -> w <> "" -> shown k w a ->
  data_received k false (text a) c = Ok c' -> moved ts pre c c'.
Proof.
  intros A Hw Hne (s & Hs & Sh) H. destruct (text_in _ _ Hs) as (p & q & Et). rewrite Et in H. clear Et Hs a.
  assert (Nw : forall y, contains w y = true -> y <> "") by (intros y Hy ->; apply contains_spec in Hy as (u & v & E); destruct u; [destruct w; [congruence|discriminate]|discriminate]).
  assert (Ne : p +++ s +++ q <> "").
  { intros E. unfold shows in Sh. destruct (kd_look k) as [[]|].
    - destruct Sh as (x & -> & _). destruct p; discriminate.
    - destruct Sh as (x & _ & _ & _ & -> & _). destruct p; discriminate.
    - destruct Sh as (u & v & ->). destruct p; [|discriminate]. destruct u; [|discriminate]. destruct w; [congruence|discriminate]. }
  unfold data_received in H. rewrite eqb_neq in H by exact Ne. cbn [andb] in H. unfold shows in Sh.
  assert (L : forall whole x, shas "010" x = false -> s = LF +++ x +++ LF -> kd_look k = ByLine whole -> line_matches whole w (strip x) = true -> moved ts pre c c').
  { intros whole x Hx -> Hk Hm. rewrite Hk in H. rewrite !append_assoc in H. rewrite shas_LF_mid in H. apply Ok_inj in H. subst c'.
    set (c0 := mkChan "" (ch_wait c) (ch_left c) (ch_sent c) (ch_done c)).
    assert (G : moved ts pre c0 (fold_left (match_line whole) (filter (fun l => negb (eqb l "")) (map strip (split_on "010" (ch_buf c +++ p +++ LF +++ x +++ LF +++ q)))) c0)).
    { apply (proj2 (fold_place ts pre whole _ c0 A) w (strip x) Hw).
      - apply filter_In. split; [apply in_map; rewrite <- append_assoc; apply line_in; exact Hx|].
        rewrite eqb_neq; [reflexivity|]. unfold line_matches in Hm. destruct whole; [|exact (Nw _ Hm)].
        apply (proj1 (eqb_true w (strip x))) in Hm. intros E. apply Hne. rewrite Hm. exact E.
      - rewrite strip_strip. exact Hm. }
    destruct G as (p2 & G1 & G2 & G3 & G4). exists p2. auto. }
  destruct (kd_look k) as [[]|] eqn:Hk.
  - destruct Sh as (x & -> & Hx & Ht). apply (L true x Hx eq_refl eq_refl). apply trims_strip in Ht. rewrite Ht. cbn. apply eqb_refl.
  - destruct Sh as (x & y & u & v & -> & Hx & Ht & ->). apply (L false x Hx eq_refl eq_refl). apply trims_strip in Ht. rewrite Ht. cbn. apply contains_mid.
  - destruct Sh as (u & v & ->). rewrite Hw in H.
    assert (C : contains w (ch_buf c +++ p +++ (u +++ w +++ v) +++ q) = true).
    { apply contains_spec. exists (ch_buf c +++ p +++ u), (v +++ q). rewrite !append_assoc. reflexivity. }
    rewrite C in H. apply Ok_inj in H. subst c'. apply go_on_moved; [exact A|rewrite Hw; discriminate].
Qed.
