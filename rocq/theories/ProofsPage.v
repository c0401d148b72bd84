(** Proofs for C96. *)
From Verif Require Import Base BaseProofs ModelLabel SpecLabel ProofsLabel ProofsSTP ModelTime SpecTime ProofsTimeText ModelPage SpecPage.
Open Scope Z_scope.

Lemma page_ok {A} (a b : A) : Ok a = Ok b -> a = b.
Proof. congruence. Qed.
Lemma split_on_cat c a b : split_on c (a +++ String c b) = split_on c a ++ split_on c b.
Proof.
  induction a as [|d a IH]; [change ("" +++ String c b) with (String c b); cbn [split_on]; rewrite Ascii.eqb_refl; reflexivity|].
  change (String d a +++ String c b) with (String d (a +++ String c b)). cbn [split_on]. destruct (Ascii.eqb d c); [rewrite IH; reflexivity|].
  rewrite IH. destruct (split_on c a) as [|x l] eqn:E; [destruct (split_on_nonnil _ _ E)|reflexivity].
Qed.
Lemma page_time_moment t : time_exists t -> page_time t = moment t.
Proof.
  intros ((Hy & Hm & Hd) & Hh & Hmi & Hs & _). unfold page_time, moment. assert (M : month_length (dy t) (dmo t) <= 31).
  { unfold month_length. destruct (leap_yearb (dy t)); destruct (dmo t) as [|p|]; try lia; repeat (destruct p as [p|p|]; try lia). }
  rewrite pad4_four, !pad2_two by lia. reflexivity.
Qed.
Lemma page_stp_end net port l : (forall x, l = Some x -> wf_values (lvalues x)) -> end_point net port l (page_stp net port l).
Proof.
  unfold end_point, page_stp. destruct l as [l|]; intros H; [|rewrite append_nil_r; reflexivity].
  exists (label_value l). split; [reflexivity|]. apply label_value_roundtrip. apply H. reflexivity.
Qed.
Lemma page_stp_plain net port l : plain_text net -> plain_text port -> plain_text (page_stp net port l).
Proof.
  unfold plain_text, page_stp. intros H1 H2. destruct l as [l|]; rewrite !shas_app, H1, H2; [rewrite label_value_lacks by reflexivity|]; reflexivity.
Qed.
Lemma pad_plain w n : shas "<" (pad w n) = false.
Proof.
  revert n. induction w as [|w IH]; intros n; [reflexivity|]. cbn [pad]. rewrite shas_app, IH. cbn [orb].
  rewrite shas_cons. cbn [shas]. rewrite orb_false_r. unfold digit_char.
  assert (R : 0 <= n mod 10 < 10) by (apply Z.mod_pos_bound; lia). generalize dependent (n mod 10). intros z R.
  assert (D : z = 0 \/ z = 1 \/ z = 2 \/ z = 3 \/ z = 4 \/ z = 5 \/ z = 6 \/ z = 7 \/ z = 8 \/ z = 9) by lia.
  destruct D as [->|[->|[->|[->|[->|[->|[->|[->|[->| ->]]]]]]]]]; reflexivity.
Qed.
Lemma page_time_plain t : plain_text (page_time t).
Proof. unfold plain_text, page_time. rewrite !shas_app, !pad_plain. reflexivity. Qed.

Definition quiet (p : string) (row : list string) (out : list (list string)) : Prop :=
  shas "<" p = false /\ forall x rest, table row None ((p +++ x) :: rest) = out ++ table [] None rest.

(** The cells of a row as the code makes them. *)
Definition cells_of (r : page_row) (e : dt) : list string :=
  [pg_id r; pg_life r; page_stp (pg_snet r) (pg_sport r) (pg_slabel r); page_stp (pg_dnet r) (pg_dport r) (pg_dlabel r);
   match pg_start r with Some s => page_time s | None => "-" end; page_time e].

Ltac toks := repeat (rewrite split_on_app by (rewrite ?shas_app; repeat match goal with H : shas _ _ = false |- _ => rewrite H end; reflexivity)).
Lemma line_tokens (l p q a b c d f g : string) : shas "<" p = false -> plain_text a -> plain_text b -> plain_text c -> plain_text d -> plain_text f -> plain_text g ->
  l = NL +++ blanks 17 +++ "<tr>" +++ NL +++
          blanks 20 +++ "<th><div>" +++ a +++ "</div></th>" +++ NL +++
          blanks 20 +++ "<th>" +++ b +++ "</th>" +++ NL +++
          blanks 20 +++ "<th>" +++ c +++ "</th>" +++ NL +++
          blanks 20 +++ "<th>" +++ d +++ "</th>" +++ NL +++
          blanks 20 +++ "<th>" +++ f +++ "</th>" +++ NL +++
          blanks 20 +++ "<th>" +++ g +++ "</th>" +++ NL +++
          blanks 17 +++ "</tr>" +++ NL +++ blanks 12 ->
  forall row out, quiet p row out -> table row None (split_on "<" (p +++ l +++ q)) = out ++ table [a; b; c; d; f; g] None (split_on "<" (("/tr>" +++ NL +++ blanks 12) +++ q)).
Proof.
  unfold plain_text. intros Hp Ha Hb Hc Hd Hf Hg -> row out [_ Q].
  set (w := NL +++ blanks 20). set (v := NL +++ blanks 17). set (u := "/tr>" +++ NL +++ blanks 12).
  assert (E : p +++ (NL +++ blanks 17 +++ "<tr>" +++ NL +++ blanks 20 +++ "<th><div>" +++ a +++ "</div></th>" +++ NL +++ blanks 20 +++ "<th>" +++ b +++ "</th>" +++ NL +++
          blanks 20 +++ "<th>" +++ c +++ "</th>" +++ NL +++ blanks 20 +++ "<th>" +++ d +++ "</th>" +++ NL +++ blanks 20 +++ "<th>" +++ f +++ "</th>" +++ NL +++
          blanks 20 +++ "<th>" +++ g +++ "</th>" +++ NL +++ blanks 17 +++ "</tr>" +++ NL +++ blanks 12) +++ q =
    (p +++ v) +++ String "<" (("tr>" +++ w) +++ String "<" ("th>" +++ String "<" (("div>" +++ a) +++ String "<" ("/div>" +++ String "<" (("/th>" +++ w) +++
    String "<" (("th>" +++ b) +++ String "<" (("/th>" +++ w) +++ String "<" (("th>" +++ c) +++ String "<" (("/th>" +++ w) +++ String "<" (("th>" +++ d) +++ String "<" (("/th>" +++ w) +++
    String "<" (("th>" +++ f) +++ String "<" (("/th>" +++ w) +++ String "<" (("th>" +++ g) +++ String "<" (("/th>" +++ v) +++ String "<" (u +++ q))))))))))))))))).
  { unfold u, v, w. rewrite !append_assoc. reflexivity. }
  rewrite E. clear E.
  assert (Hw : shas "<" w = false) by reflexivity. assert (Hv : shas "<" v = false) by reflexivity.
  toks. rewrite Q. f_equal.
  clearbody u. assert (S : forall y r0 rest, table r0 None (("th>" +++ y) :: rest) = table r0 (Some y) rest) by reflexivity.
  assert (T : forall z x r0 rest, table r0 (Some z) (("/th>" +++ x) :: rest) = table (r0 ++ [z]) None rest) by reflexivity.
  assert (R : forall x r0 rest, table r0 None (("tr>" +++ x) :: rest) = table [] None rest) by reflexivity.
  assert (S0 : forall r0 rest, table r0 None ("th>" :: rest) = table r0 (Some "") rest) by reflexivity.
  assert (D : forall y z r0 rest, table r0 (Some z) (("div>" +++ y) :: rest) = table r0 (Some (z +++ y)) rest) by reflexivity.
  assert (D' : forall z r0 rest, table r0 (Some z) ("/div>" :: rest) = table r0 (Some (z +++ "")) rest) by reflexivity.
  rewrite R, S0, D, D', append_nil_r. change ("" +++ a) with a.
  rewrite T, S, T, S, T, S, T, S, T, S, T. reflexivity.
Qed.

Lemma page_line_ok r l : page_line r = Ok l -> exists e, pg_end r = Some e.
Proof. unfold page_line. destruct (pg_end r) as [e|]; [eauto|discriminate]. Qed.

Lemma lines_read s q : shas "<" s = false -> forall rs ls p row out, page_lines rs = Ok ls -> (forall r, In r rs -> plain_row r) -> quiet p row out ->
  exists cs, Forall2 (fun r c => exists e, pg_end r = Some e /\ c = cells_of r e) rs cs /\
    table row None (split_on "<" (p +++ ls +++ s +++ String "<" q)) = out ++ cs ++ table [] None (split_on "<" q).
Proof.
  intros Hs. induction rs as [|r rs IH]; intros ls p row out H P Q; cbn [page_lines] in H.
  - apply page_ok in H. subst ls. exists []. split; [constructor|]. cbn [append app]. destruct Q as [Q1 Q2]. rewrite <- append_assoc, split_on_app by (rewrite shas_app, Q1, Hs; reflexivity). apply Q2.
  - destruct (page_line r) as [l|] eqn:El; [|discriminate]. cbn [Base.bind] in H. destruct (page_lines rs) as [ls'|] eqn:Els; [|discriminate]. cbn [Base.bind] in H. apply page_ok in H. subst ls.
    destruct (page_line_ok _ _ El) as (e & Ee). destruct (P r (or_introl eq_refl)) as (P1 & P2 & P3 & P4 & P5 & P6).
    assert (Q' : quiet ("/tr>" +++ NL +++ blanks 12) (cells_of r e) [cells_of r e]) by (split; [reflexivity|reflexivity]).
    destruct (IH _ _ _ _ eq_refl (fun x I => P x (or_intror I)) Q') as (cs & F & E).
    exists (cells_of r e :: cs). split; [constructor; [eauto|exact F]|].
    unfold page_line in El. rewrite Ee in El. apply page_ok in El. rewrite append_assoc.
    rewrite (line_tokens l p (ls' +++ s +++ String "<" q) (pg_id r) (pg_life r) (page_stp (pg_snet r) (pg_sport r) (pg_slabel r)) (page_stp (pg_dnet r) (pg_dport r) (pg_dlabel r))
      (match pg_start r with Some s => page_time s | None => "-" end) (page_time e) (proj1 Q) P1 P2 (page_stp_plain _ _ _ P3 P4) (page_stp_plain _ _ _ P5 P6)
      ltac:(destruct (pg_start r); [apply page_time_plain|reflexivity]) (page_time_plain e) (eq_sym El) row out Q).
    fold (cells_of r e). rewrite E. reflexivity.
Qed.

Lemma cells_show r e : stored_row r -> pg_end r = Some e -> shows_row r (cells_of r e).
Proof.
  intros [L T] E. unfold cells_of. econstructor; [apply page_stp_end; eauto|apply page_stp_end; eauto|exact E|apply page_time_moment; eauto|].
  destruct (pg_start r) as [s|]; [|reflexivity]. apply page_time_moment. eauto.
Qed.

Lemma page_lines_total rs : (forall r, In r rs -> pg_end r <> None) -> exists ls, page_lines rs = Ok ls.
Proof.
  induction rs as [|r rs IH]; intros H; [eexists; reflexivity|]. cbn [page_lines]. destruct (IH (fun x I => H x (or_intror I))) as (ls & ->).
  unfold page_line. destruct (pg_end r) as [e|] eqn:E; [|destruct (H r (or_introl eq_refl) E)]. cbn [Base.bind]. eauto.
Qed.
Lemma page_lines_open rs r : In r rs -> pg_end r = None -> exists x, page_lines rs = Err x.
Proof.
  induction rs as [|y rs IH]; intros I E; [destruct I|]. cbn [page_lines]. destruct I as [->|I].
  - unfold page_line. rewrite E. cbn [Base.bind]. eauto.
  - destruct (IH I E) as (x & ->). destruct (page_line y); cbn [Base.bind]; eauto.
Qed.

Theorem page_listed rs : (forall r, In r rs -> pg_end r <> None) -> (forall r, In r rs -> stored_row r /\ plain_row r) ->
  an_finished (render_page false rs) = true /\
  exists cs, read_table (whole (an_written (render_page false rs))) = headings :: cs /\ Forall2 shows_row rs cs.
Proof.
  intros H P. destruct (page_lines_total rs H) as (ls & E). unfold render_page, page_body. rewrite E. cbn [Base.bind an_finished an_written]. split; [reflexivity|].
  set (tail := "/tbody>" +++ blanks 12 +++ "</table>" +++ page_footer).
  assert (Q : quiet "tbody>" [] []) by (split; reflexivity).
  destruct (lines_read (blanks 16) tail eq_refl rs ls "tbody>" [] [] E (fun r I => proj2 (P r I)) Q) as (cs & F & R).
  exists cs. split.
  - unfold read_table.
    assert (W : whole [page_header; table_head +++ ls +++ blanks 16 +++ "</tbody>" +++ blanks 12 +++ "</table>"; page_footer] =
      (page_header +++ table_head) +++ ls +++ blanks 16 +++ String "<" tail).
    { cbn [whole]. rewrite append_nil_r. unfold tail. rewrite !append_assoc. reflexivity. }
    rewrite W. clear W. set (after := ls +++ blanks 16 +++ String "<" tail) in *. clearbody after.
    assert (C : forall x, table [] None (split_on "<" ((page_header +++ table_head) +++ x)) = headings :: table [] None (split_on "<" ("tbody>" +++ x))).
    { intros x. set (pre := substring 0 (String.length (page_header +++ table_head) - 7) (page_header +++ table_head)).
      assert (Ep : page_header +++ table_head = pre +++ String "<" "tbody>") by (vm_compute; reflexivity).
      rewrite Ep, append_assoc. change (String "<" "tbody>" +++ x) with (String "<" ("tbody>" +++ x)). rewrite split_on_cat.
      let L := eval vm_compute in (split_on "<" pre) in assert (El : split_on "<" pre = L) by (vm_compute; reflexivity). rewrite El. reflexivity. }
    rewrite C, R. cbn [app]. f_equal. change (table [] None (split_on "<" tail)) with (@nil (list string)). apply app_nil_r.
  - assert (G : forall r, In r rs -> stored_row r) by (intros r I; exact (proj1 (P r I))). clear - F G.
    induction F as [|r c rs cs (e & Ee & ->) F IH]; constructor; [apply cells_show; [apply G; left; reflexivity|exact Ee]|apply IH; intros y I; apply G; right; exact I].
Qed.
