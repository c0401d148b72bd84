(** C96: the page of connections shows each of them as it is. *)
From Verif Require Import Base BaseProofs ModelLabel SpecLabel ProofsLabel ModelTime SpecTime ModelPage SpecPage ProofsPage.
Open Scope Z_scope.

(** If all connections have an end and their texts no tags, the request is answered
    with a page whose table has a row for each connection, in order, and nothing
    else; missing: connections without an end, texts with tags, and Python 3. *)
Theorem C96_listed_partial : forall rs, (forall r, In r rs -> pg_end r <> None) -> (forall r, In r rs -> stored_row r /\ plain_row r) ->
  an_finished (render_page false rs) = true /\
  exists cs, read_table (whole (an_written (render_page false rs))) = headings :: cs /\ Forall2 shows_row rs cs.
Proof. exact page_listed. Qed.
Print Assumptions C96_listed_partial.

Lemma row_cells r c : shows_row r c -> exists src dst t, pg_end r = Some t /\
  c = [pg_id r; pg_life r; src; dst; match pg_start r with Some s => moment s | None => "-" end; moment t].
Proof. intros [src dst b e t _ _ T -> ->]. eauto 6. Qed.
(** Without tags, what a cell shows tells the values apart: two lists of connections
    with the same page have the same identifiers, states and times. *)
Theorem C96_apart_partial : forall rs rs', (forall r, In r (rs ++ rs') -> pg_end r <> None) -> (forall r, In r (rs ++ rs') -> stored_row r /\ plain_row r) ->
  whole (an_written (render_page false rs)) = whole (an_written (render_page false rs')) ->
  Forall2 (fun r r' => pg_id r = pg_id r' /\ pg_life r = pg_life r' /\
    option_map moment (pg_start r) = option_map moment (pg_start r') /\ option_map moment (pg_end r) = option_map moment (pg_end r')) rs rs'.
Proof.
  intros rs rs' N P E.
  destruct (C96_listed_partial rs (fun r I => N r (in_or_app _ _ _ (or_introl I))) (fun r I => P r (in_or_app _ _ _ (or_introl I)))) as (_ & cs & R & F).
  destruct (C96_listed_partial rs' (fun r I => N r (in_or_app _ _ _ (or_intror I))) (fun r I => P r (in_or_app _ _ _ (or_intror I)))) as (_ & cs' & R' & F').
  rewrite E, R' in R. injection R as ->. clear - F F'. revert rs' F'. induction F as [|r c rs cs S F IH]; intros rs' F'; inversion F' as [|r' c' rs0 cs0 S' F0]; subst; constructor; [|apply IH; exact F0].
  destruct S as [s1 d1 b1 e1 t1 A1 B1 T1 M1 K1]. apply row_cells in S' as (s2 & d2 & t2 & T2 & Q2).
  subst b1 e1. rewrite T1, T2. cbn [option_map]. pose (at_ := fun n => f_equal (fun l => nth n l "") Q2).
  pose proof (at_ 0%nat) as I1. pose proof (at_ 1%nat) as I2. pose proof (at_ 4%nat) as I5. pose proof (at_ 5%nat) as I6. cbn [nth] in I1, I2, I5, I6. clear at_ Q2.
  assert (Mm : forall t, moment t <> "-") by (intros t Ht; unfold moment, four, two in Ht; cbn in Ht; discriminate Ht).
  split; [congruence|]. split; [congruence|]. split; [|congruence].
  destruct (pg_start r) as [s|], (pg_start r') as [s'|]; cbn [option_map]; congruence.
Qed.
Print Assumptions C96_apart_partial.

(** The page is there only if every connection has an end. *)
Theorem C96_only : forall bytes rs, an_finished (render_page bytes rs) = true <-> bytes = false /\ (forall r, In r rs -> pg_end r <> None).
Proof.
  intros bytes rs. unfold render_page, page_body. split.
  - intros H. destruct (page_lines rs) as [ls|] eqn:E; cbn [Base.bind] in H; [|discriminate]. destruct bytes; [discriminate|]. split; [reflexivity|].
    intros r I N. destruct (page_lines_open rs r I N) as (x & Ex). congruence.
  - intros [-> H]. destruct (page_lines_total rs H) as (ls & ->). reflexivity.
Qed.
Print Assumptions C96_only.

(** A page that is finished is one document, with a title and its encoding, and nothing follows it. *)
Theorem C96_document : forall rs, an_finished (render_page false rs) = true -> exists body,
  whole (an_written (render_page false rs)) = "<!DOCTYPE html>
<html>
    <head>
        <meta http-equiv=""Content-Type"" content=""text/html; charset=utf-8"" />
        <title>OpenNSA Connections</title>
    </head>
    <body>
" +++ body +++ "   </body>
</html>
".
Proof.
  intros rs H. unfold render_page in *. destruct (page_body rs) as [b|e]; [|discriminate H]. exists b. cbn [an_written whole].
  change (page_footer +++ "") with page_footer. reflexivity.
Qed.
Print Assumptions C96_document.
Example C96_document_ex : an_finished (render_page false []) = true.
Proof. reflexivity. Qed.

(** * What does not hold *)

(** One connection without an end, and nobody gets to see any: nothing is written,
    and the request is never finished. *)
Theorem C96_open_refuted : forall bytes rs r, In r rs -> pg_end r = None -> render_page bytes rs = mkAnswer [] false.
Proof. intros bytes rs r I N. unfold render_page, page_body. destruct (page_lines_open rs r I N) as (x & ->). reflexivity. Qed.
Print Assumptions C96_open_refuted.

(** On Python 3 the page is never written. *)
Theorem C96_bytes_refuted : forall rs, render_page true rs = mkAnswer [] false.
Proof. intros rs. unfold render_page. destruct (page_body rs); reflexivity. Qed.
Print Assumptions C96_bytes_refuted.

(** A port name, which is what a requester sent, can put a row of its own into the table. *)
Definition noon : dt := mkDt 2030 5 1 12 0 0 0.
Definition forged_port : string := "ps</th></tr><tr><th>NL-9</th><th>Created</th><th>a:b</th><th>c:d</th><th>-</th><th>2031-01-01 00:00:00</th></tr><tr><th>".
Theorem C96_markup_refuted : exists rs, (forall r, In r rs -> pg_end r <> None) /\ (forall r, In r rs -> stored_row r) /\ List.length rs = 1%nat /\
  exists c, In c (read_table (whole (an_written (render_page false rs)))) /\ hd_error c = Some "NL-9" /\ forall r, In r rs -> pg_id r <> "NL-9".
Proof.
  exists [mkPageRow "NL-1" "Created" "nl" forged_port None "nl" "b" None None (Some noon)].
  split; [intros r [<-|[]]; discriminate|]. split.
  { intros r [<-|[]]. split; [intros l [H|H]; discriminate H|]. intros t [H|H]; [discriminate H|]. injection H as <-. unfold noon, time_exists, date_exists. cbn [dy dmo dd dh dmi ds dus].
    change (month_length 2030 5) with 31. lia. }
  split; [reflexivity|]. eexists. split; [|split; [|intros r [<-|[]]; discriminate]].
  - let t := eval vm_compute in (read_table (whole (an_written (render_page false [mkPageRow "NL-1" "Created" "nl" forged_port None "nl" "b" None None (Some noon)])))) in
      assert (E : read_table (whole (an_written (render_page false [mkPageRow "NL-1" "Created" "nl" forged_port None "nl" "b" None None (Some noon)]))) = t) by (vm_compute; reflexivity).
    rewrite E. right. right. left. reflexivity.
  - reflexivity.
Qed.
Print Assumptions C96_markup_refuted.

(** Connections on different end points can look the same: the type of a label is not shown. *)
Theorem C96_type_refuted : exists r r', (stored_row r /\ plain_row r) /\ (stored_row r' /\ plain_row r') /\ pg_slabel r <> pg_slabel r' /\ page_line r = page_line r'.
Proof.
  exists (mkPageRow "NL-1" "Created" "nl" "ps" (Some (mkLabel "vlan" [(5, 5)])) "nl" "b" None None (Some noon)),
    (mkPageRow "NL-1" "Created" "nl" "ps" (Some (mkLabel "mpls" [(5, 5)])) "nl" "b" None None (Some noon)).
  assert (T : time_exists noon) by (unfold noon, time_exists, date_exists; cbn [dy dmo dd dh dmi ds dus]; change (month_length 2030 5) with 31; lia).
  assert (V : wf_values [(5, 5)]) by (apply (label_of_str_wf "vlan" "5" (mkLabel "vlan" [(5, 5)])); reflexivity).
  split; [|split; [|split; [discriminate|reflexivity]]]; (split; [split|repeat split]); try (intros l [H|H]; [injection H as <-; exact V|discriminate H]); intros t [H|H]; try discriminate H; injection H as <-; exact T.
Qed.
Print Assumptions C96_type_refuted.

(** * Cases *)
Definition two_rows : list page_row :=
  [mkPageRow "NL-1" "Created" "nl" "ps" (Some (mkLabel "vlan" [(5, 5)])) "nl" "b" (Some (mkLabel "vlan" [(5, 7); (9, 9)])) (Some noon) (Some (mkDt 2031 1 1 0 0 0 500));
   mkPageRow "NL-2" "Terminated" "nl" "ps" None "nl" "b" None None (Some noon)].
Example C96_ex : read_table (whole (an_written (render_page false two_rows))) =
  [headings; ["NL-1"; "Created"; "nl:ps:5"; "nl:b:5-7,9"; "2030-05-01 12:00:00"; "2031-01-01 00:00:00"];
   ["NL-2"; "Terminated"; "nl:ps"; "nl:b"; "-"; "2030-05-01 12:00:00"]].
Proof. vm_compute. reflexivity. Qed.
Example C96_ex_plain : forall r, In r two_rows -> plain_row r.
Proof. intros r [<-|[<-|[]]]; repeat split. Qed.
