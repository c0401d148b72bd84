(** Proofs about where requests are sent. *)
From Verif Require Import Base BaseProofs ModelHttpClient SpecHttpClient.
Open Scope Z_scope.

Lemma until_path_app a b : shas "/" a = false -> shas "?" a = false -> shas "#" a = false ->
  (b = "" \/ exists c r, b = String c r /\ (c = "/" \/ c = "?" \/ c = "#")%char) -> until_path (a +++ b) = a.
Proof.
  induction a as [|x a IH]; intros H1 H2 H3 Hb.
  - cbn [String.append]. destruct Hb as [->|(c & r & -> & [->|[->| ->]])]; reflexivity.
  - rewrite shas_cons in H1, H2, H3. apply orb_false_iff in H1 as [A1 B1], H2 as [A2 B2], H3 as [A3 B3].
    change (String x a +++ b) with (String x (a +++ b)). cbn [until_path].
    rewrite Ascii.eqb_sym in A1, A2, A3.
    assert (forall c y, Ascii.eqb c y = Ascii.eqb y c) as Sy by (intros; apply Ascii.eqb_sym).
    rewrite ?(Sy x "/"%char), ?(Sy x "?"%char), ?(Sy x "#"%char) in *.
    rewrite A1, A2, A3. cbn [orb]. f_equal. apply IH; auto.
Qed.

Lemma netloc_of u : url_ok u -> until_path (host_header_of u +++ u_rest u) = host_header_of u.
Proof.
  intros ((H1 & H2 & H3 & H4) & Hp & Hr). unfold host_header_of.
  assert (forall c, is_digit c = false -> Ascii.eqb c ":" = false ->
    shas c (match u_port u with None => "" | Some p => ":" +++ py_str p end) = false) as K.
  { intros c D N. destruct (u_port u) as [p|]; [|reflexivity]. change (":" +++ py_str p) with (String ":" (py_str p)).
    rewrite shas_cons, N. cbn [orb]. apply shas_digits; [exact D|]. apply py_str_digits. specialize (Hp p eq_refl). lia. }
  apply until_path_app; [| | |exact Hr]; rewrite shas_app, ?H2, ?H3, ?H4; cbn [orb]; apply K; reflexivity.
Qed.
Lemma app_assoc_s a b c : (a +++ b) +++ c = a +++ b +++ c.
Proof. induction a as [|x a IH]; [reflexivity|]. cbn [String.append]. f_equal. exact IH. Qed.
Lemma urlparse_of u : url_ok u -> urlparse (url_text u) = (if u_tls u then "https" else "http", host_header_of u).
Proof.
  intros H. pose proof (netloc_of u H) as N. unfold url_text.
  assert (u_host u +++ match u_port u with None => "" | Some p => ":" +++ py_str p end +++ u_rest u = host_header_of u +++ u_rest u) as ->
    by (unfold host_header_of; rewrite app_assoc_s; reflexivity).
  unfold urlparse. destruct (u_tls u).
  - change ("https" +++ "://" +++ host_header_of u +++ u_rest u) with ("https" +++ String ":" ("//" +++ host_header_of u +++ u_rest u)).
    rewrite split1_app by reflexivity. change (negb (eqb "https" "") && sall scheme_char "https") with true. cbv iota.
    change (starts_with "//" ("//" +++ host_header_of u +++ u_rest u)) with true.
    change (sdrop 2 ("//" +++ host_header_of u +++ u_rest u)) with (host_header_of u +++ u_rest u). cbv iota. rewrite N. reflexivity.
  - change ("http" +++ "://" +++ host_header_of u +++ u_rest u) with ("http" +++ String ":" ("//" +++ host_header_of u +++ u_rest u)).
    rewrite split1_app by reflexivity. change (negb (eqb "http" "") && sall scheme_char "http") with true. cbv iota.
    change (starts_with "//" ("//" +++ host_header_of u +++ u_rest u)) with true.
    change (sdrop 2 ("//" +++ host_header_of u +++ u_rest u)) with (host_header_of u +++ u_rest u). cbv iota. rewrite N. reflexivity.
Qed.
Lemma starts_http u : starts_with "http" (url_text u) = true.
Proof. unfold url_text. destruct (u_tls u); reflexivity. Qed.
Lemma c70_request u ctx : url_ok u -> http_request (url_text u) ctx =
  let port := match u_port u with Some p => p | None => 443 end in
  if u_tls u then if ctx then Connect true (u_host u) port (host_header_of u) else NotSent
  else Connect false (u_host u) port (host_header_of u).
Proof.
  intros H. unfold http_request. rewrite starts_http. cbn [negb]. rewrite urlparse_of by exact H.
  destruct H as ((H1 & _) & _).
  assert (forall A (f : result (string * Z) -> A), f (match split1 ":" (host_header_of u) with
         | None => Ok (host_header_of u, 443)
         | Some (host, p) => match py_int p with Some n => Ok (host, n) | None => Err EValue end
         end) = f (Ok (u_host u, match u_port u with Some p => p | None => 443 end))) as K.
  { intros A f. f_equal. unfold host_header_of. destruct (u_port u) as [p|].
    - change (":" +++ py_str p) with (String ":" (py_str p)). rewrite split1_app by exact H1. rewrite py_int_str. reflexivity.
    - assert (u_host u +++ "" = u_host u) as -> by (clear; induction (u_host u) as [|x a IH]; [reflexivity|]; cbn [String.append]; f_equal; exact IH).
      rewrite (proj2 (split1_None ":" (u_host u)) H1). reflexivity. }
  rewrite (K attempt (fun r => match r with Err e => Raises e | Ok (host, port) =>
      if eqb (if u_tls u then "https" else "http") "https" then if ctx then Connect true host port (host_header_of u) else NotSent
      else Connect false host port (host_header_of u) end)).
  destruct (u_tls u); reflexivity.
Qed.
Theorem c70_sent u ctx : url_ok u -> (u_tls u = true -> ctx = true) -> (u_tls u = true \/ u_port u <> None) ->
  http_request (url_text u) ctx = Connect (u_tls u) (u_host u) (port_of u) (host_header_of u).
Proof.
  intros H Hc Hd. rewrite c70_request by exact H. cbv zeta. unfold port_of. destruct (u_tls u).
  - rewrite Hc by reflexivity. destruct (u_port u); reflexivity.
  - destruct (u_port u); [reflexivity|]. destruct Hd; congruence.
Qed.
(** * Letter case *)
Definition capital (c : ascii) : bool := existsb (Ascii.eqb c) (list_ascii_of_string "ABCDEFGHIJKLMNOPQRSTUVWXYZ").
Definition lowc (c : ascii) : ascii := let n := nat_of_ascii c in if ((65 <=? n) && (n <=? 90))%nat then ascii_of_nat (n + 32) else c.
Lemma lower_cons c r : lower (String c r) = String (lowc c) (lower r).
Proof. reflexivity. Qed.
Lemma lowc_letter c : same_letter c (lowc c).
Proof. destruct c as [[] [] [] [] [] [] [] []]; first [left; reflexivity|right; left; vm_compute; tauto]. Qed.
Lemma letter_lowc c d : capital d = false -> same_letter c d -> lowc c = d.
Proof.
  intros Hd [->|[H|H]].
  - destruct d as [[] [] [] [] [] [] [] []]; first [reflexivity|discriminate Hd].
  - cbn in H. repeat (destruct H as [H|H]; [injection H as <- <-; reflexivity|]). contradiction.
  - cbn in H. repeat (destruct H as [H|H]; [injection H as <- <-; discriminate Hd|]). contradiction.
Qed.
Lemma lower_caseless s t : sall (fun c => negb (capital c)) t = true -> lower s = t <-> caseless s t.
Proof.
  unfold caseless. revert t. induction s as [|c s IH]; intros t Ht.
  - cbn. split; [intros <-; constructor|]. intros H. destruct t; [reflexivity|inversion H].
  - rewrite lower_cons. split.
    + intros <-. cbn [list_ascii_of_string]. constructor; [apply lowc_letter|]. apply IH; [|reflexivity]. cbn [sall] in Ht. apply andb_prop in Ht. apply Ht.
    + destruct t as [|d t]; cbn [list_ascii_of_string]; intros H; inversion H; subst. cbn [sall] in Ht. apply andb_prop in Ht as [H1 H2]. f_equal.
      * apply letter_lowc; [apply negb_true_iff; exact H1|assumption].
      * apply IH; assumption.
Qed.
Lemma letter_facts c d : same_letter c d -> In d (list_ascii_of_string "https") -> scheme_char c = true /\ Ascii.eqb ":" c = false.
Proof.
  intros [->|[H|H]] Hd.
  - cbn in Hd. repeat (destruct Hd as [<-|Hd]; [split; reflexivity|]). contradiction.
  - cbn in H. repeat (destruct H as [H|H]; [injection H as <- <-; split; reflexivity|]). contradiction.
  - cbn in H. repeat (destruct H as [H|H]; [injection H as <- <-; split; reflexivity|]). contradiction.
Qed.
Lemma scheme_facts x t : caseless x t -> (forall d, In d (list_ascii_of_string t) -> In d (list_ascii_of_string "https")) ->
  shas ":" x = false /\ sall scheme_char x = true.
Proof.
  unfold caseless. revert t. induction x as [|c x IH]; intros t H Ht; [split; reflexivity|].
  destruct t as [|d t]; cbn [list_ascii_of_string] in *; [inversion H|]. assert (H1 : same_letter c d) by (inversion H; assumption). assert (H2 : Forall2 same_letter (list_ascii_of_string x) (list_ascii_of_string t)) by (inversion H; assumption).
  destruct (letter_facts c d H1 (Ht d (or_introl eq_refl))) as [F1 F2]. destruct (IH t H2 (fun e He => Ht e (or_intror He))) as [G1 G2].
  rewrite shas_cons. cbn [sall]. rewrite F1, F2, G1, G2. split; reflexivity.
Qed.
Lemma https_scheme x s : caseless x "https" -> exists n, urlparse (x +++ ":" +++ s) = ("https", n).
Proof.
  intros H. pose proof (proj2 (lower_caseless x "https" eq_refl) H) as L.
  destruct (scheme_facts x "https" H (fun d Hd => Hd)) as [F1 F2].
  unfold urlparse. change (x +++ ":" +++ s) with (x +++ String ":" s). rewrite split1_app by exact F1.
  rewrite F2, L. destruct (eqb_ok x "") as [E|_]; [subst; discriminate L|]. cbn [negb andb]. eexists. reflexivity.
Qed.
(** whatever follows, an https URL is never requested in the clear *)
Theorem c70_never_clear x s ctx host port hh : caseless x "https" -> http_request (x +++ ":" +++ s) ctx <> Connect false host port hh.
Proof.
  intros H. unfold http_request. destruct (starts_with "http" _); [|discriminate]. cbn [negb].
  destruct (https_scheme x s H) as (n & ->).
  destruct (match split1 ":" n with None => _ | Some _ => _ end) as [[h p]|e]; [|discriminate].
  change (eqb "https" "https") with true. cbv iota. destruct ctx; discriminate.
Qed.
Theorem c70_needs_context x s tls host port hh : caseless x "https" -> http_request (x +++ ":" +++ s) false <> Connect tls host port hh.
Proof.
  intros H. destruct tls; [|apply c70_never_clear; exact H].
  unfold http_request. destruct (starts_with "http" _); [|discriminate]. cbn [negb].
  destruct (urlparse _) as [sc n]. destruct (match split1 ":" n with None => _ | Some _ => _ end) as [[h p]|e]; [|discriminate].
  destruct (eqb sc "https"); discriminate.
Qed.
Theorem c70_not_http url ctx : starts_with "http" url = false -> http_request url ctx = NotSent.
Proof. intros H. unfold http_request. rewrite H. reflexivity. Qed.
Theorem c70_clear_default u ctx : url_ok u -> u_tls u = false -> u_port u = None ->
  http_request (url_text u) ctx = Connect false (u_host u) 443 (host_header_of u).
Proof. intros H H1 H2. rewrite c70_request by exact H. rewrite H1, H2. reflexivity. Qed.
