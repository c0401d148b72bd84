(** Proofs about the REST interface. *)
From Verif Require Import Base BaseProofs ModelAuthz ModelLabel ModelSTP ModelTime ModelErrors ModelState ModelRest SpecErrors SpecRest.
Open Scope Z_scope.

(** ** Case-insensitive comparison *)
Definition all_ascii : list ascii := map ascii_of_nat (seq 0 256).
Lemma all_ascii_in c : In c all_ascii.
Proof.
  unfold all_ascii. apply in_map_iff. exists (nat_of_ascii c). split; [apply ascii_nat_embedding|].
  apply in_seq. split; [lia|]. apply nat_ascii_bounded.
Qed.
Definition is_upper (c : ascii) : bool :=
  let n := Z.of_nat (nat_of_ascii c) in (65 <=? n) && (n <=? 90).
Definition rel (c d : ascii) : bool :=
  Ascii.eqb c d || existsb (fun p => Ascii.eqb c (fst p) && Ascii.eqb d (snd p)) letters.
Lemma all2_all (P : ascii -> ascii -> bool) l : forallb (fun c => forallb (P c) l) l = true -> forall c d, In c l -> In d l -> P c d = true.
Proof. intros H c d Hc Hd. rewrite forallb_forall in H. specialize (H c Hc). rewrite forallb_forall in H. exact (H d Hd). Qed.
Definition rel_agrees (c d : ascii) : bool := negb (is_upper d) || Bool.eqb (rel c d) (Ascii.eqb (upper_char c) d).
Lemma rel_check_ok : forallb (fun c => forallb (rel_agrees c) all_ascii) all_ascii = true.
Proof. vm_compute. reflexivity. Qed.
Lemma rel_agrees_ok c d : rel_agrees c d = true.
Proof. exact (all2_all rel_agrees all_ascii rel_check_ok c d (all_ascii_in c) (all_ascii_in d)). Qed.
Lemma rel_spec c d : rel c d = true <-> (c = d \/ In (c, d) letters).
Proof.
  unfold rel. rewrite orb_true_iff, Ascii.eqb_eq, existsb_exists. split; intros [H|H]; auto; right.
  - destruct H as ([x y] & I & E). apply andb_prop in E as (E1 & E2). cbn in E1, E2.
    apply Ascii.eqb_eq in E1. apply Ascii.eqb_eq in E2. subst. exact I.
  - exists (c, d). split; [exact H|]. cbn. rewrite !Ascii.eqb_refl. reflexivity.
Qed.
Lemma upper_char_rel c d : is_upper d = true -> ((c = d \/ In (c, d) letters) <-> upper_char c = d).
Proof.
  intros U. rewrite <- rel_spec. pose proof (rel_agrees_ok c d) as C. unfold rel_agrees in C.
  rewrite U in C. cbn [negb orb] in C. apply eqb_prop in C. rewrite C. apply Ascii.eqb_eq.
Qed.
Lemma upper_same t : sall is_upper t = true -> forall s, same_text s t <-> upper s = t.
Proof.
  induction t as [|d t IH]; intros U s.
  - split; [intros H; inversion H; reflexivity|]. destruct s as [|c s]; [constructor|discriminate].
  - cbn [sall] in U. apply andb_prop in U as (U1 & U2). split.
    + intros H. inversion H as [|c d' s' t' R S]; subst. cbn [upper]. f_equal; [apply upper_char_rel; assumption|apply IH; assumption].
    + destruct s as [|c s]; [discriminate|]. cbn [upper]. intros E. injection E as E1 E2.
      constructor; [apply (upper_char_rel c d U1); exact E1|apply IH; assumption].
Qed.
Lemma word_upper c : sall is_upper (word c) = true.
Proof. destruct c; vm_compute; reflexivity. Qed.
Lemma same_word c s : same_text s (word c) <-> upper s = word c.
Proof. apply upper_same, word_upper. Qed.
Lemma actions_words s : mem s ACTIONS = true -> exists c, s = word c.
Proof.
  intros M. apply mem_In in M. cbn in M.
  destruct M as [<-|[<-|[<-|[<-|[<-|[]]]]]]; [exists Commit|exists Abort|exists Provision|exists Release|exists Terminate]; reflexivity.
Qed.
Lemma word_action c : mem (word c) ACTIONS = true.
Proof. destruct c; vm_compute; reflexivity. Qed.
Lemma command_word c cid ri : command_call (word c) cid ri = Some (operation c cid ri).
Proof. destruct c; reflexivity. Qed.

(** ** Status commands *)
Lemma nsi_is e : is_nsi_error e = true <-> exists c, nsi_class e = Some c /\ subclass c NSIError.
Proof.
  split.
  - destruct e; cbn; try discriminate; intros _; eexists; (split; [reflexivity|]);
    repeat first [apply sub_refl | eapply sub_base; [left; reflexivity|]].
  - intros (c & H & _). destruct e; cbn in *; congruence.
Qed.
Lemma error_code_nsi e c : nsi_class e = Some c -> subclass c NSIError -> error_code e = 400.
Proof. intros H S. unfold error_code. replace (is_nsi_error e) with true; [reflexivity|]. symmetry. apply nsi_is. eauto. Qed.
Lemma error_code_other e : nsi_class e = None -> error_code e = 500.
Proof. destruct e; cbn; congruence. Qed.

Lemma status_command allowed rq ri cid body c provider :
  check_authz allowed rq = Ok (true, ri) -> same_text body (word c) ->
  status_post allowed rq cid body provider =
  ([operation c cid ri], match provider (operation c cid ri) with Ok _ => Later 200 | Err e => Later (error_code e) end).
Proof.
  intros A S. unfold status_post. rewrite A. cbn zeta. apply same_word in S. rewrite S, word_action. cbn [negb].
  rewrite command_word. reflexivity.
Qed.
Lemma status_calls allowed rq cid body provider calls r :
  status_post allowed rq cid body provider = (calls, r) ->
  calls = [] \/ exists c ri, check_authz allowed rq = Ok (true, ri) /\ same_text body (word c) /\ calls = [operation c cid ri].
Proof.
  unfold status_post. destruct (check_authz allowed rq) as [[[|] ri]|e] eqn:A; try (intros H; injection H as <- _; auto; fail).
  cbn zeta. destruct (mem (upper body) ACTIONS) eqn:M; cbn [negb]; [|intros H; injection H as <- _; auto].
  destruct (actions_words _ M) as (c & E). rewrite E, command_word. intros H. injection H as <- _.
  right. exists c, ri. split; [reflexivity|]. split; [apply same_word; exact E|reflexivity].
Qed.

(** ** Creation *)
Lemma create_calls loads allowed rq body provider calls r :
  create_post loads allowed rq body provider = (calls, r) ->
  calls = [] \/
  exists ri data s d st en cap, check_authz allowed rq = Ok (true, ri) /\ body <> "" /\ Z.of_nat (String.length body) <= 32768 /\
    loads body = Ok data /\ reserve_request data ri = Ok (Some (CReserve s d st en cap ri)) /\
    calls = [CReserve s d st en cap ri].
Proof.
  unfold create_post. destruct (check_authz allowed rq) as [[[|] ri]|e] eqn:A; try (intros H; injection H as <- _; auto; fail).
  destruct (Z.eqb_spec (Z.of_nat (String.length body)) 0) as [Z0|N0]; [intros H; injection H as <- _; auto|].
  destruct (Z.gtb_spec (Z.of_nat (String.length body)) (32 * 1024)) as [G|L]; [intros H; injection H as <- _; auto|].
  destruct (loads body) as [data|e] eqn:P; [|destruct e; intros H; injection H as <- _; auto].
  destruct (reserve_request data ri) as [[c|]|e] eqn:R; try (intros H; injection H as <- _; auto; fail).
  intros H. injection H as <- _. right.
  assert (exists s d st en cap, c = CReserve s d st en cap ri) as (s & d & st & en & cap & ->).
  { revert R. unfold reserve_request. repeat (match goal with |- bind ?x _ = _ -> _ => destruct x; cbn [bind]; [|discriminate] end).
    destruct (auto_provision data && negb (auto_commit data)); [discriminate|]. intros H. injection H as <-. repeat eexists. }
  exists ri, data, s, d, st, en, cap. repeat split; auto; try lia. intros ->. apply N0. reflexivity.
Qed.

Lemma not_in_aget (k : string) (l : list (string * json)) : (forall w, ~ In (k, w) l) -> aget k l = None.
Proof.
  induction l as [|[k' v] l IH]; intros H; [reflexivity|]. cbn. destruct (eqb_ok k k') as [<-|N].
  - exfalso. apply (H v). left. reflexivity.
  - apply IH. intros w I. apply (H w). right. exact I.
Qed.
Lemma aget_app (k : string) (a b : list (string * json)) :
  aget k (a ++ b) = match aget k a with Some v => Some v | None => aget k b end.
Proof. induction a as [|[k' v] a IH]; [reflexivity|]. cbn. destruct (eqb k k'); [reflexivity|exact IH]. Qed.
Lemma field_get k v data : field k v data -> jget k data = Ok v.
Proof.
  intros [k' before v' after N]. cbn [jget]. rewrite rev_app_distr. cbn [rev]. rewrite <- app_assoc, aget_app.
  rewrite not_in_aget; [|intros w I; apply in_rev in I; exact (N w I)].
  cbn. destruct (eqb_ok k' k'); [reflexivity|contradiction].
Qed.
Lemma field_in k v data : field k v data -> jin k data = true.
Proof.
  intros F. pose proof (field_get _ _ _ F) as G. destruct F as [k' before v' after N]. cbn [jin jget] in *.
  unfold ahas. destruct (aget k' _); [reflexivity|discriminate].
Qed.
Lemma truthy_jtrue j : truthy j <-> jtrue j = true.
Proof.
  split.
  - intros [|z H|t|s H|l H|l H]; cbn; try reflexivity; try (destruct l; [contradiction|reflexivity]).
    + destruct (Z.eqb_spec z 0); [contradiction|reflexivity].
    + destruct (eqb_ok s ""); [contradiction|reflexivity].
  - destruct j as [|b|z|t zero|s|l|l]; cbn; try discriminate.
    + destruct b; [constructor|discriminate].
    + destruct (Z.eqb_spec z 0); [discriminate|constructor; assumption].
    + destruct zero; [discriminate|constructor].
    + destruct (eqb_ok s ""); [discriminate|constructor; assumption].
    + destruct l; [discriminate|]. constructor. discriminate.
    + destruct l; [discriminate|]. constructor. discriminate.
Qed.
Lemma auto_refused loads allowed rq body provider data p c calls r :
  loads body = Ok data -> field "auto_provision" p data -> truthy p -> field "auto_commit" c data -> ~ truthy c ->
  create_post loads allowed rq body provider = (calls, r) -> calls = [].
Proof.
  intros L P TP C TC H. destruct (create_calls _ _ _ _ _ _ _ H) as [E|(ri & d & s & de & st & en & cap & _ & _ & _ & L2 & R & _)]; [exact E|].
  exfalso. rewrite L in L2. injection L2 as <-. revert R. unfold reserve_request.
  repeat (match goal with |- bind ?x _ = _ -> _ => destruct x; cbn [bind]; [|discriminate] end).
  unfold auto_provision, auto_commit, jget_or.
  rewrite (field_in _ _ _ P), (field_get _ _ _ P), (field_in _ _ _ C), (field_get _ _ _ C).
  apply truthy_jtrue in TP. rewrite TP. rewrite truthy_jtrue in TC. destruct (jtrue c); [contradiction|]. discriminate.
Qed.
Lemma created_only loads allowed rq body provider calls r :
  create_post loads allowed rq body provider = (calls, r) ->
  (delivered r = 201 <-> exists c, calls = [c] /\ exists u, provider c = Ok u).
Proof.
  unfold create_post. destruct (check_authz allowed rq) as [[[|] ri]|e] eqn:A;
    try (intros H; injection H as <- <-; cbn; split; [discriminate|intros (c & E & _); discriminate]; fail).
  destruct (Z.eqb_spec (Z.of_nat (String.length body)) 0) as [Z0|N0];
    [intros H; injection H as <- <-; cbn; split; [discriminate|intros (c & E & _); discriminate]|].
  destruct (Z.gtb_spec (Z.of_nat (String.length body)) (32 * 1024)) as [G|L];
    [intros H; injection H as <- <-; cbn; split; [discriminate|intros (c & E & _); discriminate]|].
  destruct (loads body) as [data|e] eqn:P;
    [|destruct e; intros H; injection H as <- <-; cbn; split; (discriminate || (intros (c & E & _); discriminate))].
  destruct (reserve_request data ri) as [[c|]|e] eqn:R;
    try (intros H; injection H as <- <-; cbn; split; [discriminate|intros (c & E & _); discriminate]; fail).
  intros H. injection H as <- <-. split.
  - intros D. exists c. split; [reflexivity|]. destruct (provider c) as [u|e]; [eauto|].
    exfalso. cbn [delivered] in D. unfold error_code in D. destruct (is_nsi_error e); discriminate D.
  - intros (c' & E & u & Pr). injection E as <-. rewrite Pr. reflexivity.
Qed.

(** ** The fields of the request *)
Lemma aget_split (k : string) (l : list (string * json)) v : aget k l = Some v ->
  exists a b, l = a ++ (k, v) :: b /\ forall w, ~ In (k, w) a.
Proof.
  induction l as [|[k' v'] l IH]; cbn; [discriminate|]. destruct (eqb_ok k k') as [<-|N]; intros H.
  - injection H as ->. exists [], l. split; [reflexivity|intros w []].
  - destruct (IH H) as (a & b & -> & F). exists ((k', v') :: a), b. split; [reflexivity|].
    intros w [E|I]; [injection E as <- _; contradiction|exact (F w I)].
Qed.
Lemma get_field k v data : jget k data = Ok v -> field k v data.
Proof.
  destruct data as [|b|z|t zz|s|l|l]; cbn [jget]; try discriminate. destruct (aget k (rev l)) as [v'|] eqn:A; [|discriminate].
  intros H. injection H as <-. apply aget_split in A as (a & b & E & F).
  apply (f_equal (@rev _)) in E. rewrite rev_involutive, rev_app_distr in E. cbn [rev] in E. rewrite <- app_assoc in E. subst l.
  constructor. intros w I. apply in_rev in I. exact (F w I).
Qed.
Lemma get_absent k data e : jget k data = Err e -> absent k data.
Proof. intros H v F. apply field_get in F. congruence. Qed.
Lemma in_absent k data : jin k data = false -> absent k data.
Proof. intros H v F. apply field_in in F. congruence. Qed.
Lemma starts_spec p : forall s, starts_with p s = true <-> exists r, s = p +++ r.
Proof.
  induction p as [|c p IH]; intros s; cbn; [split; [eauto|reflexivity]|].
  destruct s as [|d s]; [split; [discriminate|intros (r & E); discriminate E]|].
  rewrite andb_true_iff, IH, Ascii.eqb_eq. split.
  - intros (-> & r & ->). exists r. reflexivity.
  - intros (r & E). injection E as -> ->. eauto.
Qed.
Lemma prefixed_spec j t : prefixed j = Ok t -> exists s, j = JStr s /\ full_name s t.
Proof.
  destruct j as [|b|z|x zz|s|l|l]; cbn [prefixed]; try discriminate. intros H. exists s. split; [reflexivity|].
  assert ((if starts_with URN_NETWORK s then s else URN_NETWORK +++ s) = t) as E by congruence. clear H. revert E.
  destruct (starts_with URN_NETWORK s) eqn:S; intros <-; [left; split; [apply starts_spec; exact S|reflexivity]|].
  right. split; [|reflexivity]. intros E. apply starts_spec in E. change "urn:ogf:network:" with URN_NETWORK in E. rewrite E in S. discriminate S.
Qed.
Lemma bind_ok {A B} (r : result A) (f : A -> result B) b : bind r f = Ok b -> exists a, r = Ok a /\ f a = Ok b.
Proof. destruct r; [eauto|discriminate]. Qed.
Lemma opt_time_spec k data t : opt_time k data = Ok t -> asks_time k data t.
Proof.
  unfold opt_time. destruct (jin k data) eqn:I; [|intros H; injection H as <-; left; split; [apply in_absent, I|reflexivity]].
  intros H. apply bind_ok in H as (v & G & H). destruct v as [|b|z|x zz|s|l|l]; try discriminate.
  apply bind_ok in H as (x & P & H). injection H as <-. right. exists s, x. auto using get_field.
Qed.
Lemma capacity_spec data : asks_capacity data (jget_or "capacity" (JInt 0) data).
Proof.
  unfold asks_capacity, jget_or. destruct (jget "capacity" data) as [v|e] eqn:G; [left; apply get_field, G|right; split; [eapply get_absent, G|reflexivity]].
Qed.
Lemma create_asked loads allowed rq body provider calls r :
  create_post loads allowed rq body provider = (calls, r) ->
  calls = [] \/
  exists ri data s d st en cap, check_authz allowed rq = Ok (true, ri) /\ body <> "" /\ Z.of_nat (String.length body) <= 32768 /\
    loads body = Ok data /\ asks_stp "source" data s /\ asks_stp "destination" data d /\
    asks_time "start_time" data st /\ asks_time "end_time" data en /\ asks_capacity data cap /\
    calls = [CReserve s d st en cap ri].
Proof.
  intros H. destruct (create_calls _ _ _ _ _ _ _ H) as [E|(ri & data & s & d & st & en & cap & A & B & L & P & R & C)]; [auto|right].
  exists ri, data, s, d, st, en, cap. unfold reserve_request in R.
  apply bind_ok in R as (j1 & G1 & R). apply bind_ok in R as (t1 & F1 & R). apply bind_ok in R as (j2 & G2 & R). apply bind_ok in R as (t2 & F2 & R).
  apply bind_ok in R as (s1 & S1 & R). apply bind_ok in R as (s2 & S2 & R). apply bind_ok in R as (x1 & X1 & R). apply bind_ok in R as (x2 & X2 & R).
  destruct (auto_provision data && negb (auto_commit data)); [discriminate|]. injection R as <- <- <- <- <-.
  apply prefixed_spec in F1 as (n1 & -> & N1). apply prefixed_spec in F2 as (n2 & -> & N2).
  repeat split; auto using opt_time_spec, capacity_spec; [exists n1, t1|exists n2, t2]; auto using get_field.
Qed.

(** ** What is asked for is done *)
Lemma absent_in k data : absent k data -> jin k data = false.
Proof.
  intros H. destruct (jin k data) eqn:E; [|reflexivity]. exfalso. destruct data as [|b|z|t zz|s|l|l]; try discriminate E. cbn [jin] in E.
  unfold ahas in E. destruct (aget k (rev l)) as [v|] eqn:A; [|discriminate E]. apply (H v). apply get_field. cbn [jget]. rewrite A. reflexivity.
Qed.
Lemma absent_get k data : absent k data -> exists e, jget k data = Err e.
Proof. intros H. destruct (jget k data) as [v|e] eqn:E; [|eauto]. exfalso. exact (H v (get_field _ _ _ E)). Qed.
Lemma prefixed_full t full : full_name t full -> prefixed (JStr t) = Ok full.
Proof.
  intros [[E ->]|[N ->]]; cbn [prefixed].
  - apply starts_spec in E. change "urn:ogf:network:" with URN_NETWORK in E. rewrite E. reflexivity.
  - destruct (starts_with URN_NETWORK t) eqn:S; [|reflexivity]. exfalso. apply N. apply starts_spec in S. exact S.
Qed.
Lemma opt_time_asks k data t : asks_time k data t -> opt_time k data = Ok t.
Proof.
  unfold opt_time. intros [[A ->]|(s & x & F & P & ->)].
  - rewrite (absent_in _ _ A). reflexivity.
  - rewrite (field_in _ _ _ F), (field_get _ _ _ F). cbn [bind]. rewrite P. reflexivity.
Qed.
Lemma capacity_asks data c : asks_capacity data c -> jget_or "capacity" (JInt 0) data = c.
Proof.
  unfold jget_or. intros [F|[A ->]]; [rewrite (field_get _ _ _ F); reflexivity|]. destruct (absent_get _ _ A) as [e ->]. reflexivity.
Qed.
Lemma create_done loads allowed rq ri body provider data s d st en cap :
  check_authz allowed rq = Ok (true, ri) -> body <> "" -> Z.of_nat (String.length body) <= 32768 ->
  loads body = Ok data -> asks_stp "source" data s -> asks_stp "destination" data d ->
  asks_time "start_time" data st -> asks_time "end_time" data en -> asks_capacity data cap ->
  (forall p, field "auto_provision" p data -> ~ truthy p) \/ (forall c, field "auto_commit" c data -> truthy c) ->
  fst (create_post loads allowed rq body provider) = [CReserve s d st en cap ri].
Proof.
  intros A B L P (t1 & f1 & F1 & N1 & S1) (t2 & f2 & F2 & N2 & S2) X1 X2 Cc Au. unfold create_post. rewrite A.
  destruct (Z.eqb_spec (Z.of_nat (String.length body)) 0) as [E|_]; [destruct body; [contradiction|cbn in E; lia]|].
  destruct (Z.gtb_spec (Z.of_nat (String.length body)) (32 * 1024)) as [G|_]; [lia|]. rewrite P.
  assert (R : reserve_request data ri = Ok (Some (CReserve s d st en cap ri))); [|rewrite R; reflexivity].
  unfold reserve_request. rewrite (field_get _ _ _ F1), (field_get _ _ _ F2). cbn [bind].
  rewrite (prefixed_full _ _ N1), (prefixed_full _ _ N2). cbn [bind]. rewrite S1, S2. cbn [bind].
  rewrite (opt_time_asks _ _ _ X1), (opt_time_asks _ _ _ X2). cbn [bind]. rewrite (capacity_asks _ _ Cc).
  assert (E : auto_provision data && negb (auto_commit data) = false); [|rewrite E; reflexivity].
  destruct Au as [Np|Nc].
  - assert (E : auto_provision data = false); [|rewrite E; reflexivity]. unfold auto_provision, jget_or.
    destruct (jget "auto_provision" data) as [v|e] eqn:G.
    + specialize (Np v (get_field _ _ _ G)). rewrite truthy_jtrue in Np. destruct (jtrue v); [contradiction|]. apply andb_false_r.
    + apply andb_false_r.
  - assert (E : auto_commit data = true); [|rewrite E; apply andb_false_r]. unfold auto_commit, jget_or.
    destruct (jin "auto_commit" data) eqn:I; [|reflexivity]. destruct (jget "auto_commit" data) as [v|e] eqn:G.
    + specialize (Nc v (get_field _ _ _ G)). apply truthy_jtrue in Nc. rewrite Nc. reflexivity.
    + exfalso. destruct data as [|b|z|t zz|q|l|l]; try discriminate I. cbn [jin jget] in *. unfold ahas in I. destruct (aget "auto_commit" (rev l)); discriminate.
Qed.
