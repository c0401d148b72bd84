(** Proofs about STP texts and the runs of commands. *)
From Verif Require Import Base BaseProofs ModelLabel ModelSTP SpecSTP ProofsLabel ProofsSTP ModelHttpClient ModelCli SpecCli ProofsCli.
Open Scope Z_scope.

(** ** STPs *)
Lemma cli_plain s n p : shas "#" s = false -> rsplit1 ":" s = Some (n, p) -> cli_stp s = Done (mkSTP n p None).
Proof.
  intros H R. unfold cli_stp. rewrite H. destruct (shas ":" s) eqn:C; [|apply rsplit1_None in C; congruence]. cbn [negb]. rewrite R. reflexivity.
Qed.
Lemma cli_hash net port t v l : shas ":" port = false -> shas "#" net = false -> shas "#" port = false ->
  shas "#" v = false -> shas "=" v = false -> (t = "vlan" \/ t = "mpls") -> label_of_str t v = Ok l ->
  cli_stp (net +++ ":" +++ port +++ "#" +++ t +++ "=" +++ v) = Done (mkSTP net port (Some l)).
Proof.
  intros P N1 N2 V1 V2 T L. unfold cli_stp.
  assert (TH : shas "#" t = false /\ shas "=" t = false) by (destruct T as [->| ->]; auto). destruct TH as [TH TE].
  replace (net +++ ":" +++ port +++ "#" +++ t +++ "=" +++ v) with ((net +++ ":" +++ port) +++ String "#" (t +++ String "=" v)) by (rewrite !append_assoc; reflexivity).
  rewrite !shas_app. change (shas ":" ":") with true. rewrite !Bool.orb_true_r. cbn [orb negb].
  change (shas "#" (String "#" (t +++ String "=" v))) with (Ascii.eqb "#" "#" || shas "#" (t +++ String "=" v)). cbn [Ascii.eqb Bool.eqb orb]. rewrite ?Bool.orb_true_r.
  rewrite split_on_app by (rewrite !shas_app, N1, N2; reflexivity).
  rewrite split_on_none by (rewrite shas_app, TH, shas_cons, V1; reflexivity).
  change (net +++ ":" +++ port) with (net +++ String ":" port). rewrite rsplit1_app by exact P.
  rewrite shas_app, shas_cons, Ascii.eqb_refl, Bool.orb_true_r. cbn [negb].
  rewrite split_on_app, split_on_none by assumption.
  assert (A : aget t LABEL_MAP = Some t) by (destruct T as [->| ->]; reflexivity). rewrite A, L. reflexivity.
Qed.

Theorem typed_urn s x : typed s x -> contains URN_NETWORK s = false -> exists y, cli_stp s = Done y /\ create_stp (urn y) = Ok x.
Proof.
  intros [t x' D H|net port t v l Q1 Q2 P N1 N2 V1 V2 T L] C.
  - assert (S : shas ":" t = true) by (destruct D; rewrite !shas_app; change (shas ":" ":") with true; rewrite ?Bool.orb_true_r; reflexivity).
    destruct (rsplit1 ":" t) as [[n p]|] eqn:R; [|apply rsplit1_None in R; congruence].
    exists (mkSTP n p None). split; [apply cli_plain; assumption|]. apply rsplit1_Some in R as [E _].
    unfold urn, base_urn, label_suffix. cbn [s_network s_port s_label]. rewrite append_nil_r.
    change (n +++ ":" +++ p) with (n +++ String ":" p). rewrite <- E. apply c23_accepts; assumption.
  - exists (mkSTP net port (Some l)). split; [apply cli_hash; assumption|]. apply c23_roundtrip; cbn [s_network s_port s_label]; try assumption.
    + replace (net +++ ":" +++ port +++ "#" +++ t +++ "=" +++ v) with ((net +++ ":" +++ port) +++ String "#" (t +++ String "=" v)) in C by (rewrite !append_assoc; reflexivity).
      rewrite contains_cross in C; [|discriminate|reflexivity]. apply Bool.orb_false_iff in C as [C _]. exact C.
    + intros l' [= <-]. apply label_of_str_wf in L as [-> W]. auto.
Qed.

(** ** Runs *)
Fixpoint tb (prev : option (request * reply)) (l : list act) : Prop :=
  match l with
  | [] => True
  | Told s :: r => (s = NoWait \/ exists q a, prev = Some (q, a) /\ backed q a s) /\ tb None r
  | Asked _ q a :: r => tb (Some (q, a)) r
  end.
Lemma tb_back l : forall prev, tb prev l -> forall pre s post, l = pre ++ Told s :: post -> s <> NoWait ->
  (pre = [] /\ exists q a, prev = Some (q, a) /\ backed q a s) \/ exists pre' n q a, pre = pre' ++ [Asked n q a] /\ backed q a s.
Proof.
  induction l as [|x l IH]; intros prev H pre s post E N; [destruct pre; discriminate|].
  destruct pre as [|y pre].
  - injection E as -> ->. left. cbn in H. split; [reflexivity|]. destruct H as [[->|H] _]; [contradiction|exact H].
  - injection E as -> E. right. destruct y as [n q a|t]; cbn [tb] in H.
    + destruct (IH _ H _ _ _ E N) as [(-> & q' & a' & [= <- <-] & B)|(pre' & n' & q' & a' & -> & B)].
      * exists [], n, q, a. auto.
      * exists (Asked n q a :: pre'), n', q', a'. auto.
    + destruct H as [_ H]. destruct (IH _ H _ _ _ E N) as [(_ & ? & ? & [=] & _)|(pre' & n' & q' & a' & -> & B)].
      exists (Told t :: pre'), n', q', a'. auto.
Qed.
Lemma tb_told l : tb None l -> forall pre s post, l = pre ++ Told s :: post -> s <> NoWait -> exists pre' n q a, pre = pre' ++ [Asked n q a] /\ backed q a s.
Proof. intros H pre s post E N. destruct (tb_back l None H pre s post E N) as [(_ & ? & ? & [=] & _)|X]; exact X. Qed.

Lemma goes_inv c l k : goes c l k -> (l = [] /\ k = c) \/
  match c with
  | CSay s r => exists l', l = Told s :: l' /\ goes r l' k
  | CAsk n _ q f => exists a l', l = Asked n q a :: l' /\ goes (f a) l' k
  | CEnd _ | CWait => False
  end.
Proof. intros []; [left|right|right]; eauto. Qed.

(** Runs built up from the parts of the commands. *)
Fixpoint after_fail (l : list act) (k : cmd) : Prop :=
  match l with
  | [] => True
  | Asked _ _ ANsi :: t => (asked t = [] /\ (k = CEnd None -> exists t', t = Told Failed :: t')) /\ after_fail t k
  | _ :: t => after_fail t k
  end.
Lemma after_fail_spec l k : after_fail l k -> forall r n q t, l = r ++ Asked n q ANsi :: t -> asked t = [] /\ (k = CEnd None -> exists t', t = Told Failed :: t').
Proof.
  induction l as [|x l IH]; intros H r n q t E; [destruct r; discriminate|]. destruct r as [|y r].
  - injection E as -> ->. apply H.
  - injection E as -> E. assert (H' : after_fail l k) by (destruct y as [? ? []|]; cbn in H; tauto). exact (IH H' r n q t E).
Qed.

Ltac runs := repeat match goal with
  | H : False |- _ => destruct H
  | H : exists _, _ |- _ => destruct H
  | H : _ /\ _ |- _ => destruct H
  | H : goes (on_ok ?a _) _ _ |- _ => destruct a; cbn [on_ok] in H
  | H : goes (match ?a with AOk _ _ => _ | ANsi => _ | ARaise _ => _ end) _ _ |- _ => destruct a
  | H : goes (match ?n with O => _ | S _ => _ end) _ _ |- _ => destruct n
  | H : goes (if ?b then _ else _) _ _ |- _ => destruct b eqn:?
  | H : goes _ _ _ |- _ => apply goes_inv in H; cbn beta iota in H; destruct H as [[? ?]|H]; [subst|]
  end; subst.
Ltac confirms F := repeat (let F' := fresh in apply Forall_inv_tail in F as F'; apply Forall_inv in F as (? & ? & F); try discriminate F; clear F; rename F' into F).
Ltac clauses := split;
  [ unfold first_id; cbn; eexists; reflexivity
  | cbn; intros i a E L; repeat (destruct i as [|i]; [cbn in E; injection E as <-; try (eexists; eexists; reflexivity); cbn in L; lia|]); cbn in L; lia
  | cbn; repeat (apply NoDup_cons; [cbn; intuition discriminate|]); apply NoDup_nil
  | apply tb_told; cbn; repeat split; try (left; reflexivity); try (right; do 2 eexists; split; [reflexivity|]; cbn; unfold confirmed; eauto 8)
  | unfold first_id; cbn; intros [E|E] F; try discriminate E; try reflexivity; exfalso; confirms F
  | intros s0 E; try discriminate E; injection E as <-;
    match goal with |- exists e r n q, _ /\ ?l = _ => let r := eval cbn in (removelast l) in
      match eval cbn in (last l (Told NoWait)) with Asked ?n ?q (ARaise ?e) => exists e, r, n, q; split; reflexivity end end
  | apply after_fail_spec; cbn; intuition (try discriminate; eauto)].

Ltac decide_in H := repeat match type of H with context [@eqb ?A ?i ?a ?b] => let v := eval vm_compute in (@eqb A i a b) in change (@eqb A i a b) with v in H end; cbn beta iota in H.
Ltac decide_goal := repeat match goal with |- context [@eqb ?A ?i ?a ?b] => let v := eval vm_compute in (@eqb A i a b) in change (@eqb A i a b) with v end; cbn beta iota.
Lemma reserving_orderly sub p w c l k : reserves sub -> pl_wish p = Some w -> make_crit w = Done c -> goes (command sub p) l k ->
  orderly (fun o => QReserve (pl_conn p) (pl_global p) c :: match o with Some id => to_do sub id | None => [] end) l k.
Proof.
  intros R W C H.
  assert (RC : forall x after, reserving_cmd x p after = CAsk 0 (Some [x +++ ":" +++ "1"]) (QReserve (pl_conn p) (pl_global p) c) (fun a => on_ok a (fun id _ => CSay (Held id) (after id))))
    by (intros; unfold reserving_cmd; rewrite W, C; reflexivity).
  destruct R as [<-|[<-|[<-|[<-|[]]]]]; unfold command in H; decide_in H; rewrite RC in H; clear RC; unfold to_do; decide_goal.
  - runs. all: clauses.
  - runs. all: clauses.
  - runs. all: clauses.
  - runs. all: clauses.
Qed.

Lemma one_listed o : listed o (one_or_none o).
Proof.
  unfold listed, one_or_none. destruct o as [v|]; [|right; split; [discriminate|reflexivity]]. destruct (d_true v) eqn:T.
  - left. exists v. split; [reflexivity|]. split; [apply d_true_worth; exact T|reflexivity].
  - right. split; [|reflexivity]. intros w [= <-] W. apply d_true_worth in W. congruence.
Qed.
Lemma listed_fun o a b : listed o a -> listed o b -> a = b.
Proof.
  intros [(v & E & W & ->)|[N ->]] [(v' & E' & W' & ->)|[N' ->]]; try reflexivity.
  - congruence.
  - destruct (N' v E W).
  - destruct (N v' E' W').
Qed.
Lemma single_orderly sub p q l k : single p sub q -> goes (command sub p) l k -> orderly (fun _ => [q]) l k.
Proof.
  intros S H. destruct S as [| | | |x y A B|x y A B]; unfold command in H; decide_in H; unfold simple in H.
  - runs. all: clauses.
  - runs. all: clauses.
  - runs. all: clauses.
  - runs. all: clauses.
  - rewrite (listed_fun _ _ _ A (one_listed _)), (listed_fun _ _ _ B (one_listed _)). unfold asking in H. runs. all: clauses.
  - rewrite (listed_fun _ _ _ A (one_listed _)), (listed_fun _ _ _ B (one_listed _)). unfold asking in H. runs. all: clauses.
Qed.

(** ** Waiting *)
Lemma wait_spec l r : wait_for l = Some r <-> exists pre e, l = pre ++ e :: r /\ ends_wait e = true /\ forall x, In x pre -> ends_wait x = false.
Proof.
  revert r. induction l as [|x l IH]; intros r; cbn [wait_for].
  - split; [discriminate|]. intros (pre & e & E & _). destruct pre; discriminate.
  - destruct (ends_wait x) eqn:X.
    + split.
      * intros [= <-]. exists [], x. repeat split; [exact X|intros ? []].
      * intros (pre & e & E & He & Hp). destruct pre as [|y pre]; [injection E as _ ->; reflexivity|]. injection E as -> _. specialize (Hp y (or_introl eq_refl)). congruence.
    + rewrite IH. split; intros (pre & e & E & He & Hp).
      * exists (x :: pre), e. rewrite E. repeat split; [exact He|]. intros y [<-|I]; [exact X|exact (Hp y I)].
      * destruct pre as [|y pre]; [injection E as -> _; congruence|]. injection E as -> E. exists pre, e. repeat split; [exact E|exact He|]. intros z I. apply Hp. right. exact I.
Qed.
Lemma ends_over e : ends_wait e = true <-> exists id, over id e.
Proof.
  destruct e as [c|c [] []|]; cbn; split; try discriminate; try reflexivity; unfold over.
  - intros _. exists c. auto.
  - intros (id & [E|E]); discriminate.
  - intros (id & [E|E]); discriminate.
  - intros _. exists c. auto.
  - intros (id & [E|E]); discriminate.
  - intros (id & [E|E]); discriminate.
Qed.
