(** C84, C85: the command line tool. *)
From Verif Require Import Base BaseProofs ModelLabel ModelSTP SpecSTP ModelHttpClient ModelCli SpecCli ProofsCli ProofsCliPlan ProofsCliRun.
From Verif Require SpecConfig ProofsConfig.
Open Scope Z_scope.

(** ** C84: options *)
(** What the defaults file sets an option to: the value of the last line that sets it.
    Lines that cannot be read set nothing and harm no other. *)
Theorem C84_file strptime now lines :
  (forall o v, aget o (df_vals (read_defaults strptime now lines)) = Some v <-> last_of (sets strptime now o) lines v) /\
  (forall s a, aget s (df_nsa (read_defaults strptime now lines)) = Some a <-> last_of (names s) lines a).
Proof. exact (conj (defaults_vals strptime now lines) (defaults_nsa strptime now lines)). Qed.
Print Assumptions C84_file.

(** Every command is started with what the command line says, and where it says nothing
    with what the file says, and else with what is built in; but the service of an agent
    named in the file comes from there, and waiting, the route and the attributes from
    the command line only. *)
Theorem C84_options_partial strptime now hostname sub cl lines p :
  make_plan strptime hostname sub cl (read_defaults strptime now lines) = Done p ->
  follows strptime hostname sub cl (fun o => last_of (sets strptime now o) lines) (fun s => last_of (names s) lines) p.
Proof. intros H. eapply plan_made in H as [H _]; [exact H|apply defaults_vals|apply defaults_nsa]. Qed.
Print Assumptions C84_options_partial.

(** With the options it needs, a command without TLS is started, at the provider named. *)
Theorem C84_can strptime now hostname sub cl lines p s :
  let file o := last_of (sets strptime now o) lines in
  let agents x := last_of (names x) lines in
  (forall v, ~ given cl "securityattributes" v) ->
  (forall o v, is_time o -> given cl o v -> exists t z, v = DText t /\ strptime t = Ok z) ->
  ((exists x, given cl "provider" (DText x) /\ agents x (p, s)) \/
   ((forall x a, given cl "provider" (DText x) -> ~ agents x a) /\ chosen cl file "provider" (DText p) /\ chosen cl file "service" (DText s))) ->
  (forall v, chosen cl file "requester" v -> exists t, v = DText t) ->
  ((exists h, chosen cl file "host" h /\ worth h) \/ exists n, hostname s = Ok n) ->
  (forall v, chosen cl file "tls" v -> ~ worth v) ->
  (reserves sub -> exists a b bw, chosen cl file "source" a /\ chosen cl file "dest" b /\ chosen cl file "bandwidth" bw) ->
  (needs_id sub -> exists v, chosen cl file "connection-id" v) ->
  exists x, make_plan strptime hostname sub cl (read_defaults strptime now lines) = Done x /\ pl_provider x = p /\ pl_service x = s.
Proof. intros file agents. apply plan_can; [apply defaults_vals|apply defaults_nsa]. Qed.
Print Assumptions C84_can.

(** Certificates are checked unless the command line says otherwise, when the file does
    not mention it. *)
Theorem C84_checks_partial strptime now hostname sub cl lines p c :
  make_plan strptime hostname sub cl (read_defaults strptime now lines) = Done p -> pl_ctx p = Some c ->
  ((exists v, given cl "no-verify" v /\ worth v) -> checks c = false) /\
  ((forall v, given cl "no-verify" v -> ~ worth v) -> (forall v, ~ last_of (sets strptime now "no-verify") lines v) -> checks c = true).
Proof.
  intros H E. eapply plan_made in H as [_ H]; [|apply defaults_vals|apply defaults_nsa]. rewrite (H c E). unfold verifying, given. split.
  - intros (v & G & W). rewrite G. apply d_true_worth in W. cbn [o_true]. rewrite W. reflexivity.
  - intros N F. destruct (o_true (aget "no-verify" cl)) eqn:T.
    + destruct (aget "no-verify" cl) as [v|]; [|discriminate]. destruct (N v eq_refl). apply d_true_worth. exact T.
    + destruct (aget "no-verify" (df_vals (read_defaults strptime now lines))) as [v|] eqn:D; [|reflexivity]. apply defaults_vals in D. destruct (F v D).
Qed.
Print Assumptions C84_checks_partial.

(** When the file does mention it, it is taken the wrong way round: [no-verify=true]
    makes certificates be checked, [no-verify=false] turns the checks off. *)
Theorem C84_no_verify_refuted : forall strptime now hostname sub cl lines p c b,
  make_plan strptime hostname sub cl (read_defaults strptime now lines) = Done p -> pl_ctx p = Some c ->
  (forall v, given cl "no-verify" v -> ~ worth v) -> last_of (sets strptime now "no-verify") lines (DFlag b) ->
  checks c = b.
Proof.
  intros strptime now hostname sub cl lines p c b H E N F. eapply plan_made in H as [_ H]; [|apply defaults_vals|apply defaults_nsa]. rewrite (H c E).
  unfold verifying, given in *. destruct (o_true (aget "no-verify" cl)) eqn:T.
  - destruct (aget "no-verify" cl) as [v|]; [|discriminate]. destruct (N v eq_refl). apply d_true_worth. exact T.
  - apply defaults_vals in F. rewrite F. reflexivity.
Qed.
Print Assumptions C84_no_verify_refuted.

(** No clock here. *)
Definition no_times (s : string) : result Z := Err EValue.
Definition here (s : string) : result string := Ok "10.0.0.1".
Definition a_file : list string :=
  ["# mine"; "bandwidth=200"; "port=7080"; "nsa=aruba,aruba.net:2013:nsa,http://aruba/CS2"; "endtime=+260"; "starttime=soon"; "bandwidth=many"].
Definition a_line : list (string * dval) :=
  [("provider", DText "aruba"); ("source", DText "aruba:ps?vlan=1780"); ("dest", DText "bonaire:ps#vlan=1783"); ("bandwidth", DText "")].

Example C84_ex :
  make_plan no_times here "reserve" a_line (read_defaults no_times 1000 a_file) =
    Done (mkPlan "aruba.net:2013:nsa" "http://aruba/CS2" "OpenNSA-CLI" None None None [] false (DText "10.0.0.1") (DInt 7080) None false
      (Some (mkWish (DText "aruba:ps?vlan=1780") (DText "bonaire:ps#vlan=1783") None (Some (DTime 1260)) (DInt 200) None))).
Proof. vm_compute. reflexivity. Qed.

(** The example meets the hypotheses of [C84_can]. *)
Example C84_ex_can :
  let file o := last_of (sets no_times 1000 o) a_file in
  given a_line "provider" (DText "aruba") /\ last_of (names "aruba") a_file ("aruba.net:2013:nsa", "http://aruba/CS2") /\
  chosen a_line file "bandwidth" (DInt 200) /\ chosen a_line file "source" (DText "aruba:ps?vlan=1780") /\ (forall v, ~ chosen a_line file "tls" v).
Proof.
  cbv zeta. pose proof (defaults_vals no_times 1000 a_file) as F. pose proof (defaults_nsa no_times 1000 a_file) as G.
  repeat split.
  - apply G. vm_compute. reflexivity.
  - right. split; [intros w [= <-] (W & _); exact (W eq_refl)|]. apply F. vm_compute. reflexivity.
  - left. split; [reflexivity|]. repeat split; discriminate.
  - intros v [[H _]|[_ H]]; [discriminate|]. apply F in H. vm_compute in H. discriminate.
Qed.

(** A service given on the command line is not used when the provider is named in the
    file. *)
Theorem C84_first_refuted : ~ (forall strptime now hostname sub cl lines p u,
  make_plan strptime hostname sub cl (read_defaults strptime now lines) = Done p -> given cl "service" (DText u) -> u <> "" -> pl_service p = u).
Proof.
  intros H.
  assert (E : exists p, make_plan no_times here "reserve" (("service", DText "http://other/CS2") :: a_line) (read_defaults no_times 1000 a_file) = Done p /\ pl_service p = "http://aruba/CS2")
    by (eexists; split; vm_compute; reflexivity).
  destruct E as (p & E & S). specialize (H _ _ _ _ _ _ _ "http://other/CS2" E eq_refl ltac:(discriminate)). congruence.
Qed.
Print Assumptions C84_first_refuted.

(** An agent named in the file is not known when the file itself gives it as the
    provider: without a service the command is refused. *)
Theorem C84_named_refuted : ~ (forall strptime now hostname sub cl lines s a,
  last_of (sets strptime now "provider") lines (DText s) -> last_of (names s) lines a -> (forall v, ~ given cl "provider" v) ->
  make_plan strptime hostname sub cl (read_defaults strptime now lines) <> Stop Usage).
Proof.
  intros H. apply (H no_times 0 here "query" [] ["nsa=a,b,c"; "provider=a"] "a" ("b", "c")).
  - apply defaults_vals. vm_compute. reflexivity.
  - apply (defaults_nsa no_times 0). vm_compute. reflexivity.
  - intros v [=].
  - vm_compute. reflexivity.
Qed.
Print Assumptions C84_named_refuted.

(** Not all options can be set in the file: waiting and the route cannot, nor can any
    value with a '=' in it, such as a labelled STP. *)
Theorem C84_all_options_refuted :
  (forall strptime now hostname sub cl lines p, make_plan strptime hostname sub cl (read_defaults strptime now lines) = Done p ->
     ((forall v, ~ given cl "notification_wait" v) -> pl_wait p = false) /\
     ((forall v, ~ given cl "ero" v) -> forall w, pl_wish p = Some w -> w_ero w = None)) /\
  (forall strptime now d o t, shas "=" t = true -> shas "=" o = false -> strip (o +++ "=" +++ t) = o +++ "=" +++ t ->
     read_line strptime now d (o +++ "=" +++ t) = Err EValue \/ exists r, o = "#" +++ r).
Proof.
  split.
  - intros strptime now hostname sub cl lines p H. split.
    + intros N. pose proof (fo_wait _ _ _ _ _ _ _ (C84_options_partial _ _ _ _ _ _ _ H)) as [W _].
      destruct (pl_wait p); [|reflexivity]. destruct (W eq_refl) as (_ & v & G & _). destruct (N v G).
    + intros N w E. pose proof (C84_options_partial _ _ _ _ _ _ _ H) as F.
      destruct (w_ero w) as [e|] eqn:R; [|reflexivity].
      destruct (reserving sub) eqn:S.
      * destruct (fo_wish _ _ _ _ _ _ _ F (proj1 (mem_In _ _) S)) as (w' & E' & W). rewrite E in E'. injection E' as <-.
        apply (wf_ero _ _ _ _ W) in R as [G _]. destruct (N _ G).
      * exfalso. unfold make_plan in H. rewrite S in H. cbv zeta beta in H.
        repeat (apply then_Done in H as (? & _ & H)). cbv beta in H.
        repeat match type of H with
               | (let '(_, _) := ?x in _) = _ => destruct x
               | (match ?x with Some _ => _ | None => _ end) = _ => destruct x; try discriminate
               | then_ (Done None) _ = _ => cbn [then_] in H
               | then_ _ _ = _ => apply then_Done in H as (? & _ & H)
               | (if ?b then _ else _) = _ => destruct b; try discriminate
               end.
        injection H as <-. cbn in E. discriminate.
  - intros strptime now d o t T O S. unfold read_line. cbv zeta. rewrite S.
    destruct (eqb (o +++ "=" +++ t) "") eqn:E; [apply (proj1 (eqb_true _ _)) in E; destruct o; discriminate|]. cbn [orb].
    destruct (starts_with "#" (o +++ "=" +++ t)) eqn:B.
    + right. apply starts_hash in B as [r B]. destruct o as [|c o]; [discriminate|]. injection B as -> _. exists o. reflexivity.
    + left. change (o +++ "=" +++ t) with (o +++ String "=" t). rewrite split_on_app by exact O.
      destruct (split_on "=" t) as [|a [|b r]] eqn:P; [destruct (split_on_nonnil _ _ P)| |reflexivity].
      exfalso. assert (X : t = a) by (rewrite <- (join_split_on "=" t), P; reflexivity). assert (Y : shas "=" a = false) by (apply (split_on_free "=" t); rewrite P; left; reflexivity). congruence.
Qed.
Print Assumptions C84_all_options_refuted.

Example C84_ex_verify :
  let cl := [("provider", DText "p"); ("service", DText "http://p/CS2"); ("tls", DFlag true); ("certificate", DText "."); ("key", DText ".")] in
  let p b := make_plan no_times here "query" cl (read_defaults no_times 0 ["no-verify=" +++ b]) in
  (forall q, p "true" = Done q -> pl_ctx q = Some (CheckOnly None true)) /\ (exists q, p "true" = Done q) /\
  (forall q, p "false" = Done q -> pl_ctx q = Some (CheckOnly None false)) /\ (exists q, p "false" = Done q) /\
  read_line no_times 0 (mkDefaults [] []) "source=aruba:ps#vlan=1780" = Err EValue.
Proof.
  cbv zeta. repeat split.
  - intros q H. vm_compute in H. injection H as <-. reflexivity.
  - eexists. vm_compute. reflexivity.
  - intros q H. vm_compute in H. injection H as <-. reflexivity.
  - eexists. vm_compute. reflexivity.
Qed.

(** ** C85: commands *)
(** An STP typed in the documented form, or with '#', is the one the provider reads. *)
Theorem C85_stp s x : typed s x -> contains URN_NETWORK s = false -> exists y, cli_stp s = Done y /\ create_stp (urn y) = Ok x.
Proof. apply typed_urn. Qed.
Print Assumptions C85_stp.

Example C85_ex_stp :
  typed "northernlight.ets:ps?vlan=23" (mkSTP "northernlight.ets" "ps" (Some (mkLabel "vlan" [(23, 23)]))) /\
  typed "northernlight.ets:ps#vlan=23" (mkSTP "northernlight.ets" "ps" (Some (mkLabel "vlan" [(23, 23)]))) /\
  cli_stp "northernlight.ets:ps#vlan=23" = Done (mkSTP "northernlight.ets" "ps" (Some (mkLabel "vlan" [(23, 23)]))) /\
  cli_stp "northernlight.ets:ps?vlan=23" = Done (mkSTP "northernlight.ets" "ps?vlan=23" None).
Proof.
  split; [|split; [|split; vm_compute; reflexivity]].
  - apply ty_doc; [|reflexivity]. apply (stp_labelled "northernlight.ets" "ps" "vlan" "23"); try reflexivity. left. reflexivity.
  - apply (ty_hash "northernlight.ets" "ps" "vlan" "23"); try reflexivity. left. reflexivity.
Qed.

(** The documented MPLS form is one that no provider reads. *)
Theorem C85_mpls_refuted : exists y, cli_stp "northernlight.ets:ps?mpls=123:456" = Done y /\ create_stp (urn y) = Err EPayload.
Proof. eexists. split; vm_compute; reflexivity. Qed.
Print Assumptions C85_mpls_refuted.

(** A text that is no STP is not always a usage error: an unknown label type is a
    KeyError, a second '#' a ValueError. *)
Theorem C85_usage_refuted : ~ (forall s x, cli_stp s = Stop x -> x = Usage).
Proof. intros H. specialize (H "net:port#wavelength=1" (Raised EKey) eq_refl). discriminate. Qed.
Print Assumptions C85_usage_refuted.
Theorem C85_usage_partial s : shas ":" s = false \/ (exists a b, s = a +++ "#" +++ b /\ shas ":" a = true /\ shas "#" a = false /\ shas "#" b = false /\ shas "=" b = false) ->
  cli_stp s = Stop Usage.
Proof.
  unfold cli_stp. intros [->|(a & b & -> & C & A & B & E)]; [reflexivity|].
  rewrite !shas_app, C. cbn [orb negb]. change (shas "#" "#") with true. cbn [orb]. rewrite Bool.orb_true_r.
  change (a +++ "#" +++ b) with (a +++ String "#" b). rewrite split_on_app, split_on_none by assumption.
  destruct (rsplit1 ":" a) as [[n p]|] eqn:R; [rewrite E; reflexivity|]. apply rsplit1_None in R. congruence.
Qed.
Print Assumptions C85_usage_partial.

(** However the provider answers, and however far it has come, a command that reserves
    asks for the reservation and then, for the connection it was given, for what is to
    be done, in order and one after the other. *)
Theorem C85_steps sub p w c l k : reserves sub -> pl_wish p = Some w -> make_crit w = Done c -> goes (command sub p) l k ->
  orderly (fun o => QReserve (pl_conn p) (pl_global p) c :: match o with Some id => to_do sub id | None => [] end) l k.
Proof. apply reserving_orderly. Qed.
Print Assumptions C85_steps.

(** What is asked first is the reservation that was wished for, between the two STPs
    that were typed, along the route that was typed if there is one, with the tool
    itself as the start of the trace. *)
Definition means (s : string) (x : stp) : Prop := typed s x /\ contains URN_NETWORK s = false.
Theorem C85_request sub p w src dst xs xd route :
  reserves sub -> pl_wish p = Some w -> w_src w = DText src -> w_dst w = DText dst -> means src xs -> means dst xd ->
  match w_ero w with
  | None => route = []
  | Some e => exists ps, SpecConfig.pieces "," e ps /\ Forall2 (fun t x => exists s, SpecConfig.trims t s /\ means s x) ps route
  end ->
  exists c k, command sub p = CAsk 0 (Some ["urn:ogf:network:" +++ pl_requester p +++ ":1"]) (QReserve (pl_conn p) (pl_global p) c) k /\
    create_stp (urn (cr_src c)) = Ok xs /\ create_stp (urn (cr_dst c)) = Ok xd /\
    cr_start c = w_start w /\ cr_end c = w_end w /\ cr_bw c = w_bw w /\
    match cr_ero c with None => w_ero w = None | Some l => w_ero w <> None /\ Forall2 (fun y x => create_stp (urn y) = Ok x) l route end.
Proof.
  intros R W Es Ed [Ts Us] [Td Ud] He.
  destruct (typed_urn _ _ Ts Us) as (ys & Ys & Cs). destruct (typed_urn _ _ Td Ud) as (yd & Yd & Cd).
  assert (E : exists o, cli_stps (w_ero w) = Done o /\ match o with None => w_ero w = None | Some l => w_ero w <> None /\ Forall2 (fun y x => create_stp (urn y) = Ok x) l route end).
  { destruct (w_ero w) as [e|]; [|exists None; auto]. destruct He as (ps & P & F). cbn [cli_stps]. rewrite <- (ProofsConfig.pieces_unique _ _ _ P). clear P.
    assert (G : exists l, fold_right (fun t r => do!! s <- cli_stp (strip t); do!! l <- r; Done (s :: l)) (Done []) ps = Done l /\ Forall2 (fun y x => create_stp (urn y) = Ok x) l route).
    { induction F as [|t x ps route (s & T & M1 & M2) F (l & E & L)]; [exists []; auto|]. destruct (typed_urn _ _ M1 M2) as (y & Y & C).
      exists (y :: l). split; [|constructor; assumption]. cbn [fold_right]. rewrite (ProofsConfig.trims_strip _ _ T), Y, E. reflexivity. }
    destruct G as (l & -> & L). exists (Some l). split; [reflexivity|]. split; [discriminate|exact L]. }
  destruct E as (o & Eo & Ho).
  assert (M : make_crit w = Done (mkCrit (w_start w) (w_end w) ys yd (w_bw w) o)).
  { unfold make_crit. rewrite Es, Ed, Eo. unfold stp_arg. rewrite Ys, Yd. reflexivity. }
  exists (mkCrit (w_start w) (w_end w) ys yd (w_bw w) o).
  assert (RC : forall after, exists k, reserving_cmd (requester_urn p) p after = CAsk 0 (Some ["urn:ogf:network:" +++ pl_requester p +++ ":1"]) (QReserve (pl_conn p) (pl_global p) (mkCrit (w_start w) (w_end w) ys yd (w_bw w) o)) k).
  { intros after. eexists. unfold reserving_cmd. rewrite W, M. unfold requester_urn. rewrite append_assoc. reflexivity. }
  cbn [cr_src cr_dst cr_start cr_end cr_bw cr_ero].
  destruct R as [<-|[<-|[<-|[<-|[]]]]]; unfold command; decide_goal;
    (match goal with |- exists k, reserving_cmd _ _ ?a = _ /\ _ => destruct (RC a) as (k & ->) end; exists k; auto 10).
Qed.
Print Assumptions C85_request.

(** The other commands make one request. *)
Theorem C85_single sub p q l k : single p sub q -> goes (command sub p) l k -> orderly (fun _ => [q]) l k.
Proof. apply single_orderly. Qed.
Print Assumptions C85_single.

(** If an STP cannot be read nothing is asked. *)
Theorem C85_unread sub p w s l k : reserves sub -> pl_wish p = Some w -> make_crit w = Stop s -> goes (command sub p) l k ->
  l = [] /\ k = CEnd (Some s).
Proof.
  intros R W C H.
  assert (RC : forall x after, reserving_cmd x p after = CEnd (Some s)) by (intros; unfold reserving_cmd; rewrite W, C; reflexivity).
  destruct R as [<-|[<-|[<-|[<-|[]]]]]; unfold command in H; decide_in H; rewrite RC in H; apply goes_inv in H as [[-> ->]|[]]; auto.
Qed.
Print Assumptions C85_unread.

Definition a_plan : plan :=
  mkPlan "aruba.net:2013:nsa" "http://aruba/CS2" "OpenNSA-CLI" None None None [] false (DText "10.0.0.1") (DInt 7080) None true
    (Some (mkWish (DText "aruba:ps?vlan=1780") (DText "bonaire:ps#vlan=1783") None (Some (DTime 1260)) (DInt 200) None)).
Example C85_ex_request : exists w, pl_wish a_plan = Some w /\ reserves "rprt" /\
  means "aruba:ps?vlan=1780" (mkSTP "aruba" "ps" (Some (mkLabel "vlan" [(1780, 1780)]))) /\ means "bonaire:ps#vlan=1783" (mkSTP "bonaire" "ps" (Some (mkLabel "vlan" [(1783, 1783)]))).
Proof.
  eexists. split; [reflexivity|]. split; [unfold reserves; cbn; auto|]. split; (split; [|reflexivity]).
  - apply ty_doc; [|reflexivity]. apply (stp_labelled "aruba" "ps" "vlan" "1780"); try reflexivity. left. reflexivity.
  - apply (ty_hash "bonaire" "ps" "vlan" "1783"); try reflexivity. left. reflexivity.
Qed.
Example C85_ex : exists w c, pl_wish a_plan = Some w /\ make_crit w = Done c /\
  goes (command "reserveprovision" a_plan)
    [Asked 0 (QReserve None None c) (AOk "AR-1" 1); Told (Held "AR-1"); Asked 1 (QCommit (Some (DText "AR-1"))) (AOk "AR-1" 1); Told Committed;
     Asked 2 (QSummary (Some [DText "AR-1"]) None) (AOk "" 1); Told (Results 1); Asked 3 (QProvision (Some (DText "AR-1"))) (AOk "AR-1" 1);
     Told (Provisioned (Some (DText "AR-1")))] CWait /\
  goes (command "rprt" a_plan) [Asked 0 (QReserve None None c) (AOk "AR-1" 1); Told (Held "AR-1"); Asked 1 (QCommit (Some (DText "AR-1"))) ANsi; Told Failed] (CEnd None).
Proof.
  eexists. eexists. split; [reflexivity|]. split; [vm_compute; reflexivity|]. split; unfold command; decide_goal; unfold reserving_cmd, a_plan; cbn [pl_wish];
    repeat match goal with |- context [make_crit ?w] => let v := eval vm_compute in (make_crit w) in change (make_crit w) with v end; cbn beta iota;
    repeat (first [apply go_ask | apply go_say]; cbn [on_ok pl_wait]); apply go_here.
Qed.

(** Waiting ends with the first event that is a reason to, for some connection. *)
Theorem C85_wait_partial l r : wait_for l = Some r <->
  exists pre e, l = pre ++ e :: r /\ (exists id, over id e) /\ forall x, In x pre -> forall id, ~ over id x.
Proof.
  rewrite wait_spec. split; intros (pre & e & E & He & Hp); exists pre, e; (split; [exact E|]); (split; [apply ends_over; exact He|]).
  - intros x I id O. specialize (Hp x I). assert (ends_wait x = true) by (apply ends_over; exists id; exact O). congruence.
  - intros x I. destruct (ends_wait x) eqn:X; [|reflexivity]. apply ends_over in X as [id O]. destruct (Hp x I id O).
Qed.
Print Assumptions C85_wait_partial.
(** But not only for the connection waited for. *)
Theorem C85_wait_refuted : ~ (forall id l r, (forall e, In e l -> ~ over id e) -> wait_for l = Some r -> False).
Proof.
  intros H. apply (H "AR-1" [DataPlane "AR-1" true true; DataPlane "AR-2" false true] []); [|reflexivity].
  intros e [<-|[<-|[]]] [E|E]; discriminate.
Qed.
Print Assumptions C85_wait_refuted.

(** A commit without a connection id is not refused but sent. *)
Theorem C85_commit_refuted : exists cl p, (forall v, ~ given cl "connection-id" v) /\
  make_plan no_times here "reservecommit" cl (read_defaults no_times 0 []) = Done p /\
  forall a, goes (command "reservecommit" p) [Asked 0 (QCommit None) a] (match a with AOk _ _ => CSay Committed (CEnd None) | ANsi => CSay Failed (CEnd None) | ARaise e => CEnd (Some (Raised e)) end).
Proof.
  exists [("provider", DText "p"); ("service", DText "http://p/CS2")]. eexists. split; [intros v [=]|]. split; [vm_compute; reflexivity|].
  intros a. unfold command. decide_goal. unfold simple. cbn [pl_conn]. apply go_ask. destruct a; apply go_here.
Qed.
Print Assumptions C85_commit_refuted.
