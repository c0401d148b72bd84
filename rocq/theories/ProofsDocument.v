(** Proofs for C99. *)
From Verif Require Import Base BaseProofs ModelXml ModelAuthz ModelHeader ModelErrors ModelLabel ModelSTP SpecSTP ProofsSTP ModelTime SpecTime ProofsTime ProofsTimeText
  ModelQueryHelper SpecQueryHelper ModelMessages SpecMessages SpecHeader ProofsHeaderDoc SpecDocument.
Open Scope Z_scope.

Lemma findtext_is tag e v : field tag (e_kids e) v -> findtext tag e = v.
Proof. destruct e as [r a t kids]. cbn [e_kids]. intros H. exact (field_unique _ _ _ _ (findtext_field tag r a t kids) H). Qed.
Lemma find1_is tag e c : first_kid tag (e_kids e) c -> find1 tag e = Some c.
Proof. destruct e as [r a t kids]. cbn [e_kids]. intros H. rewrite (find1_root tag r "x" a a t t). apply find1_first. exact H. Qed.
Lemma find1_isnt tag e : (forall c, In c (e_kids e) -> e_tag c <> tag) -> find1 tag e = None.
Proof. destruct e as [r a t kids]. cbn [e_kids]. intros H. rewrite (find1_root tag r "x" a a t t). apply find1_none. exact H. Qed.
Lemma find1_cases tag e : (exists c, find1 tag e = Some c /\ first_kid tag (e_kids e) c) \/ find1 tag e = None.
Proof.
  destruct e as [r a t kids]. cbn [e_kids]. rewrite (find1_root tag r "x" a a t t). destruct (find1 tag (Elem "x" a t kids)) as [c|] eqn:E; [left|right; reflexivity].
  exists c. split; [reflexivity|]. apply (find1_first tag kids a t). exact E.
Qed.
Lemma get_is e n v : attr_is e n v -> e_get n e = v.
Proof.
  intros [O H]. unfold e_get. destruct v as [s|]; [apply in_get; assumption|]. destruct (aget n (e_attrs e)) as [s|] eqn:E; [|reflexivity].
  apply in_get in E; [|exact O]. destruct (H s E).
Qed.
Lemma time_is s u : time_text s u -> parseXMLTimestamp s = Ok u.
Proof.
  intros (t & f & z & off & -> & T & F & Z & O & U & I). pose proof (parse_zoned t f z off T F Z O) as P. cbv zeta in P. rewrite <- I in P.
  destruct (parseXMLTimestamp (stamp t f z)) as [v|e].
  - destruct P as [P1 P2]. f_equal. apply instant_inj; assumption.
  - destruct P as [_ P]. destruct P. apply instant_representable. exact U.
Qed.
Lemma opt_time_parse tag e o : opt_time_is tag (e_kids e) o -> opt_parse (findtext tag e) = Ok o.
Proof.
  destruct o as [u|]; cbn [opt_time_is].
  - intros (s & F & T). rewrite (findtext_is _ _ _ F). cbn [opt_parse]. rewrite (time_is _ _ T). reflexivity.
  - intros F. rewrite (findtext_is _ _ _ F). reflexivity.
Qed.
Lemma stp_parse tag e s : stp_is tag (e_kids e) s -> stp_of (findtext tag e) = Ok s.
Proof. intros (r & F & C & T). rewrite (findtext_is _ _ _ F). cbn [stp_of]. apply (c23_accepts r s C). exact T. Qed.
Lemma int_is tag e n : field tag (e_kids e) (Some (py_str n)) -> int_opt (findtext tag e) = Ok n.
Proof. intros F. rewrite (findtext_is _ _ _ F). cbn [int_opt]. rewrite py_int_str. reflexivity. Qed.
Lemma bool_parse tag e b : bool_is not_one tag (e_kids e) b -> opt_eqb (findtext tag e) (Some "true") = b.
Proof. intros (s & F & X & N). rewrite (findtext_is _ _ _ F). destruct X; (congruence || reflexivity). Qed.
Lemma opt_bool_parse tag e o : opt_bool_is not_one tag (e_kids e) o -> match findtext tag e with None => None | Some s => Some (eqb s "true") end = o.
Proof. destruct o as [b|]; cbn [opt_bool_is]; [intros (s & F & X & N)|intros F]; rewrite (findtext_is _ _ _ F); [destruct X; (congruence || reflexivity)|reflexivity]. Qed.
Lemma named_findall tag e : findall tag e = named tag (e_kids e).
Proof. reflexivity. Qed.

Lemma header_read fresh env kids body : message env kids body -> header_sound kids -> exists d, parse_request fresh env = Ok (d, body) /\ header_says fresh kids d.
Proof. intros M [A T]. exact (header_reads fresh env kids body M A T). Qed.

Section Service.
  Variables (fresh : string) (env : element) (d : dec_header) (e : element) (b : body).
  Hypothesis parsed : parse_request fresh env = Ok (d, [e]).
  Hypothesis built : parse_body e = Ok b.
  Lemma parsed_message : parse_message fresh env = Ok (d, b).
  Proof using parsed built. unfold parse_message. rewrite parsed. cbn [Base.bind]. rewrite built. reflexivity. Qed.
  Lemma to_provider act f : aget act provider_decoders = Some f -> provider_service fresh (act, env) = Some (f d b).
  Proof using parsed built. intros A. unfold provider_service. cbn [fst snd]. rewrite A, parsed_message. reflexivity. Qed.
  Lemma to_requester_ act f : aget act requester_decoders = Some f -> eqb act (ACT "messageDeliveryTimeout") = false -> requester_service fresh (act, env) = Some (f d b).
  Proof using parsed built. intros A N. unfold requester_service. cbn [fst snd]. rewrite A, N, parsed_message. reflexivity. Qed.
End Service.

Lemma build_of e tag k : e_tag e = tag -> aget tag type_map = Some k -> parse_body e = build_body k e.
Proof. intros E A. unfold parse_body. rewrite E, A. reflexivity. Qed.

(** Reservations. *)
Definition params_of (l : list (option string * option string)) : option (list (option string * option string)) := match l with [] => None | _ => Some l end.
Definition route_of (p : element) : option (list (option string)) := match find1 "ero" p with None => None | Some x => Some (map (findtext "stp") (e_kids x)) end.
Lemma params_read kids l : Forall2 (fun k tv => attr_is k "type" (fst tv) /\ e_text k = snd tv) kids l -> map (fun k => (e_get "type" k, e_text k)) kids = l.
Proof. induction 1 as [|k [t v] ks l [A T] H IH]; [reflexivity|]. cbn [map]. rewrite IH, (get_is _ _ _ A), T. reflexivity. Qed.
Lemma service_build p src dst cap dir sym params : service_is not_one p src dst cap dir sym params ->
  exists s t, sdef_build p = Ok (SDp2p (mkPI cap (Some dir) sym s t (route_of p) (params_of params))) /\ stp_of s = Ok src /\ stp_of t = Ok dst /\ (route_of p = None \/ route_of p = Some []).
Proof.
  intros S. exists (findtext "sourceSTP" p), (findtext "destSTP" p). split; [|split; [|split]].
  - unfold sdef_build. rewrite (sv_tag _ _ _ _ _ _ _ _ S). change (eqb "{http://schemas.ogf.org/nsi/2013/12/services/point2point}p2ps" P2PS) with true. cbn match.
    unfold p2p_build. rewrite (int_is _ _ _ (sv_cap _ _ _ _ _ _ _ _ S)). cbn [Base.bind].
    rewrite (findtext_is _ _ _ (sv_dir _ _ _ _ _ _ _ _ S)), (opt_bool_parse _ _ _ (sv_sym _ _ _ _ _ _ _ _ S)). unfold route_of. do 3 f_equal.
    rewrite named_findall. rewrite <- (params_read _ _ (sv_params _ _ _ _ _ _ _ _ S)). destruct (named "parameter" (e_kids p)); reflexivity.
  - exact (stp_parse _ _ _ (sv_src _ _ _ _ _ _ _ _ S)).
  - exact (stp_parse _ _ _ (sv_dst _ _ _ _ _ _ _ _ S)).
  - unfold route_of. destruct (find1_cases "ero" p) as [(x & E & F)|E]; rewrite E; [right|left; reflexivity]. rewrite (sv_ero _ _ _ _ _ _ _ _ S x F). reflexivity.
Qed.
Lemma only_services c p ks sd : sdef_build p = Ok sd -> (forall k, In k ks -> e_tag k = "schedule" \/ e_tag k = "serviceType" \/ k = p) ->
  exists l, mapM sdef_build (filter (fun k => negb (mem (e_tag k) ["schedule"; "serviceType"])) ks) = Ok l /\ (forall x, In x l -> x = sd) /\
    (In p ks -> negb (mem (e_tag p) ["schedule"; "serviceType"]) = true -> l <> []) /\ c = c :> element.
Proof.
  intros B. induction ks as [|k ks IH]; intros H.
  - exists []. split; [reflexivity|]. split; [intros x []|]. split; [intros []|reflexivity].
  - destruct (IH (fun x X => H x (or_intror X))) as (l & E & A & N & _). cbn [filter]. destruct (negb (mem (e_tag k) ["schedule"; "serviceType"])) eqn:M.
    + assert (K : k = p). { destruct (H k (or_introl eq_refl)) as [T|[T|T]]; [| |exact T]; rewrite T in M; discriminate M. }
      subst k. exists (sd :: l). cbn [mapM]. rewrite B. cbn [Base.bind]. rewrite E. split; [reflexivity|]. split; [intros x [<-|X]; auto|]. split; [discriminate|reflexivity].
    + exists l. split; [exact E|]. split; [exact A|]. split; [|reflexivity]. intros [->|I] P; [congruence|exact (N I P)].
Qed.
Lemma criteria_read confirm c ver a z p sd : criteria_is c ver a z p -> e_tag p = "{http://schemas.ogf.org/nsi/2013/12/services/point2point}p2ps" -> sdef_build p = Ok sd ->
  exists sa sz ty, criteria_build confirm c = Ok (mkCrI ver (Some (sa, sz)) ty sd) /\ opt_parse sa = Ok a /\ opt_parse sz = Ok z.
Proof.
  intros C T B. destruct (cr_sched _ _ _ _ _ C) as (s & F & A & Z). exists (findtext "startTime" s), (findtext "endTime" s), (findtext "serviceType" c).
  split; [|split; [exact (opt_time_parse _ _ _ A)|exact (opt_time_parse _ _ _ Z)]].
  destruct (only_services c p (e_kids c) sd B (cr_only _ _ _ _ _ C)) as (l & E & L & N & _). unfold criteria_build. rewrite E. cbn [Base.bind]. rewrite (find1_is _ _ _ F). cbn [Base.bind].
  assert (Nl : l <> []) by (apply N; [exact (cr_has _ _ _ _ _ C)|rewrite T; reflexivity]).
  destruct l as [|x l]; [congruence|]. rewrite (L x (or_introl eq_refl)), (get_is _ _ _ (cr_ver _ _ _ _ _ C)). reflexivity.
Qed.

Theorem reads_reserve fresh env kids e cid gid desc ver a z p src dst cap dir sym params :
  message env kids [e] -> header_sound kids -> reservation_is "{CT}reserve" e cid gid desc ver a z p -> service_is not_one p src dst cap dir sym params ->
  exists d, header_says fresh kids d /\ provider_service fresh (action "reserve", env) =
    Some (Ok (HCall (PReserve d cid gid desc ver (mkSched a z) (mkSI src dst cap dir (match sym with Some b => b | None => false end) (match params with [] => None | _ => Some params end))))).
Proof.
  intros M H R S. destruct (header_read fresh env kids [e] M H) as (d & P & D). exists d. split; [exact D|].
  destruct (service_build _ _ _ _ _ _ _ S) as (s & t & B & Bs & Bt & Ro). destruct (rs_crit _ _ _ _ _ _ _ _ _ R) as (c & Fc & C).
  destruct (criteria_read false c ver a z p _ C (sv_tag _ _ _ _ _ _ _ _ S) B) as (sa & sz & ty & Bc & Pa & Pz).
  rewrite (to_provider fresh env d e (BReserve cid gid desc (mkCrI ver (Some (sa, sz)) ty (SDp2p (mkPI cap (Some dir) sym s t (route_of p) (params_of params))))) P) with (f := handle_reserve).
  - f_equal. cbn [handle_reserve ci_sd pi_dir]. destruct dir as [|ch dir]; [destruct (sv_some _ _ _ _ _ _ _ _ S eq_refl)|]. cbn [ci_sched Base.bind fst snd pi_src pi_dst].
    rewrite Pa. cbn [Base.bind]. rewrite Pz. cbn [Base.bind]. rewrite Bs. cbn [Base.bind]. rewrite Bt. cbn [Base.bind pi_ero]. destruct Ro as [-> | ->]; reflexivity.
  - rewrite (build_of e _ _ (rs_tag _ _ _ _ _ _ _ _ _ R) eq_refl). cbn [build_body]. unfold reserve_build. rewrite (find1_is _ _ _ Fc). cbn [Base.bind]. rewrite Bc. cbn [Base.bind].
    rewrite (findtext_is _ _ _ (rs_cid _ _ _ _ _ _ _ _ _ R)), (findtext_is _ _ _ (rs_gid _ _ _ _ _ _ _ _ _ R)), (findtext_is _ _ _ (rs_desc _ _ _ _ _ _ _ _ _ R)). reflexivity.
  - reflexivity.
Qed.
Theorem reads_reserve_confirmed fresh env kids e cid gid desc ver a z p src dst cap dir sym params :
  message env kids [e] -> header_sound kids -> reservation_is "{CT}reserveConfirmed" e cid gid desc ver a z p -> service_is not_one p src dst cap dir sym params ->
  exists d, header_says fresh kids d /\ requester_service fresh (action "reserveConfirmed", env) =
    Some (Ok (RReserveConfirmed d cid gid desc ver (mkSched a z) (mkP2P src dst cap dir sym))).
Proof.
  intros M H R S. destruct (header_read fresh env kids [e] M H) as (d & P & D). exists d. split; [exact D|].
  destruct (service_build _ _ _ _ _ _ _ S) as (s & t & B & Bs & Bt & Ro). destruct (rs_crit _ _ _ _ _ _ _ _ _ R) as (c & Fc & C).
  destruct (criteria_read true c ver a z p _ C (sv_tag _ _ _ _ _ _ _ _ S) B) as (sa & sz & ty & Bc & Pa & Pz).
  rewrite (to_requester_ fresh env d e (BReserve cid gid desc (mkCrI ver (Some (sa, sz)) ty (SDp2p (mkPI cap (Some dir) sym s t (route_of p) (params_of params))))) P) with (f := on_reserve_confirmed).
  - f_equal. cbn [on_reserve_confirmed ci_sd ci_sched Base.bind fst snd].
    rewrite Pa. cbn [Base.bind]. rewrite Pz. cbn [Base.bind pi_src pi_dst pi_dir]. rewrite Bs. cbn [Base.bind]. rewrite Bt. reflexivity.
  - rewrite (build_of e _ _ (rs_tag _ _ _ _ _ _ _ _ _ R) eq_refl). cbn [build_body]. unfold reserve_build. rewrite (find1_is _ _ _ Fc). cbn [Base.bind]. rewrite Bc. cbn [Base.bind].
    rewrite (findtext_is _ _ _ (rs_cid _ _ _ _ _ _ _ _ _ R)), (findtext_is _ _ _ (rs_gid _ _ _ _ _ _ _ _ _ R)), (findtext_is _ _ _ (rs_desc _ _ _ _ _ _ _ _ _ R)). reflexivity.
  - reflexivity.
  - reflexivity.
Qed.

(** Messages with a connection id only, and queries. *)
Theorem reads_conn fresh env kids e method cid : In method ["reserveCommit"; "reserveAbort"; "provision"; "release"; "terminate"] ->
  message env kids [e] -> header_sound kids -> e_tag e = "{CT}" +++ method -> field "connectionId" (e_kids e) (Some cid) ->
  exists d, header_says fresh kids d /\ provider_service fresh (action method, env) = Some (Ok (HCall (PConn method d (Some cid)))).
Proof.
  intros I M H T F. destruct (header_read fresh env kids [e] M H) as (d & P & D). exists d. split; [exact D|]. cbn [In] in I.
  repeat destruct I as [<-|I]; try destruct I;
    (eapply eq_trans; [eapply (to_provider fresh env d e (BConn (Some cid)) P); [|reflexivity]|reflexivity];
     rewrite (build_of e _ _ T eq_refl); cbn [build_body]; rewrite (findtext_is _ _ _ F); reflexivity).
Qed.
Theorem reads_confirmation fresh env kids e method cid :
  In method ["reserveCommitConfirmed"; "reserveAbortConfirmed"; "provisionConfirmed"; "releaseConfirmed"; "terminateConfirmed"] ->
  message env kids [e] -> header_sound kids -> e_tag e = "{CT}" +++ method -> field "connectionId" (e_kids e) (Some cid) ->
  exists d, header_says fresh kids d /\ requester_service fresh (action method, env) = Some (Ok (RConn method d (Some cid))).
Proof.
  intros I M H T F. destruct (header_read fresh env kids [e] M H) as (d & P & D). exists d. split; [exact D|]. cbn [In] in I.
  repeat destruct I as [<-|I]; try destruct I;
    (eapply eq_trans; [eapply (to_requester_ fresh env d e (BConn (Some cid)) P); [|reflexivity|reflexivity]|reflexivity];
     rewrite (build_of e _ _ T eq_refl); cbn [build_body]; rewrite (findtext_is _ _ _ F); reflexivity).
Qed.
Theorem reads_query fresh env kids e method : In method ["querySummary"; "querySummarySync"; "queryRecursive"] ->
  message env kids [e] -> header_sound kids -> e_tag e = "{CT}" +++ method ->
  exists d, header_says fresh kids d /\ provider_service fresh (action method, env) =
    Some (Ok (HCall (PQuery method d (map e_text (named "connectionId" (e_kids e))) (map e_text (named "globalReservationId" (e_kids e)))))).
Proof.
  intros I M H T. destruct (header_read fresh env kids [e] M H) as (d & P & D). exists d. split; [exact D|]. cbn [In] in I.
  repeat destruct I as [<-|I]; try destruct I;
    (eapply eq_trans; [eapply (to_provider fresh env d e (BQuery (map e_text (named "connectionId" (e_kids e))) (map e_text (named "globalReservationId" (e_kids e)))) P); [|reflexivity]|reflexivity];
     rewrite (build_of e _ _ T eq_refl); reflexivity).
Qed.

(** Notifications and failures. *)
Theorem reads_timeout fresh env kids e cid nid t tv ocid onsa : message env kids [e] -> header_sound kids -> timeout_is e cid nid t tv ocid onsa ->
  exists d, header_says fresh kids d /\ requester_service fresh (action "reserveTimeout", env) = Some (Ok (RTimeout d (Some cid) nid t tv (Some ocid) (Some onsa))).
Proof.
  intros M H (T & C & N & (s & Fs & Ts) & V & O & A). destruct (header_read fresh env kids [e] M H) as (d & P & D). exists d. split; [exact D|].
  rewrite (to_requester_ fresh env d e (BTimeout (Some cid) nid (Some s) tv (Some ocid) (Some onsa)) P) with (f := on_reserve_timeout); [| |reflexivity|reflexivity].
  - cbn [on_reserve_timeout]. rewrite (time_is _ _ Ts). reflexivity.
  - rewrite (build_of e _ _ T eq_refl). cbn [build_body]. unfold timeout_build. rewrite (int_is _ _ _ N). cbn [Base.bind]. rewrite (int_is _ _ _ V). cbn [Base.bind].
    rewrite (findtext_is _ _ _ C), (findtext_is _ _ _ Fs), (findtext_is _ _ _ O), (findtext_is _ _ _ A). reflexivity.
Qed.
Theorem reads_change fresh env kids e cid nid ts act ver same : message env kids [e] -> header_sound kids -> change_is not_one e cid nid ts act ver same ->
  exists d, header_says fresh kids d /\ requester_service fresh (action "dataPlaneStateChange", env) = Some (Ok (RDataPlane d (Some cid) nid (Some ts) act ver same)).
Proof.
  intros M H (T & C & N & Fs & (p & Fp & A & V & S)). destruct (header_read fresh env kids [e] M H) as (d & P & D). exists d. split; [exact D|].
  rewrite (to_requester_ fresh env d e (BDataPlane (Some cid) nid (Some ts) act ver same) P) with (f := on_data_plane); [reflexivity| |reflexivity|reflexivity].
  rewrite (build_of e _ _ T eq_refl). cbn [build_body]. unfold data_plane_build. rewrite (int_is _ _ _ N). cbn [Base.bind]. rewrite (find1_is _ _ _ Fp). cbn [need Base.bind].
  rewrite (int_is _ _ _ V). cbn [Base.bind]. rewrite (findtext_is _ _ _ C), (findtext_is _ _ _ Fs), (bool_parse _ _ _ A), (bool_parse _ _ _ S). reflexivity.
Qed.
Lemma states_read s r p l act ver same : states_are not_one s r p l act ver same -> states_build s = Ok (mkCS r p l act ver same).
Proof.
  intros (R & Pr & L & (d & F & A & V & S)). unfold states_build. rewrite (find1_is _ _ _ F). cbn [need Base.bind]. rewrite (int_is _ _ _ V). cbn [Base.bind].
  rewrite (findtext_is _ _ _ R), (findtext_is _ _ _ Pr), (findtext_is _ _ _ L), (bool_parse _ _ _ A), (bool_parse _ _ _ S). reflexivity.
Qed.
Lemma variables_read kids vars : Forall2 (fun k tv => attr_is k "type" (Some (fst tv)) /\ field "value" (e_kids k) (Some (snd tv))) kids vars ->
  map variable_build kids = map (fun kv => (Some (fst kv), Some (snd kv))) vars.
Proof. induction 1 as [|k [t v] ks l [A T] H IH]; [reflexivity|]. cbn [map]. rewrite IH. unfold variable_build. rewrite (get_is _ _ _ A), (findtext_is _ _ _ T). reflexivity. Qed.
Lemma code_lookup id c : In (id, c) code_class -> lookup (Some id) = Ok c.
Proof. intros I. unfold code_class in I. cbn [In] in I. repeat destruct I as [[= <- <-]|I]; try reflexivity. destruct I. Qed.
Lemma exception_read x nsa id text conn vars c peer : exception_is x nsa id text conn vars -> nsa <> "" -> In (id, c) code_class ->
  create_exception (se_build x) peer = Ok (mkDE c (Some text) (Some nsa) conn (match vars with [] => None | _ => Some (map (fun kv => (Some (fst kv), Some (snd kv))) vars) end)).
Proof.
  intros X N I. unfold create_exception, se_build. cbn [se_errorId se_text se_nsa se_conn se_vars].
  rewrite (findtext_is _ _ _ (ex_id _ _ _ _ _ _ X)), (code_lookup _ _ I). cbn [Base.bind].
  rewrite (findtext_is _ _ _ (ex_text _ _ _ _ _ _ X)), (findtext_is _ _ _ (ex_nsa _ _ _ _ _ _ X)), (findtext_is _ _ _ (ex_conn _ _ _ _ _ _ X)).
  pose proof (ex_vars _ _ _ _ _ _ X) as V. destruct nsa as [|ch nsa]; [congruence|]. cbn [py_or truthy]. destruct vars as [|v vars].
  - rewrite (find1_isnt _ _ V). reflexivity.
  - destruct V as (ve & F & V). rewrite (find1_is _ _ _ F), (variables_read _ _ V). reflexivity.
Qed.
Theorem reads_failure fresh env kids e method cid r p l act ver same x nsa id text conn vars c : In method ["reserveFailed"; "reserveCommitFailed"] ->
  message env kids [e] -> header_sound kids -> failure_is not_one method e cid r p l act ver same x -> exception_is x nsa id text conn vars -> nsa <> "" -> In (id, c) code_class ->
  exists d, header_says fresh kids d /\ requester_service fresh (action method, env) =
    Some (Ok (RFailed method d (Some cid) (mkCS r p l act ver same)
      (mkDE c (Some text) (Some nsa) conn (match vars with [] => None | _ => Some (map (fun kv => (Some (fst kv), Some (snd kv))) vars) end)))).
Proof.
  intros I M H (T & C & (s & Fs & S) & Fx) X N Ic. destruct (header_read fresh env kids [e] M H) as (d & P & D). exists d. split; [exact D|].
  assert (B : failed_build e = Ok (BFailed (Some cid) (mkCS r p l act ver same) (se_build x))).
  { unfold failed_build. rewrite (find1_is _ _ _ Fs). cbn [need Base.bind]. rewrite (states_read _ _ _ _ _ _ _ S). cbn [Base.bind]. rewrite (find1_is _ _ _ Fx). cbn [need Base.bind]. rewrite (findtext_is _ _ _ C). reflexivity. }
  cbn [In] in I. repeat destruct I as [<-|I]; try destruct I;
    (eapply eq_trans; [eapply (to_requester_ fresh env d e _ P (eq_trans (build_of e _ _ T eq_refl) B)); reflexivity|];
     cbn [on_failure]; rewrite (exception_read _ _ _ _ _ _ _ (d_provider d) X N Ic); reflexivity).
Qed.
Theorem reads_event fresh env kids e cid nid ts event : message env kids [e] -> header_sound kids ->
  e_tag e = "{CT}errorEvent" -> field "connectionId" (e_kids e) (Some cid) -> field "notificationId" (e_kids e) (Some (py_str nid)) ->
  field "timeStamp" (e_kids e) (Some ts) -> field "event" (e_kids e) (Some event) ->
  exists d info ex, header_says fresh kids d /\ requester_service fresh (action "errorEvent", env) = Some (Ok (RErrorEvent d (Some cid) nid (Some ts) (Some event) info ex)) /\
    (forall nsa id text conn vars, (exists x, first_kid "serviceException" (e_kids e) x /\ exception_is x nsa id text conn vars) ->
       exists se, ex = Some se /\ se_nsa se = Some nsa /\ se_conn se = conn /\ se_errorId se = Some id /\ se_text se = Some text) /\
    ((forall k, In k (e_kids e) -> e_tag k <> "serviceException") -> ex = None).
Proof.
  intros M H T C N Fs Ev. destruct (header_read fresh env kids [e] M H) as (d & P & D).
  exists d, (match find1 "additionalInfo" e with None => None | Some x => Some (map variable_build (e_kids x)) end), (match find1 "serviceException" e with None => None | Some x => Some (se_build x) end).
  split; [exact D|]. split; [|split].
  - rewrite (to_requester_ fresh env d e (BErrorEvent (Some cid) nid (Some ts) (Some event) (findtext "originatingConnectionId" e) (findtext "originatingNSA" e)
      (match find1 "additionalInfo" e with None => None | Some x => Some (map variable_build (e_kids x)) end) (match find1 "serviceException" e with None => None | Some x => Some (se_build x) end)) P)
      with (f := on_error_event); [reflexivity| |reflexivity|reflexivity].
    rewrite (build_of e _ _ T eq_refl). cbn [build_body]. unfold error_event_build. rewrite (int_is _ _ _ N). cbn [Base.bind].
    rewrite (findtext_is _ _ _ C), (findtext_is _ _ _ Fs), (findtext_is _ _ _ Ev). reflexivity.
  - intros nsa id text conn vars (x & F & X). rewrite (find1_is _ _ _ F). eexists. split; [reflexivity|]. unfold se_build. cbn [se_nsa se_conn se_errorId se_text].
    split; [exact (findtext_is _ _ _ (ex_nsa _ _ _ _ _ _ X))|]. split; [exact (findtext_is _ _ _ (ex_conn _ _ _ _ _ _ X))|]. split; [exact (findtext_is _ _ _ (ex_id _ _ _ _ _ _ X))|exact (findtext_is _ _ _ (ex_text _ _ _ _ _ _ X))].
  - intros No. rewrite (find1_isnt _ _ No). reflexivity.
Qed.

(** Writing. *)
Lemma stamp_text t f z : time_exists t -> f = (if dus t =? 0 then "" else pad 6 (dus t)) -> zone_ok z -> zone_minutes z = Some 0 -> time_text (stamp t f z) t.
Proof.
  intros T Ef Z O. exists t, f, z, 0. assert (0 <= dus t < 1000000) as Hu by (destruct T; lia).
  assert (F : sall is_digit f = true). { subst f. destruct (dus t =? 0); [reflexivity|]. apply pad_digits. lia. }
  assert (Ev : frac_value f = dus t).
  { subst f. destruct (Z.eqb_spec (dus t) 0) as [->|N]; [reflexivity|]. unfold frac_value. rewrite pad_val, pad_length by (change (10 ^ Z.of_nat 6) with 1000000; lia).
    change (10 ^ Z.of_nat 6) with 1000000. apply Z.div_mul. lia. }
  repeat (split; [first [reflexivity|assumption]|]). rewrite Ev. lia.
Qed.
Lemma written_time t : time_exists t -> exists s, createXMLTime false t = Ok s /\ time_text s t.
Proof. intros T. eexists. split; [apply create_text, T|]. apply stamp_text; [exact T|reflexivity|exact I|reflexivity]. Qed.
Lemma written_utc t : time_exists t -> time_text (utc_text t) t.
Proof.
  intros T. pose proof (create_text t T) as C. remember (if dus t =? 0 then "" else pad 6 (dus t)) as f eqn:Ef.
  assert (E : utc_text t = stamp t f (ZOff true true 0 0)).
  { assert (C' : isoformat t +++ "Z" = stamp t f ZUtc) by (unfold createXMLTime in C; congruence).
    unfold utc_text. assert (E0 : isoformat t = four (dy t) +++ "-" +++ two (dmo t) +++ "-" +++ two (dd t) +++ "T" +++ two (dh t) +++ ":" +++ two (dmi t) +++ ":" +++ two (ds t) +++ frac_text f).
    { assert (Inj : forall a b c, a +++ String c "" = b +++ String c "" -> a = b).
      { clear. induction a as [|x a IH]; intros [|y b] c; cbn; intros X; try (injection X; intros; subst); auto; [destruct b; discriminate|destruct a; discriminate|]. f_equal. eapply IH; eassumption. }
      apply (Inj _ _ "Z"%char). rewrite C'. unfold stamp. cbn [zone_text]. rewrite !append_assoc. reflexivity. }
    rewrite E0. unfold stamp. rewrite !append_assoc. reflexivity. }
  rewrite E. apply stamp_text; [exact T|exact Ef|cbn; lia|reflexivity].
Qed.
