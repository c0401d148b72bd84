(** Proofs about the messages between requester and provider. *)
From Verif Require Import Base BaseProofs ModelXml ModelAuthz ModelHeader ProofsHeader ModelErrors SpecErrors ProofsErrors
  ModelLabel SpecLabel ModelSTP SpecSTP ProofsSTP ModelTime SpecTime ProofsTimeText ModelQueryHelper SpecQueryHelper ProofsQueryHelper
  ModelMessages SpecMessages.
Open Scope Z_scope.

(** * Elements *)
Lemma find1_app_l tag t at_ x a b : (forall e, In e b -> e_tag e <> tag) -> find1 tag (Elem t at_ x (a ++ b)) = find1 tag (Elem t at_ x a).
Proof.
  intros H. unfold find1, findall. cbn [e_kids]. rewrite filter_app.
  change (filter (fun k => eqb (e_tag k) tag) b) with (by_tag tag b). rewrite (by_tag_none tag b H), app_nil_r. reflexivity.
Qed.
Lemma findtext_app_l tag t at_ x a b : (forall e, In e b -> e_tag e <> tag) -> findtext tag (Elem t at_ x (a ++ b)) = findtext tag (Elem t at_ x a).
Proof. intros H. unfold findtext. rewrite find1_app_l by exact H. reflexivity. Qed.

(** * Headers *)
Lemma provider_header_ok fresh reply h b : header_ok h ->
  exists d, parse_request fresh (wire (soap_payload (Some (provider_header reply h)) (Some b))) = Ok (d, [wire b]) /\
    header_arrived reply h d.
Proof.
  intros (H1 & H2 & H3 & H4).
  destruct (c51_roundtrip fresh CS2_PROVIDER
    (mkHdr (h_requester h) (h_provider h) (h_corr h) (Some reply) (h_attrs h) (h_trace h)) (Some b) H1 H2 H3 H4)
    as (d & E & A).
  exists d. split; [exact E|]. cbn [h_requester h_provider h_corr h_reply_to h_attrs h_trace] in A.
  unfold header_arrived. intuition.
Qed.
Lemma requester_header_ok fresh h b : h_corr h <> "" ->
  parse_request fresh (wire (soap_payload (Some (requester_header h)) (Some b))) = Ok (answer_header h, [wire b]).
Proof.
  intros H. pose proof (ProofsHeader.decode_eq fresh CS2_REQUESTER (mkHdr (h_requester h) (h_provider h) (h_corr h) None [] None) (Some b)) as E.
  unfold ProofsHeader.decode in E. unfold requester_header. rewrite E. unfold answer_header.
  cbn [h_requester h_provider h_corr h_reply_to h_attrs h_trace]. rewrite py_or_nonempty by exact H. reflexivity.
Qed.

(** * Reservation requests *)
Lemma utc_parse t : time_exists t -> parseXMLTimestamp (utc_text t) = Ok t.
Proof.
  intros Ht. pose proof (create_text t Ht) as C.
  remember (if dus t =? 0 then "" else pad 6 (dus t)) as f eqn:Ef.
  assert (utc_text t = stamp t f (ZOff true true 0 0)) as ->.
  { assert (isoformat t +++ "Z" = stamp t f ZUtc) as C' by (unfold createXMLTime in C; congruence). clear C. rename C' into C.
    unfold utc_text. unfold stamp in *.
    assert (isoformat t = four (dy t) +++ "-" +++ two (dmo t) +++ "-" +++ two (dd t) +++ "T" +++
        two (dh t) +++ ":" +++ two (dmi t) +++ ":" +++ two (ds t) +++ frac_text f) as ->.
    { assert (forall a b c, a +++ String c "" = b +++ String c "" -> a = b) as Inj.
      { clear. induction a as [|x a IH]; intros [|y b] c; cbn; intros E; try (injection E; intros; subst); auto.
        - destruct b; discriminate.
        - destruct a; discriminate.
        - f_equal. eapply IH; eassumption. }
      apply (Inj _ _ "Z"%char). cbn [zone_text] in C. rewrite !append_assoc. exact C. }
    rewrite !append_assoc. reflexivity. }
  assert (0 <= dus t < 1000000) as Hu by (destruct Ht; lia).
  assert (sall is_digit f = true) as Hf.
  { subst f. destruct (dus t =? 0); [reflexivity|]. apply pad_digits. lia. }
  assert (frac_value f = dus t) as Ev.
  { subst f. destruct (Z.eqb_spec (dus t) 0) as [->|N]; [reflexivity|].
    unfold frac_value. rewrite pad_val, pad_length by (change (10 ^ Z.of_nat 6) with 1000000; lia).
    change (10 ^ Z.of_nat 6) with 1000000. apply Z.div_mul. lia. }
  assert (zone_ok (ZOff true true 0 0)) as Hz by (cbn; lia).
  pose proof (parse_zoned t f (ZOff true true 0 0) 0 Ht Hf Hz eq_refl) as P. cbv zeta in P. rewrite Ev in P.
  replace (instant t - dus t + dus t - 0 * 60000000) with (instant t) in P by lia.
  destruct (parseXMLTimestamp _) as [u|e].
  - destruct P as [P1 P2]. f_equal. apply ProofsTime.instant_inj; assumption.
  - destruct P as [_ P]. elim P. apply ProofsTime.instant_representable, Ht.
Qed.
Lemma opt_utc_parse o : (forall t, o = Some t -> time_exists t) -> opt_parse (option_map utc_text o) = Ok o.
Proof. destruct o as [t|]; intros H; [|reflexivity]. cbn [option_map opt_parse]. rewrite utc_parse by (apply H; reflexivity). reflexivity. Qed.
Lemma req_sched_in s : sched_in (wire (req_sched_xml s)) = (option_map utc_text (sc_start s), option_map utc_text (sc_end s)).
Proof.
  unfold sched_in, req_sched_xml. cbn [wire]. rewrite map_app, !wire_opt_leaf.
  destruct (option_map utc_text (sc_start s)), (option_map utc_text (sc_end s)); cbn [app]; ft; reflexivity.
Qed.

Definition param_elem (kv : string * string) : element := Elem "parameter" [("type", fst kv)] (Some (snd kv)) [].
Lemma params_back l : (forall kv, In kv l -> snd kv <> "") ->
  map (fun k => (e_get "type" k, e_text k)) (map wire (map param_elem l)) = map (fun kv => (Some (fst kv), Some (snd kv))) l.
Proof.
  intros H. induction l as [|[k v] l IH]; [reflexivity|]. cbn [map]. f_equal.
  - cbn [param_elem wire fst snd e_get e_attrs aget e_text]. destruct v; [elim (H (k, "") (or_introl eq_refl)); reflexivity|reflexivity].
  - apply IH. intros kv Hkv. apply H. right. exact Hkv.
Qed.
Definition ero_in (r : service_req) : option (list (option string)) := 
  match sr_ero r with None => None | Some l => Some (map (fun s => Some (urn s)) l) end.
Lemma ero_back l : forall i, map (findtext "stp") (map wire (ero_xml i l)) = map (fun s => Some (urn s)) l.
Proof.
  induction l as [|s l IH]; intros i; [reflexivity|]. cbn [ero_xml map wire]. rewrite wire_leaf_some, findtext_hit, IH. reflexivity.
Qed.
Definition params_in (r : service_req) : option (list (option string * option string)) :=
  match sr_params r with None | Some [] => None | Some l => Some (map (fun kv => (Some (fst kv), Some (snd kv))) l) end.
Lemma req_sd_build r : (forall l kv, sr_params r = Some l -> In kv l -> snd kv <> "") ->
  sdef_build (wire (req_sd_xml r)) = Ok (SDp2p (mkPI (p_cap (sr_p2p r)) (Some (p_dir (sr_p2p r))) (p_sym (sr_p2p r))
    (Some (urn (p_src (sr_p2p r)))) (Some (urn (p_dst (sr_p2p r)))) (ero_in r) (params_in r))).
Proof.
  intros Hp. destruct r as [[src dst cap dir sym] ero params]. cbn [sr_p2p sr_ero sr_params p_src p_dst p_cap p_dir p_sym] in *.
  unfold sdef_build. rewrite wire_tag. change (eqb (e_tag (req_sd_xml _)) P2PS) with true. cbv iota. unfold p2p_build.
  set (ps := match params with None => [] | Some l => map param_elem l end).
  set (es := match ero with None => [] | Some l => [Elem "ero" [] None (ero_xml 0 l)] end).
  set (front := [wleaf "capacity" (py_str cap); wleaf "directionality" dir] ++
        match option_map bool_text sym with None => [] | Some s => [wleaf "symmetricPath" s] end ++
        [wleaf "sourceSTP" (urn src); wleaf "destSTP" (urn dst)] ++ map wire es).
  assert (wire (req_sd_xml (mkSR (mkP2P src dst cap dir sym) ero params)) = Elem P2PS [] None (front ++ map wire ps)) as ->.
  { unfold req_sd_xml. cbn [sr_p2p sr_ero sr_params p_src p_dst p_cap p_dir p_sym wire]. rewrite !map_app, wire_opt_leaf.
    cbn [map]. rewrite !wire_leaf_some. unfold front, ps, es. rewrite <- !app_assoc. reflexivity. }
  assert (forall e, In e (map wire ps) -> e_tag e = "parameter") as Tp.
  { intros e He. apply in_map_iff in He as (x & <- & Hx). rewrite wire_tag. unfold ps in Hx. destruct params as [l|]; [|contradiction].
    apply in_map_iff in Hx as (kv & <- & _). reflexivity. }
  assert (forall tag, tag <> "parameter" -> forall e, In e (map wire ps) -> e_tag e <> tag) as Np.
  { intros tag N e He. rewrite (Tp e He). congruence. }
  rewrite !findtext_app_l by (apply Np; discriminate). rewrite find1_app_l by (apply Np; discriminate).
  assert (findtext "capacity" (Elem P2PS [] None front) = Some (py_str cap)) as ->.
  { unfold front. cbn [app]. ft. reflexivity. }
  unfold int_opt. rewrite py_int_str. cbn [bind].
  assert (findtext "directionality" (Elem P2PS [] None front) = Some dir) as -> by (unfold front; cbn [app]; ft; reflexivity).
  assert (findtext "symmetricPath" (Elem P2PS [] None front) = option_map bool_text sym) as ->.
  { unfold front, es. destruct sym, ero; cbn [option_map app map]; ft; reflexivity. }
  assert (findtext "sourceSTP" (Elem P2PS [] None front) = Some (urn src)) as ->.
  { unfold front. destruct sym; cbn [option_map app map]; ft; reflexivity. }
  assert (findtext "destSTP" (Elem P2PS [] None front) = Some (urn dst)) as ->.
  { unfold front. destruct sym; cbn [option_map app map]; ft; reflexivity. }
  assert (match find1 "ero" (Elem P2PS [] None front) with None => None | Some x => Some (map (findtext "stp") (e_kids x)) end =
          ero_in (mkSR (mkP2P src dst cap dir sym) ero params)) as ->.
  { unfold front, es, ero_in. cbn [sr_ero]. destruct sym, ero as [l|]; cbn [option_map app map wire]; ft; try reflexivity;
    cbn [e_kids]; rewrite ero_back; reflexivity. }
  assert (findall "parameter" (Elem P2PS [] None (front ++ map wire ps)) = map wire ps) as ->.
  { change (by_tag "parameter" (front ++ map wire ps) = map wire ps). rewrite by_tag_app, (by_tag_all _ _ Tp).
    rewrite by_tag_none; [reflexivity|]. intros e He. unfold front, es in He.
    destruct sym, ero; cbn [option_map app map In] in He; decompose [or] He; subst; try discriminate; contradiction. }
  assert (match map wire ps with [] => None | _ :: _ => Some (map (fun k => (e_get "type" k, e_text k)) (map wire ps)) end =
          params_in (mkSR (mkP2P src dst cap dir sym) ero params)) as E.
  { unfold params_in, ps. cbn [sr_params]. destruct params as [l|]; [|reflexivity].
    rewrite params_back by (intros kv Hkv; apply (Hp l kv eq_refl Hkv)). destruct l; reflexivity. }
  f_equal. f_equal. f_equal.
  - destruct sym as [[|]|]; reflexivity.
  - destruct (map wire ps); exact E.
Qed.

Lemma reserve_body a : (forall l kv, sr_params (ra_sd a) = Some l -> In kv l -> snd kv <> "") ->
  parse_body (wire (reserve_xml a)) = Ok (BReserve (ra_cid a) (ra_gid a) (ra_desc a)
    (mkCrI (Some (py_str (ra_rev a)))
       (Some (option_map utc_text (sc_start (ra_sched a)), option_map utc_text (sc_end (ra_sched a))))
       (Some REQ_SERVICE_TYPE)
       (SDp2p (mkPI (p_cap (sr_p2p (ra_sd a))) (Some (p_dir (sr_p2p (ra_sd a)))) (p_sym (sr_p2p (ra_sd a)))
          (Some (urn (p_src (sr_p2p (ra_sd a))))) (Some (urn (p_dst (sr_p2p (ra_sd a))))) (ero_in (ra_sd a)) (params_in (ra_sd a)))))).
Proof.
  intros Hp. destruct a as [cid gid desc rev sc sd]. cbn [ra_cid ra_gid ra_desc ra_rev ra_sched ra_sd] in *.
  unfold parse_body. rewrite wire_tag.
  assert (aget (e_tag (reserve_xml (mkRA cid gid desc rev sc sd))) type_map = Some (KReserve false)) as -> by (vm_compute; reflexivity).
  cbn [build_body]. unfold reserve_build.
  set (cr := Elem "criteria" [("version", py_str rev)] None
       [wire (req_sched_xml sc); wleaf "serviceType" REQ_SERVICE_TYPE; wire (req_sd_xml sd)]).
  assert (wire (reserve_xml (mkRA cid gid desc rev sc sd)) = Elem (CT "reserve") [] None
     (match cid with None => [] | Some s => [wleaf "connectionId" s] end ++
      match gid with None => [] | Some s => [wleaf "globalReservationId" s] end ++
      match desc with None => [] | Some s => [wleaf "description" s] end ++ [cr])) as ->.
  { unfold reserve_xml. cbn [ra_cid ra_gid ra_desc ra_rev ra_sched ra_sd wire]. rewrite !map_app, !wire_opt_leaf. reflexivity. }
  assert (e_tag cr = "criteria") as Tc by reflexivity.
  assert (criteria_build false cr = Ok (mkCrI (Some (py_str rev))
       (Some (option_map utc_text (sc_start sc), option_map utc_text (sc_end sc))) (Some REQ_SERVICE_TYPE)
       (SDp2p (mkPI (p_cap (sr_p2p sd)) (Some (p_dir (sr_p2p sd))) (p_sym (sr_p2p sd))
          (Some (urn (p_src (sr_p2p sd)))) (Some (urn (p_dst (sr_p2p sd)))) (ero_in sd) (params_in sd))))) as Ec.
  { unfold criteria_build, cr. cbn [e_kids filter]. rewrite !wire_tag, wleaf_tag.
    change (mem (e_tag (req_sched_xml sc)) ["schedule"; "serviceType"]) with true.
    change (mem "serviceType" ["schedule"; "serviceType"]) with true.
    change (mem (e_tag (req_sd_xml sd)) ["schedule"; "serviceType"]) with false. cbn [negb]. cbv iota. cbn [mapM].
    rewrite req_sd_build by exact Hp. cbn [bind]. ft. rewrite req_sched_in. cbn [bind e_get e_attrs aget]. reflexivity. }
  clearbody cr. 
  destruct cid, gid, desc; cbn [app]; 
  repeat first [rewrite find1_hit by exact Tc | rewrite find1_miss by discriminate]; cbn [bind]; rewrite Ec; cbn [bind];
  repeat first [rewrite findtext_hit | rewrite findtext_nil | rewrite (findtext_miss _ cr) by (rewrite Tc; discriminate) | rewrite findtext_miss by discriminate];
  reflexivity.
Qed.

Lemma reserve_handled a d : request_ok a ->
  (do! b <- parse_body (wire (reserve_xml a)); handle_reserve d b) =
  match sr_ero (ra_sd a) with
  | Some (_ :: _) => Ok (HFault (own_error PayloadError "ERO not supported, go away."))
  | _ => Ok (HCall (PReserve d (ra_cid a) (ra_gid a) (ra_desc a) (Some (py_str (ra_rev a))) (ra_sched a) (service_seen (ra_sd a))))
  end.
Proof.
  intros ((S1 & S2) & (P1 & P2) & D & Hp). rewrite reserve_body by exact Hp. cbn [bind].
  destruct a as [cid gid desc rev sc sd]. cbn [ra_cid ra_gid ra_desc ra_rev ra_sched ra_sd] in *.
  unfold handle_reserve. cbn [ci_sd ci_sched ci_version pi_dir pi_src pi_dst pi_ero pi_cap pi_sym pi_params fst snd].
  destruct (p_dir (sr_p2p sd)) as [|c dir] eqn:Ed; [congruence|].
  cbn [bind fst snd]. rewrite (opt_utc_parse _ S1). cbn [bind]. rewrite (opt_utc_parse _ S2). cbn [bind stp_of].
  assert (create_stp (urn (p_src (sr_p2p sd))) = Ok (p_src (sr_p2p sd))) as -> by (apply c23_roundtrip; apply P1). cbn [bind stp_of].
  assert (create_stp (urn (p_dst (sr_p2p sd))) = Ok (p_dst (sr_p2p sd))) as -> by (apply c23_roundtrip; apply P2). cbn [bind].
  unfold ero_in. destruct (sr_ero sd) as [[|s l]|]; cbn [map]; [|reflexivity|];
  unfold service_seen, params_in; rewrite Ed; destruct sc;
  destruct (p_sym (sr_p2p sd)) as [[|]|]; reflexivity.
Qed.

Lemma provider_reserve fresh reply h a : header_ok h -> request_ok a ->
  exists d, header_arrived reply h d /\ provider_service fresh (carry (send_reserve reply h a)) =
  Some (match sr_ero (ra_sd a) with
        | Some (_ :: _) => Ok (HFault (own_error PayloadError "ERO not supported, go away."))
        | _ => Ok (HCall (PReserve d (ra_cid a) (ra_gid a) (ra_desc a) (Some (py_str (ra_rev a))) (ra_sched a) (service_seen (ra_sd a))))
        end).
Proof.
  intros H R. destruct (provider_header_ok fresh reply h (reserve_xml a) H) as (d & E & A).
  exists d. split; [exact A|]. unfold provider_service, carry, send_reserve. cbn [fst snd].
  assert (aget (ACT "reserve") provider_decoders = Some handle_reserve) as -> by reflexivity.
  unfold parse_message. rewrite E. cbn [bind]. pose proof (reserve_handled a d R) as F.
  destruct (parse_body (wire (reserve_xml a))) as [b|e]; cbn [bind] in *; rewrite F; reflexivity.
Qed.
Theorem c60_arrives fresh reply h a : header_ok h -> request_ok a -> no_route a ->
  exists d, header_arrived reply h d /\ provider_service fresh (carry (send_reserve reply h a)) =
    Some (Ok (HCall (PReserve d (ra_cid a) (ra_gid a) (ra_desc a) (Some (py_str (ra_rev a))) (ra_sched a) (service_seen (ra_sd a))))).
Proof.
  intros H R N. destruct (provider_reserve fresh reply h a H R) as (d & A & E). exists d. split; [exact A|].
  rewrite E. destruct N as [-> | ->]; reflexivity.
Qed.
Theorem c60_route_refused fresh reply h a s l : header_ok h -> request_ok a -> sr_ero (ra_sd a) = Some (s :: l) ->
  provider_service fresh (carry (send_reserve reply h a)) = Some (Ok (HFault (own_error PayloadError "ERO not supported, go away."))).
Proof. intros H R N. destruct (provider_reserve fresh reply h a H R) as (d & A & E). rewrite E, N. reflexivity. Qed.

(** * Requests and confirmations with a connection id only *)
Theorem c62_requests fresh reply h method cid : header_ok h -> In method simple_requests ->
  exists m d, send_conn reply h method cid = Some m /\ header_arrived reply h d /\
    provider_service fresh (carry m) = Some (Ok (HCall (PConn method d (Some cid)))).
Proof.
  intros H I. 
  assert (forall m b, Some m = send_conn reply h method cid -> 
    snd m = soap_payload (Some (provider_header reply h)) (Some b) ->
    aget (fst m) provider_decoders = Some (handle_conn method) -> parse_body (wire b) = Ok (BConn (Some cid)) ->
    exists m d, send_conn reply h method cid = Some m /\ header_arrived reply h d /\
      provider_service fresh (carry m) = Some (Ok (HCall (PConn method d (Some cid))))) as K.
  { intros m b E1 E2 E3 E4. destruct (provider_header_ok fresh reply h b H) as (d & E & A).
    exists m, d. split; [symmetry; exact E1|]. split; [exact A|]. unfold provider_service, carry. cbn [fst snd].
    rewrite E3, E2. unfold parse_message. rewrite E. cbn [bind]. rewrite E4. reflexivity. }
  repeat destruct I as [<-|I]; try contradiction;
  (eapply K; [reflexivity|reflexivity|reflexivity|];
   cbn [wire map]; rewrite wire_leaf_some; unfold parse_body;
   match goal with |- context [aget (e_tag (Elem ?t _ _ _)) type_map] =>
     assert (aget t type_map = Some KConn) as Ek by (vm_compute; reflexivity) end;
   cbn [e_tag]; rewrite Ek; cbn [build_body]; rewrite findtext_hit; reflexivity).
Qed.
Theorem c62_confirmations fresh h method cid : h_corr h <> "" -> In method simple_confirmations ->
  exists m, send_confirmation h method cid = Some m /\
    requester_service fresh (carry m) = Some (Ok (RConn method (answer_header h) (Some cid))).
Proof.
  intros H I. 
  assert (forall m b, Some m = send_confirmation h method cid -> 
    snd m = soap_payload (Some (requester_header h)) (Some b) -> eqb (fst m) (ACT "messageDeliveryTimeout") = false ->
    aget (fst m) requester_decoders = Some (on_confirmation method) -> parse_body (wire b) = Ok (BConn (Some cid)) ->
    exists m, send_confirmation h method cid = Some m /\
      requester_service fresh (carry m) = Some (Ok (RConn method (answer_header h) (Some cid)))) as K.
  { intros m b E1 E2 E0 E3 E4. pose proof (requester_header_ok fresh h b H) as E.
    exists m. split; [symmetry; exact E1|]. unfold requester_service, carry. cbn [fst snd].
    rewrite E3, E0, E2. unfold parse_message. rewrite E. cbn [bind]. rewrite E4. reflexivity. }
  repeat destruct I as [<-|I]; try contradiction;
  (eapply K; [reflexivity|reflexivity|reflexivity|reflexivity|];
   cbn [wire map]; rewrite wire_leaf_some; unfold parse_body;
   match goal with |- context [aget (e_tag (Elem ?t _ _ _)) type_map] =>
     assert (aget t type_map = Some KConn) as Ek by (vm_compute; reflexivity) end;
   cbn [e_tag]; rewrite Ek; cbn [build_body]; rewrite findtext_hit; reflexivity).
Qed.

(** what a dispatched message to the requester becomes *)
Lemma requester_gets fresh h name f b bd r : h_corr h <> "" -> aget (ACT name) requester_decoders = Some f ->
  eqb (ACT name) (ACT "messageDeliveryTimeout") = false ->
  parse_body (wire b) = Ok bd -> f (answer_header h) bd = r ->
  requester_service fresh (carry (to_requester name h b)) = Some r.
Proof.
  intros H1 H2 H3 H4 H5. unfold requester_service, carry, to_requester. cbn [fst snd]. rewrite H2, H3.
  unfold parse_message. rewrite requester_header_ok by exact H1. cbn [bind]. rewrite H4. cbn [bind]. rewrite H5. reflexivity.
Qed.
Lemma act_neq a b : a <> b -> ACT a <> ACT b.
Proof.
  intros N E. apply N. unfold ACT in E. injection E. clear.
  assert (forall a b, a +++ String "034" "" = b +++ String "034" "" -> a = b) as Inj.
  { clear. induction a as [|x a IH]; intros [|y b]; cbn; intros E; try (injection E; intros; subst); auto.
    - destruct b; discriminate.
    - destruct a; discriminate.
    - f_equal. apply IH. assumption. }
  apply Inj.
Qed.

(** * reserveConfirmed *)
Lemma sd_xml_req p : sd_xml (Some p) = Ok (req_sd_xml (mkSR p None None)).
Proof. destruct p as [src dst cap dir sym]. unfold sd_xml, req_sd_xml. cbn [sr_p2p sr_ero sr_params p_src p_dst p_cap p_dir p_sym]. rewrite !app_nil_r. reflexivity. Qed.
Lemma sched_xml_in sc : sched_ok sc -> exists e a z, sched_xml sc = Ok e /\ e_tag e = "schedule" /\ sched_in (wire e) = (a, z) /\
  opt_parse a = Ok (sc_start sc) /\ opt_parse z = Ok (sc_end sc).
Proof.
  intros [H1 H2]. destruct (opt_time_ok _ H1) as (a & A1 & A2). destruct (opt_time_ok _ H2) as (b & B1 & B2).
  unfold sched_xml. rewrite A1. cbn [bind]. rewrite B1. cbn [bind]. eexists _, a, b. split; [reflexivity|]. split; [reflexivity|].
  split; [|split; assumption]. unfold sched_in. cbn [wire]. rewrite map_app, !wire_opt_leaf.
  destruct a as [a|], b as [b|]; cbn [app]; ft; auto.
Qed.
Theorem c61_arrives fresh h cid gid desc rev sc p : h_corr h <> "" -> sched_ok sc -> p2p_ok p ->
  exists m, send_reserve_confirmed h cid gid desc rev sc p = Ok m /\
    requester_service fresh (carry m) =
    Some (Ok (RReserveConfirmed (answer_header h) (Some cid) gid desc (Some (py_str rev)) sc p)).
Proof.
  intros H S P. destruct (sched_xml_in sc S) as (se & a & z & S1 & S2 & S3 & S4 & S5).
  unfold send_reserve_confirmed, reserve_confirmed_xml. rewrite S1. cbn [bind]. rewrite sd_xml_req. cbn [bind].
  eexists. split; [reflexivity|].
  eapply requester_gets; [exact H|reflexivity|reflexivity| |].
  - unfold parse_body. rewrite wire_tag. cbn [e_tag].
    assert (aget (CT "reserveConfirmed") type_map = Some (KReserve true)) as -> by (vm_compute; reflexivity).
    cbn [build_body]. unfold reserve_build. cbn [wire]. rewrite !map_app, !wire_opt_leaf. cbn [map]. rewrite wire_leaf_some.
    set (cr := wire (Elem "criteria" [("version", py_str rev)] None [se; leaf "serviceType" (Some EVTS_AGOLE); req_sd_xml (mkSR p None None)])).
    assert (e_tag cr = "criteria") as Tc by reflexivity.
    assert (criteria_build true cr = Ok (mkCrI (Some (py_str rev)) (Some (a, z)) (Some EVTS_AGOLE)
       (SDp2p (mkPI (p_cap p) (Some (p_dir p)) (p_sym p) (Some (urn (p_src p))) (Some (urn (p_dst p))) None None)))) as Ec.
    { unfold criteria_build, cr. cbn [wire map e_kids filter]. rewrite wire_leaf_some, !wire_tag, wleaf_tag, S2.
      change (mem "schedule" ["schedule"; "serviceType"]) with true.
      change (mem "serviceType" ["schedule"; "serviceType"]) with true.
      change (mem (e_tag (req_sd_xml (mkSR p None None))) ["schedule"; "serviceType"]) with false. cbn [negb]. cbv iota. cbn [mapM].
      rewrite req_sd_build by discriminate. cbn [bind]. rewrite find1_hit by (rewrite wire_tag; exact S2). rewrite S3. cbn [bind].
      rewrite findtext_miss by (rewrite wire_tag, S2; discriminate). ft. reflexivity. }
    clearbody cr.
    destruct gid, desc; cbn [app];
    repeat first [rewrite find1_hit by exact Tc | rewrite find1_miss by discriminate]; cbn [bind]; rewrite Ec; cbn [bind];
    repeat first [rewrite findtext_hit | rewrite findtext_nil | rewrite (findtext_miss _ cr) by (rewrite Tc; discriminate) | rewrite findtext_miss by discriminate];
    reflexivity.
  - unfold on_reserve_confirmed. cbn [ci_sched ci_sd ci_version pi_src pi_dst pi_dir pi_cap pi_sym bind fst snd stp_of]. rewrite S4. cbn [bind]. rewrite S5. cbn [bind].
    assert (create_stp (urn (p_src p)) = Ok (p_src p)) as -> by (apply c23_roundtrip; apply P). cbn [bind].
    assert (create_stp (urn (p_dst p)) = Ok (p_dst p)) as -> by (apply c23_roundtrip; apply P). cbn [bind].
    destruct sc, p; reflexivity.
Qed.

(** * Failures *)
Lemma failed_body tag cid sts se : aget (CT tag) type_map = Some KFailed ->
  parse_body (wire (Elem (CT tag) [] None [leaf "connectionId" (Some cid); states_xml sts; se_xml "serviceException" se])) =
  Ok (BFailed (Some cid) sts (se_build (wire (se_xml "serviceException" se)))).
Proof.
  intros K. unfold parse_body. rewrite wire_tag. cbn [e_tag]. rewrite K. cbn [build_body]. unfold failed_build.
  cbn [wire map]. rewrite wire_leaf_some.
  rewrite find1_miss by discriminate. rewrite find1_hit by reflexivity. cbn [need bind].
  change (wire (states_xml sts)) with (wire (states_xml sts)). rewrite states_ok. cbn [bind].
  rewrite !find1_miss by discriminate. rewrite find1_hit by reflexivity. cbn [need bind]. rewrite findtext_hit. reflexivity.
Qed.
Theorem c63_arrives fresh h method cid sts e : h_corr h <> "" -> h_provider h <> "" -> er_class e <> NSIError ->
  In method ["reserveFailed"; "reserveCommitFailed"] ->
  exists m d, send_failure h method cid sts e = Some m /\ error_seen (h_provider h) e d /\
    requester_service fresh (carry m) = Some (Ok (RFailed method (answer_header h) (Some cid) sts d)).
Proof.
  intros H N C I.
  destruct (roundtrip_ok e (Some (h_provider h)) None None "serviceException" (Some (h_provider h)) C) as (d & E & D1 & _ & D2 & D3 & D4 & D5).
  assert (error_seen (h_provider h) e d) as Sn.
  { unfold error_seen. split; [exact D1|]. split; [exact D2|]. split; [|split; [|split; [|split; [|exact D5]]]].
    - intros n En Nn. rewrite D3, En, (py_or_nonempty n _ Nn). cbn [py_str_opt]. apply py_or_nonempty, Nn.
    - intros En. rewrite D3, En. change (py_or None (Some (h_provider h))) with (Some (h_provider h)). cbn [py_str_opt].
      apply py_or_nonempty, N.
    - intros n En Nn. rewrite D4, En. apply py_or_nonempty, Nn.
    - intros En. rewrite D4, En. reflexivity. }
  repeat destruct I as [<-|I]; try contradiction;
  (eexists _, d; split; [reflexivity|]; split; [exact Sn|]; eapply requester_gets;
   [exact H|reflexivity|reflexivity|apply failed_body; vm_compute; reflexivity|];
   unfold on_failure; cbn [answer_header d_provider]; rewrite E; reflexivity).
Qed.

(** * Notifications *)
Theorem c64_timeout fresh h cid nid t tv ocid onsa : h_corr h <> "" -> time_exists t ->
  exists m, send_reserve_timeout h cid nid t tv (Some ocid) (Some onsa) = Ok m /\
    requester_service fresh (carry m) = Some (Ok (RTimeout (answer_header h) (Some cid) nid t tv (Some ocid) (Some onsa))).
Proof.
  intros H T. destruct (create_parse t T) as (s & E1 & E2). unfold send_reserve_timeout. rewrite E1. cbn [bind].
  eexists. split; [reflexivity|]. eapply requester_gets; [exact H|reflexivity|reflexivity| |].
  - unfold parse_body. rewrite wire_tag. cbn [e_tag].
    assert (aget (CT "reserveTimeout") type_map = Some KTimeout) as -> by (vm_compute; reflexivity).
    cbn [build_body wire map]. rewrite !wire_leaf_some. unfold timeout_build. ft. unfold int_opt. rewrite !py_int_str. cbn [bind]. reflexivity.
  - cbn [on_reserve_timeout py_str_opt]. rewrite E2. reflexivity.
Qed.
Theorem c64_data_plane fresh h cid nid t act ver same : h_corr h <> "" -> time_exists t ->
  exists m s, send_data_plane_change h cid nid t act ver same = Ok m /\ parseXMLTimestamp s = Ok t /\
    requester_service fresh (carry m) = Some (Ok (RDataPlane (answer_header h) (Some cid) nid (Some s) act ver same)).
Proof.
  intros H T. destruct (create_parse t T) as (s & E1 & E2). unfold send_data_plane_change. rewrite E1. cbn [bind].
  eexists _, s. split; [reflexivity|]. split; [exact E2|]. eapply requester_gets; [exact H|reflexivity|reflexivity| |].
  - unfold parse_body. rewrite wire_tag. cbn [e_tag].
    assert (aget (CT "dataPlaneStateChange") type_map = Some KDataPlane) as -> by (vm_compute; reflexivity).
    cbn [build_body wire map]. rewrite !wire_leaf_some. unfold data_plane_build. ft. unfold int_opt. rewrite !py_int_str. cbn [need bind].
    ft. rewrite !py_int_str. cbn [bind]. reflexivity.
  - cbn [on_data_plane]. f_equal. f_equal; [destruct act|destruct same]; reflexivity.
Qed.
Theorem c64_error_event_plain fresh h cid nid t event info : h_corr h <> "" -> time_exists t ->
  exists m s, send_error_event h cid nid t event info None = Ok m /\ parseXMLTimestamp s = Ok t /\
    requester_service fresh (carry m) = Some (Ok (RErrorEvent (answer_header h) (Some cid) nid (Some s) (Some event) None None)).
Proof.
  intros H T. destruct (create_parse t T) as (s & E1 & E2). unfold send_error_event. rewrite E1. cbn [bind].
  eexists _, s. split; [reflexivity|]. split; [exact E2|]. eapply requester_gets; [exact H|reflexivity|reflexivity| |].
  - unfold parse_body. rewrite wire_tag. cbn [e_tag].
    assert (aget (CT "errorEvent") type_map = Some KErrorEvent) as -> by (vm_compute; reflexivity).
    cbn [build_body wire map]. rewrite !wire_leaf_some. unfold error_event_build.
    assert (wire (leaf "originatingConnectionId" None) = wleaf "originatingConnectionId" "") as -> by reflexivity.
    ft. unfold int_opt. rewrite !py_int_str. cbn [bind].
    reflexivity.
  - reflexivity.
Qed.
Theorem c64_error_event_fails h cid nid t event info ex : send_error_event h cid nid t event info (Some ex) = Err EType.
Proof. reflexivity. Qed.

(** * Queries *)
Lemma ids_back tag l : (forall i, In i l -> i <> "") -> map e_text (map wire (map (fun i => leaf tag (Some i)) l)) = map Some l.
Proof.
  intros H. induction l as [|i l IH]; [reflexivity|]. cbn [map]. rewrite wire_leaf_some. f_equal.
  - unfold wleaf. cbn [e_text]. destruct i; [elim (H "" (or_introl eq_refl)); reflexivity|reflexivity].
  - apply IH. intros x Hx. apply H. right. exact Hx.
Qed.
Lemma query_body tag cids gids : (forall i, In i (ids cids ++ ids gids) -> i <> "") ->
  query_build (wire (query_xml tag cids gids)) = Ok (BQuery (map Some (ids cids)) (map Some (ids gids))).
Proof.
  intros H. unfold query_xml.
  assert (forall name o, match o with None => [] | Some l => map (fun i => leaf name (Some i)) l end = map (fun i => leaf name (Some i)) (ids o)) as E
    by (intros name [l|]; reflexivity).
  rewrite !E. unfold query_build. cbn [wire]. rewrite map_app.
  assert (forall name l e, In e (map wire (map (fun i => leaf name (Some i)) l)) -> e_tag e = name) as T.
  { intros name l e He. apply in_map_iff in He as (x & <- & Hx). apply in_map_iff in Hx as (i & <- & _). rewrite wire_tag. reflexivity. }
  assert (forall name l tag', name <> tag' -> forall e, In e (map wire (map (fun i => leaf name (Some i)) l)) -> e_tag e <> tag') as T'.
  { intros name l tag' N e He. rewrite (T name l e He). exact N. }
  change (findall "connectionId" (Elem tag [] None ?k)) with (by_tag "connectionId" k).
  change (findall "globalReservationId" (Elem tag [] None ?k)) with (by_tag "globalReservationId" k).
  unfold findall. cbn [e_kids].
  change (filter (fun k => eqb (e_tag k) "connectionId") ?k) with (by_tag "connectionId" k).
  change (filter (fun k => eqb (e_tag k) "globalReservationId") ?k) with (by_tag "globalReservationId" k).
  rewrite !by_tag_app, (by_tag_all "connectionId" _ (T _ _)), (by_tag_all "globalReservationId" _ (T _ _)).
  rewrite (by_tag_none "connectionId"), (by_tag_none "globalReservationId") by (apply T'; discriminate).
  rewrite app_nil_r. cbn [app]. rewrite !ids_back; [reflexivity| |]; intros i Hi; apply H, in_or_app; auto.
Qed.
Theorem c65_requests fresh reply h method cids gids : header_ok h -> In method queries ->
  (forall i, In i (ids cids ++ ids gids) -> i <> "") ->
  exists m d, send_query reply h method cids gids = Some m /\ header_arrived reply h d /\
    provider_service fresh (carry m) = Some (Ok (HCall (PQuery method d (map Some (ids cids)) (map Some (ids gids))))).
Proof.
  intros H I N. 
  assert (forall m tag, Some m = send_query reply h method cids gids -> 
    snd m = soap_payload (Some (provider_header reply h)) (Some (query_xml tag cids gids)) ->
    aget (fst m) provider_decoders = Some (handle_query method) -> aget tag type_map = Some KQuery ->
    exists m d, send_query reply h method cids gids = Some m /\ header_arrived reply h d /\
    provider_service fresh (carry m) = Some (Ok (HCall (PQuery method d (map Some (ids cids)) (map Some (ids gids)))))) as K.
  { intros m tag E1 E2 E3 E4. destruct (provider_header_ok fresh reply h (query_xml tag cids gids) H) as (d & E & A).
    exists m, d. split; [symmetry; exact E1|]. split; [exact A|]. unfold provider_service, carry. cbn [fst snd].
    rewrite E3, E2. unfold parse_message. rewrite E. cbn [bind]. unfold parse_body. rewrite wire_tag.
    change (e_tag (query_xml tag cids gids)) with tag. rewrite E4. cbn [build_body]. rewrite query_body by exact N. reflexivity. }
  repeat destruct I as [<-|I]; try contradiction;
  (eapply K; [reflexivity|reflexivity|reflexivity|vm_compute; reflexivity]).
Qed.

(** * Query results *)
Lemma summary_crit_good c : let 'QC _ sc sd _ := c in sched_ok sc /\ (exists p, sd = Some p /\ p2p_ok p) ->
  exists e, summary_crit_xml c = Ok e /\ e_tag e = "criteria" /\ summary_crit_build (wire e) = Ok (summary_crit c).
Proof.
  destruct c as [rev sc sd kids]. intros [S (p & -> & P)].
  destruct (sched_ok_xml sc S) as (se & S1 & S2 & S3). destruct (sd_ok_xml p P) as (de & D1 & D2 & D3).
  unfold summary_crit_xml. rewrite S1. cbn [bind]. rewrite D1. cbn [bind]. eexists. split; [reflexivity|]. split; [reflexivity|].
  unfold summary_crit_build. cbn [wire map e_kids filter]. rewrite wire_leaf_some, !wire_tag, wleaf_tag, S2, D2. cbn [e_tag].
  change (is_crit_part "schedule") with true. change (is_crit_part "serviceType") with true. change (is_crit_part "children") with true.
  change (is_crit_part P2PS) with false. cbn [negb]. cbv iota. cbn [mapM]. rewrite D3. cbn [bind].
  rewrite find1_hit by (rewrite wire_tag; exact S2). cbn [need bind]. rewrite S3. cbn [bind e_get e_attrs aget].
  change (eqb "version" "version") with true. cbv iota. unfold int_opt. rewrite py_int_str. reflexivity.
Qed.
Lemma summary_crits_good l : Forall (fun k => let 'QC _ sc sd _ := k in sched_ok sc /\ exists p, sd = Some p /\ p2p_ok p) l ->
  exists es, mapM summary_crit_xml l = Ok es /\ (forall e, In e es -> e_tag e = "criteria") /\
    mapM summary_crit_build (map wire es) = Ok (map summary_crit l).
Proof.
  induction 1 as [|c l H F (es & F1 & F2 & F3)].
  - exists []. cbn. intuition.
  - pose proof (summary_crit_good c) as G. destruct c as [rev sc sd kids]. destruct (G H) as (e & E1 & E2 & E3).
    exists (e :: es). cbn [mapM]. rewrite E1. cbn [bind]. rewrite F1. split; [reflexivity|]. split.
    + intros x [<-|Hx]; auto.
    + cbn [map mapM]. rewrite E3. cbn [bind]. rewrite F3. reflexivity.
Qed.
Lemma summary_result_good provider c : summary_ok c ->
  exists e, summary_result_xml c = Ok e /\ e_tag e = "reservation" /\ summary_result_build provider (wire e) = Ok (summary_seen provider c).
Proof.
  destruct c as [cid gid desc ty crits prov req sts nid rid]. intros [R F].
  destruct req as [req|]; [|congruence].
  destruct (summary_crits_good crits F) as (es & E1 & E2 & E3).
  unfold summary_result_xml. rewrite E1. cbn [bind]. eexists. split; [reflexivity|]. split; [reflexivity|].
  cbn [wire]. rewrite !map_app, !wire_opt_leaf. cbn [map]. rewrite !wire_leaf_some. cbn [py_str_opt].
  set (g := match gid with Some s => [wleaf "globalReservationId" s] | None => [] end).
  set (d := match desc with Some s => [wleaf "description" s] | None => [] end).
  set (n := match option_map py_str nid with Some s => [wleaf "notificationId" s] | None => [] end).
  set (r := match option_map py_str rid with Some s => [wleaf "resultId" s] | None => [] end).
  set (kids := [wleaf "connectionId" cid] ++ g ++ d ++ map wire es ++ [wleaf "requesterNSA" req; wire (states_xml sts)] ++ n ++ r).
  set (rest := [wleaf "connectionId" cid] ++ g ++ d ++ [wleaf "requesterNSA" req; wire (states_xml sts)] ++ n ++ r).
  assert (forall e, In e (map wire es) -> e_tag e = "criteria") as Wes.
  { intros e He. apply in_map_iff in He as (x & <- & Hx). rewrite wire_tag. apply E2, Hx. }
  assert (forall tag, tag <> "criteria" -> find1 tag (Elem "reservation" [] None kids) = find1 tag (Elem "reservation" [] None rest)) as B.
  { intros tag N. unfold find1, findall. cbn [e_kids]. 
    change (filter (fun k => eqb (e_tag k) tag) ?k) with (by_tag tag k).
    unfold kids, rest. rewrite !by_tag_app. rewrite (by_tag_none tag (map wire es)); [reflexivity|].
    intros e He. rewrite (Wes e He). congruence. }
  assert (forall tag, tag <> "criteria" -> findtext tag (Elem "reservation" [] None kids) = findtext tag (Elem "reservation" [] None rest)) as B'.
  { intros tag N. unfold findtext. rewrite B by exact N. reflexivity. }
  unfold summary_result_build.
  assert (findall "criteria" (Elem "reservation" [] None kids) = map wire es) as ->.
  { change (by_tag "criteria" kids = map wire es). unfold kids. rewrite !by_tag_app.
    rewrite (by_tag_all "criteria" (map wire es) Wes). unfold g, d, n, r.
    destruct gid, desc, nid, rid; cbn; rewrite app_nil_r; reflexivity. }
  rewrite E3. cbn [bind]. rewrite B by discriminate. rewrite !B' by discriminate.
  assert (find1 "connectionStates" (Elem "reservation" [] None rest) = Some (wire (states_xml sts))) as ->.
  { unfold rest, g, d. destruct gid, desc; cbn [app]; ft; reflexivity. }
  cbn [need bind]. rewrite states_ok. cbn [bind].
  assert (findtext "notificationId" (Elem "reservation" [] None rest) = option_map py_str nid) as ->.
  { unfold rest, g, d, n, r. destruct gid, desc, nid, rid; cbn [option_map app]; ft; reflexivity. }
  assert (findtext "resultId" (Elem "reservation" [] None rest) = option_map py_str rid) as ->.
  { unfold rest, g, d, n, r. destruct gid, desc, nid, rid; cbn [option_map app]; ft; reflexivity. }
  assert (findtext "connectionId" (Elem "reservation" [] None rest) = Some cid) as -> by (unfold rest; cbn [app]; ft; reflexivity).
  assert (findtext "globalReservationId" (Elem "reservation" [] None rest) = gid) as ->.
  { unfold rest, g, d, n, r. destruct gid, desc, nid, rid; cbn [option_map app]; ft; reflexivity. }
  assert (findtext "description" (Elem "reservation" [] None rest) = desc) as ->.
  { unfold rest, g, d, n, r. destruct gid, desc, nid, rid; cbn [option_map app]; ft; reflexivity. }
  assert (findtext "requesterNSA" (Elem "reservation" [] None rest) = Some req) as ->.
  { unfold rest, g, d, n, r. destruct gid, desc, nid, rid; cbn [option_map app]; ft; reflexivity. }
  assert (forall o, opt_int (option_map py_str o) = Ok o) as Oi.
  { intros [z|]; [|reflexivity]. cbn [option_map opt_int]. unfold int_opt. rewrite py_int_str. reflexivity. }
  rewrite !Oi. reflexivity.
Qed.
Lemma summary_transfer provider tag l : Forall summary_ok l ->
  exists e, summary_xml tag l = Ok e /\ e_tag e = tag /\ summary_build provider (wire e) = Ok (map (summary_seen provider) l).
Proof.
  intros F. unfold summary_xml.
  assert (exists es, mapM summary_result_xml l = Ok es /\ (forall e, In e es -> e_tag e = "reservation") /\
    mapM (summary_result_build provider) (map wire es) = Ok (map (summary_seen provider) l)) as (es & E1 & E2 & E3).
  { induction F as [|c l H F (es & B1 & B2 & B3)]; [exists []; cbn; intuition|].
    destruct (summary_result_good provider c H) as (e & A1 & A2 & A3).
    exists (e :: es). cbn [mapM map]. rewrite A1. cbn [bind]. rewrite B1. split; [reflexivity|]. split.
    - intros x [<-|Hx]; auto.
    - rewrite A3. cbn [bind]. rewrite B3. reflexivity. }
  rewrite E1. cbn [bind]. eexists. split; [reflexivity|]. split; [reflexivity|]. unfold summary_build. cbn [wire].
  assert (findall "reservation" (Elem tag [] None (map wire es)) = map wire es) as ->; [|exact E3].
  apply (by_tag_all "reservation" (map wire es)). intros e He. apply in_map_iff in He as (x & <- & Hx). rewrite wire_tag. apply E2, Hx.
Qed.
Theorem c66_summary fresh h l : h_corr h <> "" -> Forall summary_ok l ->
  exists m, send_summary h l = Ok m /\
    requester_service fresh (carry m) = Some (Ok (RResults "querySummaryConfirmed" (answer_header h) (map (summary_seen (h_provider h)) l))).
Proof.
  intros H F. destruct (summary_transfer (h_provider h) (CT "querySummaryConfirmed") l F) as (e & E1 & E2 & E3).
  unfold send_summary. rewrite E1. cbn [bind]. eexists. split; [reflexivity|].
  eapply requester_gets; [exact H|reflexivity|reflexivity| |].
  - unfold parse_body. rewrite wire_tag, E2.
    assert (aget (CT "querySummaryConfirmed") type_map = Some (KResults false)) as -> by (vm_compute; reflexivity). reflexivity.
  - cbn [on_results Bool.eqb answer_header d_provider text_or_none]. rewrite E3. reflexivity.
Qed.
Theorem c66_recursive fresh h l : h_corr h <> "" -> Forall (top_ok 10) l ->
  exists m, send_recursive h l = Ok m /\
    requester_service fresh (carry m) = Some (Ok (RResults "queryRecursiveConfirmed" (answer_header h) (map (seen (h_provider h)) l))).
Proof.
  intros H F. pose proof (transfer_ok (h_provider h) l F) as T. unfold transfer in T. unfold send_recursive.
  destruct (recursive_xml l) as [e|e]; [|discriminate]. cbn [bind] in *. eexists. split; [reflexivity|].
  eapply requester_gets; [exact H|reflexivity|reflexivity| |].
  - unfold parse_body. rewrite wire_tag. cbn [e_tag].
    assert (aget (CT "queryRecursiveConfirmed") type_map = Some (KResults true)) as -> by (vm_compute; reflexivity). reflexivity.
  - cbn [on_results Bool.eqb answer_header d_provider text_or_none].
    assert (recursive_build (h_provider h) (wire (Elem (CT "queryRecursiveConfirmed") [] None (e_kids e))) =
            recursive_build (h_provider h) (wire e)) as ->; [|rewrite T; reflexivity].
    destruct e as [t a x k]. reflexivity.
Qed.

(** * Dispatch *)
Theorem c62_action_decides fresh m c : provider_service fresh m = Some (Ok (HCall c)) ->
  match c with
  | PReserve _ _ _ _ _ _ _ => fst m = ACT "reserve"
  | PConn method _ _ | PQuery method _ _ _ => fst m = ACT method
  end.
Proof.
  unfold provider_service. destruct (aget (fst m) provider_decoders) as [f|] eqn:E; [|discriminate].
  intros H. injection H as H. destruct (parse_message fresh (snd m)) as [[d b]|e]; [|discriminate]. cbn [bind] in H.
  apply aget_In in E. unfold provider_decoders in E.
  assert (forall method, handle_conn method d b = Ok (HCall c) -> match c with PConn n _ _ => n = method | _ => False end) as Hc.
  { intros method. unfold handle_conn. destruct (conn_of b); cbn [bind]; [|discriminate]. intros [= <-]. reflexivity. }
  assert (forall method, handle_query method d b = Ok (HCall c) -> match c with PQuery n _ _ _ => n = method | _ => False end) as Hq.
  { intros method. unfold handle_query. destruct b; try discriminate. intros [= <-]. reflexivity. }
  assert (handle_reserve d b = Ok (HCall c) -> match c with PReserve _ _ _ _ _ _ _ => True | _ => False end) as Hr.
  { unfold handle_reserve. destruct b as [cid gid desc cr| | | | | | | | | | |]; try discriminate.
    destruct (ci_sd cr) as [p|]; [|discriminate]. destruct (pi_dir p) as [[|? ?]|]; try discriminate.
    destruct (ci_sched cr) as [sq|]; [|discriminate]. cbn [bind].
    destruct (opt_parse (fst sq)); [|discriminate]. cbn [bind]. destruct (opt_parse (snd sq)); [|discriminate]. cbn [bind].
    destruct (stp_of (pi_src p)); [|discriminate]. cbn [bind]. destruct (stp_of (pi_dst p)); [|discriminate]. cbn [bind].
    destruct (pi_ero p) as [[|? ?]|]; try discriminate; intros [= <-]; exact I. }
  destruct m as [act env]. cbn [fst snd] in *.
  repeat (destruct E as [E|E]; [apply pair_equal_spec in E as [<- <-]; 
    first [ specialize (Hr H); destruct c; [reflexivity|contradiction|contradiction]
          | specialize (Hc _ H); destruct c; try contradiction; rewrite Hc; reflexivity
          | specialize (Hq _ H); destruct c; try contradiction; rewrite Hq; reflexivity ]|]).
  contradiction.
Qed.

Theorem c62_action_decides_requester fresh m c : requester_service fresh m = Some (Ok c) ->
  fst m = ACT match c with
              | RReserveConfirmed _ _ _ _ _ _ _ => "reserveConfirmed"
              | RConn method _ _ | RFailed method _ _ _ _ | RResults method _ _ => method
              | RTimeout _ _ _ _ _ _ _ => "reserveTimeout"
              | RDataPlane _ _ _ _ _ _ _ => "dataPlaneStateChange"
              | RErrorEvent _ _ _ _ _ _ _ => "errorEvent"
              | RError _ _ => "error"
              end.
Proof.
  unfold requester_service. destruct (aget (fst m) requester_decoders) as [f|] eqn:E; [|discriminate].
  intros H. injection H as H. destruct (eqb (fst m) (ACT "messageDeliveryTimeout")); [discriminate|].
  destruct (parse_message fresh (snd m)) as [[d b]|e]; [|discriminate]. cbn [bind] in H.
  apply aget_In in E. unfold requester_decoders in E. destruct m as [act env]. cbn [fst snd] in *.
  assert (forall method, on_confirmation method d b = Ok c -> exists x y, c = RConn method x y) as H1.
  { intros method. unfold on_confirmation. destruct (conn_of b); cbn [bind]; [|discriminate]. intros [= <-]. eauto. }
  assert (forall method, on_failure method d b = Ok c -> exists x y z w, c = RFailed method x y z w) as H2.
  { intros method. unfold on_failure. destruct b; try discriminate. destruct create_exception; cbn [bind]; [|discriminate].
    intros [= <-]. eauto 6. }
  assert (forall method r, on_results method r d b = Ok c -> exists x y, c = RResults method x y) as H3.
  { intros method r. unfold on_results. destruct b as [| | | | | | | |r' el| | |]; try discriminate. destruct (Bool.eqb r' r); [|discriminate].
    destruct ((if r then _ else _) _ _); cbn [bind]; [|discriminate]. intros [= <-]. eauto. }
  assert (on_reserve_confirmed d b = Ok c -> match c with RReserveConfirmed _ _ _ _ _ _ _ => True | _ => False end) as H4.
  { unfold on_reserve_confirmed. destruct b as [cid gid desc cr| | | | | | | | | | |]; try discriminate.
    destruct (ci_sched cr) as [sq|]; [|discriminate]. cbn [bind].
    destruct (opt_parse (fst sq)); [|discriminate]. cbn [bind]. destruct (opt_parse (snd sq)); [|discriminate]. cbn [bind].
    destruct (ci_sd cr) as [p|]; [|discriminate].
    destruct (stp_of (pi_src p)); [|discriminate]. cbn [bind]. destruct (stp_of (pi_dst p)); [|discriminate]. cbn [bind].
    destruct (pi_dir p); [|discriminate]. intros [= <-]; exact I. }
  assert (on_reserve_timeout d b = Ok c -> match c with RTimeout _ _ _ _ _ _ _ => True | _ => False end) as H5.
  { unfold on_reserve_timeout. destruct b as [| | | |cid nid ts tv oc on| | | | | | |]; try discriminate.
    destruct ts as [ts|]; [|discriminate]. destruct (parseXMLTimestamp ts); [|discriminate]. intros [= <-]. exact I. }
  assert (on_data_plane d b = Ok c -> match c with RDataPlane _ _ _ _ _ _ _ => True | _ => False end) as H6.
  { unfold on_data_plane. destruct b; try discriminate. intros [= <-]. exact I. }
  assert (on_error_event d b = Ok c -> match c with RErrorEvent _ _ _ _ _ _ _ => True | _ => False end) as H7.
  { unfold on_error_event. destruct b; try discriminate. intros [= <-]. exact I. }
  assert (on_error d b = Ok c -> match c with RError _ _ => True | _ => False end) as H8.
  { unfold on_error. destruct b as [| |? ? se| | | |? ? ? ? ? ? ? [se|]|se| | | |]; try discriminate;
    (destruct (se_vars se); [|discriminate]); intros [= <-]; exact I. }
  repeat (destruct E as [E|E]; [apply pair_equal_spec in E as [<- <-];
    first [ destruct (H1 _ H) as (? & ? & ->); reflexivity
          | destruct (H2 _ H) as (? & ? & ? & ? & ->); reflexivity
          | destruct (H3 _ _ H) as (? & ? & ->); reflexivity
          | specialize (H4 H); destruct c; try contradiction; reflexivity
          | specialize (H5 H); destruct c; try contradiction; reflexivity
          | specialize (H6 H); destruct c; try contradiction; reflexivity
          | specialize (H7 H); destruct c; try contradiction; reflexivity
          | specialize (H8 H); destruct c; try contradiction; reflexivity
          | discriminate ]|]).
  contradiction.
Qed.
