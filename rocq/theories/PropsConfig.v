(** C71: what a configuration file may say, and what is made of it. *)
From Verif Require Import Base ModelHttpClient SpecHttpClient ModelConfig SpecConfig ProofsConfig.
Open Scope Z_scope.

(** A file is accepted exactly when it says what it must, nothing it must not,
    and its numbers, truth values and section names can be read. *)
Theorem C71_accepted : forall ex c, file_ok c -> (exists v, load_config ex c = Ok v) <-> acceptable ex c /\ readable c.
Proof. exact c71_accepted. Qed.
Print Assumptions C71_accepted.
(** Otherwise there is a ConfigurationError, and the file is not acceptable, or
    a ValueError, and it has an unreadable value. *)
Theorem C71_refused : forall ex c e, file_ok c -> load_config ex c = Err e ->
  (e = EConfiguration /\ ~ acceptable ex c) \/ (e = EValue /\ ~ readable c).
Proof. exact c71_refused. Qed.
Print Assumptions C71_refused.
(** The verified configuration says what the file says, or the defaults; hosts
    are restricted only with TLS; the backends are the sections of known kinds. *)
Theorem C71_contents : forall ex c v, file_ok c -> load_config ex c = Ok v -> contents c v.
Proof. exact c71_contents. Qed.
Print Assumptions C71_contents.
(** Only the first file is ever read: every later call has its outcome. *)
Theorem C71_once : forall ex f files s r, read_all ex (mkSing None None) (f :: files) = (s, r) ->
  Forall (fun x => x = load_config ex f) r /\ List.length r = S (List.length files) /\
  sg_vc s = match load_config ex f with Ok v => Some v | Err _ => None end.
Proof. exact c71_once. Qed.
Print Assumptions C71_once.
(** The administrators are the entries of the first file, if it was accepted. *)
Theorem C71_admin : forall ex f files s r urn, file_ok f -> read_all ex (mkSing None None) (f :: files) = (s, r) ->
  is_admin_override s urn = true <-> (exists v, load_config ex f = Ok v) /\ exists t, says f "allowed_admins" t /\ entry t urn.
Proof. exact c71_admin. Qed.
Print Assumptions C71_admin.

Definition f_ex : cfg :=
  [("service", [("domain", "nordu.net"); ("database", "opennsa"); ("dbuser", "nsa"); ("key", "/k"); ("certificate", "/c");
                ("allowedhosts", "a.net, b.net,"); ("allowed_admins", "urn:x,urn:y"); ("policy", "requireuser,aggregator")]);
   ("dud:topo", [("nrmmap", "/m")]); ("junosmx:mx", [("host", "h")]); ("unknown:topo2", [])].
Definition ex_ex (p : string) : bool := mem p ["/k"; "/c"].
Ltac nodup := repeat constructor; cbn [In map fst]; intuition congruence.
Lemma f_ex_ok : file_ok f_ex.
Proof.
  split; [nodup|]. split; [eexists; left; reflexivity|]. intros s l [[= <- <-]|[[= <- <-]|[[= <- <-]|[[= <- <-]|[]]]]]; nodup.
Qed.
Definition view (r : result vconf) :=
  match r with
  | Ok v => Some (vc_tls v, vc_port v, vc_hosts v, vc_admins v, vc_policy v, vc_verify v, map (fun b => (fst b, fst (snd b))) (vc_backends v))
  | Err _ => None
  end.
Example C71_ex : file_ok f_ex /\
  view (load_config ex_ex f_ex) = Some (true, 9443, Some ["a.net"; "b.net"], ["urn:x"; "urn:y"], ["requireuser"; "aggregator"], true,
                                        [("topo", "dud"); ("mx", "junosmx")]).
Proof. split; [exact f_ex_ok|vm_compute; reflexivity]. Qed.
(** the hypotheses of the later theorems are met: a second file is not read *)
Example C71_once_ex : exists s v, read_all ex_ex (mkSing None None) [f_ex; []] = (s, [Ok v; Ok v]) /\
  is_admin_override s "urn:y" = true /\ is_admin_override s "urn:z" = false.
Proof. eexists. eexists. vm_compute. repeat split; reflexivity. Qed.
(** unreadable values: not ConfigurationErrors *)
Definition with_service (o v : string) : cfg :=
  [("service", [(o, v); ("domain", "d"); ("database", "b"); ("dbuser", "u"); ("key", "/k"); ("certificate", "/c")])].
Example C71_value_errors : load_config ex_ex (with_service "port" "https") = Err EValue /\
  load_config ex_ex (with_service "verify" "maybe") = Err EValue /\
  load_config ex_ex (with_service "x" "y" ++ [("dud:a:b", [])]) = Err EValue.
Proof. vm_compute. repeat split; reflexivity. Qed.
Example C71_refusals : load_config ex_ex (with_service "network" "n") = Err EConfiguration /\
  load_config ex_ex (with_service "policy" "requireuser, aggregator") = Err EConfiguration /\
  load_config ex_ex (with_service "certdir" "/none") = Err EConfiguration /\
  load_config ex_ex (with_service "x" "y" ++ [("dud:a", []); ("junosmx:a", [])]) = Err EConfiguration /\
  load_config (fun _ => false) (with_service "x" "y") = Err EConfiguration.
Proof. vm_compute. repeat split; reflexivity. Qed.
(** a list of peers on lines of their own begins with an empty one; an unknown
    kind before a known one of the same name is no clash *)
Example C71_peers : (do! v <- load_config ex_ex (with_service "peers" (String LF "http://a"));
                     Ok (vc_peers v)) = Ok (Some [""; "http://a"]).
Proof. vm_compute. reflexivity. Qed.
