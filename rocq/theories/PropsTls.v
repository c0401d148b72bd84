(** Who can act on a service, and whom it talks to (C82). *)
From Verif Require Import Base ModelAuthz ModelHttpClient ModelConfig ModelTime ModelSTP ModelRest ModelRestGet SpecHttpClient SpecConfig ModelTls SpecTls
  ProofsConfig ProofsHttpClient ProofsTls PropsConfig PropsRestGet.
Open Scope Z_scope.

(** ** C82: only listed hosts act *)
(** An operation of the provider is carried out only for a client with a genuine
    certificate that bears a listed name. *)
Theorem C82_listed : forall w ex c s h offer post path action body a ri, running w ex c s -> tls_on c -> verify_on c -> says c "allowedhosts" h ->
  In (DSoap "CS2" a ri) (client_request w s offer post path action body) -> listed w c offer.
Proof. exact c82_listed. Qed.
Print Assumptions C82_listed.

(** Such a client is served: it is enough that OpenSSL does not mind the order of
    the authorities. *)
Theorem C82_works : forall w ex c s h x n a body, running w ex c s -> tls_on c -> says c "allowedhosts" h -> genuine w c x ->
  (forall l l', (forall t, In t l <-> In t l') -> w_chains w l x = w_chains w l' x) ->
  bears x n -> entry h n -> In a (w_prov w) ->
  client_request w s (Some x) true ["NSI"; "services"; "CS2"] a body = [DSoap "CS2" a (mkRI (Some (PStr n)))].
Proof. exact c82_works. Qed.
Print Assumptions C82_works.

(** With a list of hosts nothing is done over REST for anyone, and nothing shown but
    the list of connections. *)
Theorem C82_rest_partial : forall w ex c s h offer post path action body, running w ex c s -> tls_on c -> says c "allowedhosts" h ->
  (forall k, ~ In (DRest k) (client_request w s offer post path action body)) /\
  (forall j, In (DRead j) (client_request w s offer post path action body) -> post = false /\ path = ["connections"]).
Proof. exact c82_rest. Qed.
Print Assumptions C82_rest_partial.

(** Answers of other agents, too, are taken only with a genuine certificate, but
    with any name. *)
Theorem C82_requester_partial : forall w ex c s offer post path action body name a ri, running w ex c s -> tls_on c -> verify_on c ->
  In (DSoap name a ri) (client_request w s offer post path action body) -> exists x n, offer = Some x /\ genuine w c x /\ bears x n.
Proof. exact c82_requester. Qed.
Print Assumptions C82_requester_partial.

(** ** Own requests *)
(** A request goes to a server with a genuine certificate for that host, whatever
    [verify] says. *)
Theorem C82_own : forall w ex c f servers url host port x, made w ex c f -> own_request w f servers url = ToServer host port x ->
  x = servers host port /\ genuine_read w c x /\ w_host w host x = true.
Proof. exact c82_own. Qed.
Print Assumptions C82_own.
Theorem C82_own_never_clear : forall w f servers x u host port, caseless x "https" -> own_request w f servers (x +++ ":" +++ u) <> ToClear host port.
Proof.
  intros w f servers x u host port H E. unfold own_request in E.
  destruct (ModelHttpClient.http_request (x +++ ":" +++ u) true) as [[] h p hh| |] eqn:R; try discriminate.
  - destruct (client_goes_on w f h (servers h p)); discriminate.
  - exact (c70_never_clear x u true h p hh H R).
Qed.
Print Assumptions C82_own_never_clear.

(** ** Starting *)
(** A service with TLS starts (as far as TLS goes) exactly if the directory is there,
    key and certificate belong together and every authority file is a certificate. *)
Theorem C82_starts : forall w ex c v, file_ok c -> load_config ex c = Ok v -> tls_on c ->
  (exists s, start_site w v = Ok s) <->
  (exists dir d k p, said c "certdir" "/etc/ssl/certs" dir /\ w_listdir w dir = Some d /\ says c "key" k /\ says c "certificate" p /\
     w_pair w k p = true /\ forall t, authority d t -> w_pem w t = true).
Proof. exact c82_starts. Qed.
Print Assumptions C82_starts.

(** ** Examples and refutations *)
Definition t_dir : directory := [("ca.0", "CA"); ("readme", "text"); ("other.0", "CB")].
Definition t_world (d : directory) : world :=
  mkWorld (fun t => mem t ["CA"; "CB"]) (fun cas x => mem (ce_rest x) cas) (fun h x => mem ("CN", h) (ce_subject x))
    (fun n => if eqb n "/etc/ssl/certs" then Some d else None) (fun _ _ => true) [Some "reserve"] [Some "dataPlaneStateChange"]
    (fun _ => Err EValue) (fun _ => Ok tt) (Ok [(g_conn, [])]) (fun _ => Ok (g_conn, [])).
Definition t_file (more : list (string * string)) : cfg :=
  [("service", [("domain", "nordu.net"); ("database", "opennsa"); ("dbuser", "nsa"); ("key", "/k"); ("certificate", "/c"); ("rest", "true");
                ("allowedhosts", "a.net,b.net")] ++ more)].
Definition t_a : certificate := mkCert [("O", "NORDUnet"); ("CN", "a.net")] "CA".
Definition t_self : certificate := mkCert [("CN", "a.net")] "self".
Definition t_x : certificate := mkCert [("CN", "x.net")] "CB".
Definition t_start (d : directory) (f : cfg) : result site := do! v <- load_config ex_ex f; start_site (t_world d) v.
Definition t_site (d : directory) (f : cfg) : site := match t_start d f with Ok s => run_site (t_world d) ["RequesterService2-1"] s | Err _ => mkSite None [] None end.

Lemma t_file_ok more : NoDup (map fst more) -> (forall o, In o (map fst more) -> ~ In o ["domain"; "database"; "dbuser"; "key"; "certificate"; "rest"; "allowedhosts"]) -> file_ok (t_file more).
Proof.
  intros N D. split; [constructor; [intros []|constructor]|]. split; [eexists; left; reflexivity|].
  intros s l [E|[]]. injection E as <- <-. cbn [map fst app].
  assert (K : forall o, In o ["domain"; "database"; "dbuser"; "key"; "certificate"; "rest"; "allowedhosts"] -> ~ In o (map fst more)) by (intros o H X; exact (D o X H)).
  repeat (constructor; [intros X; repeat (destruct X as [X|X]; [discriminate|]); revert X; apply K; cbn [In]; tauto|]). exact N.
Qed.
Lemma t_running d f v s0 : file_ok f -> load_config ex_ex f = Ok v -> start_site (t_world d) v = Ok s0 -> running (t_world d) ex_ex f (t_site d f).
Proof.
  intros W L S. exists v, s0, ["RequesterService2-1"]. split; [exact W|]. split; [exact L|]. split; [exact S|].
  unfold t_site, t_start. rewrite L. cbn [Base.bind]. rewrite S. reflexivity.
Qed.
Lemma t_ok_nil : file_ok (t_file []).
Proof. apply t_file_ok; [constructor|intros o []]. Qed.
Lemma t_ok_one o x : ~ In o ["domain"; "database"; "dbuser"; "key"; "certificate"; "rest"; "allowedhosts"] -> file_ok (t_file [(o, x)]).
Proof. intros H. apply t_file_ok; [constructor; [intros []|constructor]|]. intros o' [<-|[]]. exact H. Qed.
Lemma t_run : running (t_world t_dir) ex_ex (t_file []) (t_site t_dir (t_file [])).
Proof. eapply t_running; [exact t_ok_nil|vm_compute; reflexivity|vm_compute; reflexivity]. Qed.
Lemma t_on : tls_on (t_file []) /\ verify_on (t_file []).
Proof.
  split; (right; split; [|reflexivity]; intros v (l & [E|[]] & I); injection E as <-; cbn [In app] in I; repeat (destruct I as [I|I]; [discriminate|]); destruct I).
Qed.
Lemma t_says more : says (t_file more) "allowedhosts" "a.net,b.net".
Proof. eexists. split; [left; reflexivity|]. do 6 right. left. reflexivity. Qed.

Example C82_listed_ex : listed (t_world t_dir) (t_file []) (Some t_a) /\
  client_request (t_world t_dir) (t_site t_dir (t_file [])) (Some t_a) true ["NSI"; "services"; "CS2"] (Some "reserve") "" = [DSoap "CS2" (Some "reserve") (mkRI (Some (PStr "a.net")))] /\
  client_request (t_world t_dir) (t_site t_dir (t_file [])) (Some t_self) true ["NSI"; "services"; "CS2"] (Some "reserve") "" = [] /\
  client_request (t_world t_dir) (t_site t_dir (t_file [])) (Some t_x) true ["NSI"; "services"; "CS2"] (Some "reserve") "" = [].
Proof.
  assert (D : client_request (t_world t_dir) (t_site t_dir (t_file [])) (Some t_a) true ["NSI"; "services"; "CS2"] (Some "reserve") "" = [DSoap "CS2" (Some "reserve") (mkRI (Some (PStr "a.net")))])
    by (vm_compute; reflexivity).
  split; [|split; [exact D|split; vm_compute; reflexivity]].
  eapply (C82_listed (t_world t_dir) ex_ex); [exact t_run|apply t_on|apply t_on|apply t_says|]. rewrite D. left. reflexivity.
Qed.

(** Who is not listed can send answers in the name of an agent. *)
Theorem C82_requester_refuted : ~ (forall w ex c s h offer post path action body name a ri, running w ex c s -> tls_on c -> verify_on c -> says c "allowedhosts" h ->
  In (DSoap name a ri) (client_request w s offer post path action body) -> listed w c offer).
Proof.
  intros H. destruct (H (t_world t_dir) ex_ex (t_file []) (t_site t_dir (t_file [])) "a.net,b.net" (Some t_x) true ["NSI"; "services"; "RequesterService2-1"] (Some "dataPlaneStateChange") ""
    "RequesterService2-1" (Some "dataPlaneStateChange") (mkRI (Some (PStr "x.net")))) as (x & n & h & Hx & _ & Hb & Hs & He).
  - exact t_run. - apply t_on. - apply t_on. - apply t_says.
  - vm_compute. left. reflexivity.
  - injection Hx as <-. apply (says_fun _ _ _ _ t_ok_nil (t_says [])) in Hs. subst h.
    apply comma_list_entry in He. destruct Hb as (pre & pst & B1 & B2). 
    assert (n = "x.net"). { destruct pre as [|y pre]; [injection B1 as <- _; reflexivity|]. injection B1 as _ B1. destruct pre; discriminate. }
    subst n. assert (E : comma_list "a.net,b.net" = ["a.net"; "b.net"]) by (vm_compute; reflexivity). rewrite E in He. destruct He as [He|[He|[]]]; discriminate.
Qed.
Print Assumptions C82_requester_refuted.

(** Without verification anyone can make a certificate with a listed name. *)
Theorem C82_verify_refuted : ~ (forall w ex c s h offer post path action body a ri, running w ex c s -> tls_on c -> says c "allowedhosts" h ->
  In (DSoap "CS2" a ri) (client_request w s offer post path action body) -> listed w c offer).
Proof.
  intros H. set (f := t_file [("verify", "no")]). assert (W : file_ok f) by (apply t_ok_one; cbn; intuition discriminate).
  destruct (H (t_world t_dir) ex_ex f (t_site t_dir f) "a.net,b.net" (Some t_self) true ["NSI"; "services"; "CS2"] (Some "reserve") ""
    (Some "reserve") (mkRI (Some (PStr "a.net")))) as (x & n & h & Hx & (dir & d & cas & _ & Hd & Hc & Hk) & _).
  - eapply t_running; [exact W|vm_compute; reflexivity|vm_compute; reflexivity].
  - right. split; [|reflexivity]. intros v (l & [E|[]] & I). injection E as <-. cbn [In app] in I. repeat (destruct I as [I|I]; [discriminate|]). destruct I.
  - apply t_says.
  - vm_compute. left. reflexivity.
  - injection Hx as <-. unfold t_world in Hd, Hk. cbn [w_listdir w_chains] in Hd, Hk. destruct (eqb dir "/etc/ssl/certs"); [|discriminate]. injection Hd as <-.
    apply mem_In in Hk. apply Hc in Hk. destruct Hk as (m & Hm). cbn [In ce_rest t_self t_dir] in Hm. repeat (destruct Hm as [Hm|Hm]; [injection Hm as _ Hm; discriminate|]). destruct Hm.
Qed.
Print Assumptions C82_verify_refuted.

(** Without TLS the list of hosts is not used: everyone can do everything. *)
Theorem C82_plain_refuted : ~ (forall w ex c s h offer post path action body a ri, running w ex c s -> says c "allowedhosts" h ->
  In (DSoap "CS2" a ri) (client_request w s offer post path action body) -> offer <> None).
Proof.
  intros H. set (f := t_file [("tls", "off")]). assert (W : file_ok f) by (apply t_ok_one; cbn; intuition discriminate).
  apply (H (t_world t_dir) ex_ex f (t_site t_dir f) "a.net,b.net" None true ["NSI"; "services"; "CS2"] (Some "reserve") "" (Some "reserve") (mkRI None)); [| | |reflexivity].
  - eapply t_running; [exact W|vm_compute; reflexivity|vm_compute; reflexivity].
  - apply t_says.
  - vm_compute. left. reflexivity.
Qed.
Print Assumptions C82_plain_refuted.

(** The list of connections is shown to a client that is not listed, even without a
    certificate. *)
Theorem C82_read_refuted : ~ (forall w ex c s h offer post path action body j, running w ex c s -> tls_on c -> verify_on c -> says c "allowedhosts" h ->
  In (DRead j) (client_request w s offer post path action body) -> listed w c offer).
Proof.
  intros H. assert (X : exists j, In (DRead j) (client_request (t_world t_dir) (t_site t_dir (t_file [])) None false ["connections"] None "")).
  { eexists. vm_compute. left. reflexivity. }
  destruct X as (j & X). destruct (H _ ex_ex (t_file []) _ "a.net,b.net" _ _ _ _ _ j t_run (proj1 t_on) (proj2 t_on) (t_says []) X) as (x & _ & _ & E & _). discriminate.
Qed.
Print Assumptions C82_read_refuted.

(** A file that is not a certificate is passed over for own requests, but the service
    does not start. *)
Theorem C82_bad_file_refuted : ~ (forall w ex c v f, file_ok c -> load_config ex c = Ok v -> tls_on c -> setup_tls w v = Ok f -> exists s, start_site w v = Ok s).
Proof.
  intros H. assert (L : exists v, load_config ex_ex (t_file []) = Ok v) by (eexists; vm_compute; reflexivity). destruct L as (v & L).
  set (w := t_world (("bad.0", "junk") :: t_dir)).
  assert (S : exists f, setup_tls w v = Ok f).
  { assert (X : exists f, (do! v <- load_config ex_ex (t_file []); setup_tls w v) = Ok f) by (eexists; vm_compute; reflexivity).
    rewrite L in X. exact X. }
  destruct S as (f & S). destruct (H w ex_ex (t_file []) v f t_ok_nil L (proj1 t_on) S) as (s & E).
  assert (X : (do! v <- load_config ex_ex (t_file []); start_site w v) = Err EValue) by (vm_compute; reflexivity). rewrite L in X. cbn [Base.bind] in X. congruence.
Qed.
Print Assumptions C82_bad_file_refuted.

Example C82_own_ex : forall v f, load_config ex_ex (t_file [("verify", "no")]) = Ok v -> setup_tls (t_world t_dir) v = Ok f ->
  own_request (t_world t_dir) f (fun _ _ => t_a) "https://a.net:9443/NSI/services/CS2" = ToServer "a.net" 9443 t_a /\
  own_request (t_world t_dir) f (fun _ _ => t_self) "https://a.net:9443/NSI/services/CS2" = ToNobody /\
  own_request (t_world t_dir) f (fun _ _ => t_a) "https://b.net/NSI/services/CS2" = ToNobody.
Proof.
  intros v f L S. assert (X : (do! v <- load_config ex_ex (t_file [("verify", "no")]); setup_tls (t_world t_dir) v) = Ok (mkFactory t_dir false ["CA"; "CB"] true)) by (vm_compute; reflexivity).
  rewrite L in X. cbn [Base.bind] in X. rewrite S in X. apply ProofsPlugins.Ok_inj in X. subst f. repeat split; vm_compute; reflexivity.
Qed.
Example C82_rest_ex : client_request (t_world t_dir) (t_site t_dir (t_file [])) (Some t_a) true ["connections"; "AN-1"; "status"] None "terminate" = [] /\
  List.length (client_request (t_world t_dir) (t_site t_dir (t_file [])) (Some t_a) false ["connections"] None "") = 1%nat.
Proof. split; vm_compute; reflexivity. Qed.
