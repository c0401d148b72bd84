(** C70: requests go to the host and port of their URL. *)
From Verif Require Import Base ModelHttpClient SpecHttpClient ProofsHttpClient.
Open Scope Z_scope.

(** An http or https URL with a host name and a port, or an https URL without a
    port, is requested from that host and port, with TLS exactly for https, and
    with the host and port as Host header.  Missing from the full statement:
    http URLs without a port. *)
Theorem C70_target_partial : forall u ctx, url_ok u -> (u_tls u = true -> ctx = true) -> (u_tls u = true \/ u_port u <> None) ->
  http_request (url_text u) ctx = Connect (u_tls u) (u_host u) (port_of u) (host_header_of u).
Proof. exact c70_sent. Qed.
Print Assumptions C70_target_partial.

(** No text beginning with https:, in letters of any case, is ever requested in
    the clear, nor at all without a context. *)
Theorem C70_never_clear : forall x s ctx host port hh, caseless x "https" -> http_request (x +++ ":" +++ s) ctx <> Connect false host port hh.
Proof. exact c70_never_clear. Qed.
Print Assumptions C70_never_clear.
Theorem C70_needs_context : forall x s tls host port hh, caseless x "https" -> http_request (x +++ ":" +++ s) false <> Connect tls host port hh.
Proof. exact c70_needs_context. Qed.
Print Assumptions C70_needs_context.
Example C70_case : caseless "httpS" "https" /\ http_request "httpS://a.net:1/" true = Connect true "a.net" 1 "a.net:1" /\
  http_request "httpS://a.net:1/" false = NotSent.
Proof.
  split; [|vm_compute; split; reflexivity]. unfold caseless. cbn [list_ascii_of_string]. repeat (constructor; [first [left; reflexivity|right; left; vm_compute; tauto]|]). constructor.
Qed.
(** Nothing is sent for a text that does not begin with http. *)
Theorem C70_only_http : forall url ctx, starts_with "http" url = false -> http_request url ctx = NotSent.
Proof. exact c70_not_http. Qed.
Print Assumptions C70_only_http.

(** Every http URL without a port is requested from port 443, without TLS. *)
Theorem C70_default_port_refuted :
  (forall u ctx, url_ok u -> u_tls u = false -> u_port u = None ->
     http_request (url_text u) ctx = Connect false (u_host u) 443 (host_header_of u)) /\
  ~ (forall u, url_ok u -> u_tls u = false -> http_request (url_text u) true = Connect (u_tls u) (u_host u) (port_of u) (host_header_of u)).
Proof.
  split; [exact c70_clear_default|]. intros H.
  specialize (H (mkUrl false "a.net" None "/NSI")). unfold url_ok, plain_host in H.
  discriminate (H ltac:(split; [repeat split; reflexivity|]; split; [discriminate|]; right; exists "/"%char, "NSI"; auto) eq_refl).
Qed.
Print Assumptions C70_default_port_refuted.

Definition u_ex : http_url := mkUrl true "nsa.example.org" (Some 9443) "/NSI/services/CS2".
Example C70_ex : url_ok u_ex /\ url_text u_ex = "https://nsa.example.org:9443/NSI/services/CS2" /\
  http_request (url_text u_ex) true = Connect true "nsa.example.org" 9443 "nsa.example.org:9443" /\
  http_request "https://nsa.example.org/" true = Connect true "nsa.example.org" 443 "nsa.example.org" /\
  http_request "https://nsa.example.org/" false = NotSent /\ http_request "ftp://nsa.example.org/" true = NotSent.
Proof.
  split; [|vm_compute; repeat split; reflexivity]. split; [repeat split; reflexivity|]. split; [intros p H; injection H as <-; lia|].
  right. exists "/"%char, "NSI/services/CS2". auto.
Qed.
(** outside the statement: an IPv6 address is cut at its first colon *)
Example C70_ipv6 : http_request "http://[::1]:8080/" true = Raises EValue.
Proof. vm_compute. reflexivity. Qed.
