(** The parts of an HTTP URL. *)
From Verif Require Import Base.
Open Scope Z_scope.
(** RFC 3986: scheme, host, an optional port, and the rest, which is empty or begins a path, a query or a fragment *)
Record http_url := mkUrl { u_tls : bool; u_host : string; u_port : option Z; u_rest : string }.
Definition url_text (u : http_url) : string :=
  (if u_tls u then "https" else "http") +++ "://" +++ u_host u +++
  match u_port u with None => "" | Some p => ":" +++ py_str p end +++ u_rest u.
(** names and IPv4 addresses *)
Definition plain_host (h : string) : Prop := shas ":" h = false /\ shas "/" h = false /\ shas "?" h = false /\ shas "#" h = false.
Definition url_ok (u : http_url) : Prop :=
  plain_host (u_host u) /\ (forall p, u_port u = Some p -> 0 < p) /\
  (u_rest u = "" \/ exists c r, u_rest u = String c r /\ (c = "/" \/ c = "?" \/ c = "#")%char).
(** the port of a URL: 80 for http and 443 for https unless given *)
Definition port_of (u : http_url) : Z := match u_port u with Some p => p | None => if u_tls u then 443 else 80 end.
Definition host_header_of (u : http_url) : string := u_host u +++ match u_port u with None => "" | Some p => ":" +++ py_str p end.

(** the capital and the small letters *)
Definition alphabet : list (ascii * ascii) :=
  combine (list_ascii_of_string "ABCDEFGHIJKLMNOPQRSTUVWXYZ") (list_ascii_of_string "abcdefghijklmnopqrstuvwxyz").
(** two texts that differ at most in the case of their letters *)
Definition same_letter (c d : ascii) : Prop := c = d \/ In (c, d) alphabet \/ In (d, c) alphabet.
Definition caseless (s t : string) : Prop := Forall2 same_letter (list_ascii_of_string s) (list_ascii_of_string t).
