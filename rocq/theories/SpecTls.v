(** Who may act on a service, and whom it talks to. *)
From Verif Require Import Base ModelAuthz ModelHttpClient ModelConfig ModelRest ModelRestGet SpecHttpClient SpecConfig ModelTls.
Open Scope Z_scope.

(** The files of the certificate directory: those called something.0 *)
Definition authority (d : directory) (t : string) : Prop := exists n, In (n +++ ".0", t) d.
(** A certificate that leads to one of the configured authorities. *)
Definition genuine (w : world) (c : file) (x : certificate) : Prop :=
  exists dir d cas, said c "certdir" "/etc/ssl/certs" dir /\ w_listdir w dir = Some d /\
    (forall t, In t cas <-> authority d t) /\ w_chains w cas x = true.
(** The same, with the files that can be read. *)
Definition genuine_read (w : world) (c : file) (x : certificate) : Prop :=
  exists dir d cas, said c "certdir" "/etc/ssl/certs" dir /\ w_listdir w dir = Some d /\
    (forall t, In t cas <-> authority d t /\ w_pem w t = true) /\ w_chains w cas x = true.
(** The name in a certificate: its last common name. *)
Definition bears (x : certificate) (n : string) : Prop :=
  exists pre post, ce_subject x = pre ++ ("CN", n) :: post /\ forall y, ~ In ("CN", y) post.

(** A service made from a configuration file, after any agents have been found. *)
Definition running (w : world) (ex : string -> bool) (c : file) (s : site) : Prop :=
  exists v s0 names, file_ok c /\ load_config ex c = Ok v /\ start_site w v = Ok s0 /\ s = run_site w names s0.
(** TLS, verification and a list of hosts are configured *)
Definition tls_on (c : file) : Prop := flag c "tls" true true.
Definition verify_on (c : file) : Prop := flag c "verify" true true.
(** The client is one of the configured hosts. *)
Definition listed (w : world) (c : file) (offer : option certificate) : Prop :=
  exists x n h, offer = Some x /\ genuine w c x /\ bears x n /\ says c "allowedhosts" h /\ entry h n.

(** A factory made from a configuration file *)
Definition made (w : world) (ex : string -> bool) (c : file) (f : ctx_factory) : Prop :=
  exists v, file_ok c /\ load_config ex c = Ok v /\ setup_tls w v = Ok f.
