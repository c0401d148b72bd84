(** C50: timestamps. *)
From Verif Require Import Base ModelTime SpecTime ProofsTime ProofsTimeText.
Open Scope Z_scope.

(** Formatting an internal time and parsing it again gives the same time. *)
Theorem C50_round_trip : forall t, time_exists t ->
  exists s, createXMLTime false t = Ok s /\ parseXMLTimestamp s = Ok t.
Proof. exact create_parse. Qed.
Print Assumptions C50_round_trip.
Example C50_round_trip_ex :
  createXMLTime false (mkDt 2024 2 29 23 59 9 50) = Ok "2024-02-29T23:59:09.000050Z" /\
  parseXMLTimestamp "2024-02-29T23:59:09.000050Z" = Ok (mkDt 2024 2 29 23 59 9 50).
Proof. split; vm_compute; reflexivity. Qed.

(** A time that carries zone information is not an internal time and is not formatted. *)
Theorem C50_aware_refused : forall t s, createXMLTime true t <> Ok s.
Proof. intros t s. discriminate. Qed.
Print Assumptions C50_aware_refused.

(** Parsing a timestamp with any zone gives the same instant in UTC; only an
    instant outside years 1 to 9999 is refused. *)
Theorem C50_zone_instant : forall t f z off,
  time_exists t -> sall is_digit f = true -> zone_ok z -> zone_minutes z = Some off ->
  let moment := instant t - dus t + frac_value f - off * 60000000 in
  match parseXMLTimestamp (stamp t f z) with
  | Ok u => time_exists u /\ instant u = moment
  | Err e => e = EOverflow /\ ~ representable moment
  end.
Proof. exact parse_zoned. Qed.
Print Assumptions C50_zone_instant.
Example C50_zone_instant_ex :
  stamp (mkDt 2023 12 31 22 15 0 0) "5" (ZOff false true 3 30) = "2023-12-31T22:15:00.5-03:30" /\
  parseXMLTimestamp "2023-12-31T22:15:00.5-03:30" = Ok (mkDt 2024 1 1 1 45 0 500000) /\
  parseXMLTimestamp "0001-01-01T00:00:00+01" = Err EOverflow /\
  parseXMLTimestamp "2024-03-01T00:10:00.1234567+0100" = Ok (mkDt 2024 2 29 23 10 0 123456).
Proof. repeat split; vm_compute; reflexivity. Qed.

(** A timestamp without zone is refused. *)
Theorem C50_no_zone_refused : forall t f, time_exists t -> sall is_digit f = true ->
  parseXMLTimestamp (stamp t f ZNone) = Err EPayload.
Proof. exact parse_naive. Qed.
Print Assumptions C50_no_zone_refused.
Example C50_no_zone_ex : parseXMLTimestamp "2024-03-01T00:10:00.25" = Err EPayload.
Proof. vm_compute; reflexivity. Qed.

(** Whatever text is accepted, the result is an existing time. *)
Theorem C50_result_exists : forall s u, parseXMLTimestamp s = Ok u -> time_exists u.
Proof. exact parse_exists. Qed.
Print Assumptions C50_result_exists.
Example C50_result_exists_ex : parseXMLTimestamp "2023-02-29T00:00:00Z" = Err EValue /\
  parseXMLTimestamp "2023-02-28T24:00:00Z" = Ok (mkDt 2023 3 1 0 0 0 0).
Proof. split; vm_compute; reflexivity. Qed.
