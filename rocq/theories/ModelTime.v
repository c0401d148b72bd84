(** Timestamps: shared/xmlhelper.py, and the parts of Python's [datetime] and
    of dateutil's [isoparse] it rests on. *)
From Verif Require Import Base.
Open Scope Z_scope.

(** A naive [datetime.datetime] (what xmlhelper.py:27-43 takes and returns):
    the internal times, in UTC. *)
Record dt := mkDt { dy : Z; dmo : Z; dd : Z; dh : Z; dmi : Z; ds : Z; dus : Z }.

(** Python library: datetime._is_leap, _days_before_month, _days_in_month
    (used through isoparse and astimezone in xmlhelper.py:35,42). *)
Definition is_leap (y : Z) : bool :=
  (y mod 4 =? 0) && (negb (y mod 100 =? 0) || (y mod 400 =? 0)).
(** Python datetime library, used by xmlhelper.py:27-43 *)
Definition month_days : list Z := [31; 28; 31; 30; 31; 30; 31; 31; 30; 31; 30; 31].
(** Python datetime library, used by xmlhelper.py:27-43 *)
Definition days_in_month (y m : Z) : Z :=
  if (m =? 2) && is_leap y then 29 else nth (Z.to_nat (m - 1)) month_days 0.
(** Python datetime library, used by xmlhelper.py:27-43 *)
Definition before_month : list Z := [0; 31; 59; 90; 120; 151; 181; 212; 243; 273; 304; 334].
(** Python datetime library, used by xmlhelper.py:27-43 *)
Definition days_before_month (y m : Z) : Z :=
  nth (Z.to_nat (m - 1)) before_month 0 + (if (2 <? m) && is_leap y then 1 else 0).
(** Python library: datetime._days_before_year, _ymd2ord (xmlhelper.py:42). *)
Definition days_before_year (y : Z) : Z :=
  let p := y - 1 in p * 365 + p / 4 - p / 100 + p / 400.
(** Python datetime library [_ymd2ord], used by xmlhelper.py:27-43 *)
Definition ymd2ord (y m d : Z) : Z := days_before_year y + days_before_month y m + d.

(** Python library: datetime._ord2ymd (xmlhelper.py:42 through date.fromordinal). *)
Definition ord2ymd (n0 : Z) : Z * Z * Z :=
  let n := n0 - 1 in
  let n400 := n / 146097 in let n := n mod 146097 in
  let year := n400 * 400 + 1 in
  let n100 := n / 36524 in let n := n mod 36524 in
  let n4 := n / 1461 in let n := n mod 1461 in
  let n1 := n / 365 in let n := n mod 365 in
  let year := year + n100 * 100 + n4 * 4 + n1 in
  if (n1 =? 4) || (n100 =? 4) then (year - 1, 12, 31)
  else
    let leap := (n1 =? 3) && (negb (n4 =? 24) || (n100 =? 3)) in
    let month := (n + 50) / 32 in
    let preceding := nth (Z.to_nat (month - 1)) before_month 0 + (if (2 <? month) && leap then 1 else 0) in
    if n <? preceding then
      let month := month - 1 in
      let preceding := preceding - (nth (Z.to_nat (month - 1)) month_days 0 + (if (month =? 2) && leap then 1 else 0)) in
      (year, month, n - preceding + 1)
    else (year, month, n - preceding + 1).

(** Python library: the argument checks of [datetime.datetime] (used by
    isoparse, xmlhelper.py:35): ValueError for a field out of range. *)
Definition dt_ok (t : dt) : bool :=
  (1 <=? dy t) && (dy t <=? 9999) && (1 <=? dmo t) && (dmo t <=? 12) &&
  (1 <=? dd t) && (dd t <=? days_in_month (dy t) (dmo t)) &&
  (0 <=? dh t) && (dh t <=? 23) && (0 <=? dmi t) && (dmi t <=? 59) &&
  (0 <=? ds t) && (ds t <=? 59) && (0 <=? dus t) && (dus t <=? 999999).
(** Python datetime library, [datetime(...)]: ValueError out of range (xmlhelper.py:33-43) *)
Definition datetime_new (t : dt) : result dt := if dt_ok t then Ok t else Err EValue.

(** Python library: datetime + timedelta (xmlhelper.py:42 through astimezone):
    the sum in microseconds, split again; OverflowError outside years 1..9999. *)
Definition day_us : Z := 86400000000.
(** Python datetime library, 9999-12-31 (xmlhelper.py:33-43) *)
Definition max_ordinal : Z := 3652059.
(** Python datetime library, a datetime in microseconds (xmlhelper.py:33-43) *)
Definition micros (t : dt) : Z :=
  (((ymd2ord (dy t) (dmo t) (dd t) * 24 + dh t) * 60 + dmi t) * 60 + ds t) * 1000000 + dus t.
(** Python datetime library, [datetime + timedelta] (xmlhelper.py:33-43) *)
Definition dt_add (t : dt) (us : Z) : result dt :=
  let total := micros t + us in
  let days := total / day_us in
  let rem := total mod day_us in
  if (0 <? days) && (days <=? max_ordinal) then
    let '(y, m, d) := ord2ymd days in
    let secs := rem / 1000000 in
    Ok (mkDt y m d (secs / 3600) (secs mod 3600 / 60) (secs mod 60) (rem mod 1000000))
  else Err EOverflow.

(** Python library: "%0wd" for non-negative numbers of at most [w] digits; xmlhelper.py:30 [isoformat] *)
Fixpoint pad (w : nat) (n : Z) : string :=
  match w with
  | O => ""
  | S w' => pad w' (n / 10) +++ String (digit_char (n mod 10)) ""
  end.

(** Python library: datetime.isoformat (xmlhelper.py:30): the fraction is
    written only when it is not zero. *)
Definition isoformat (t : dt) : string :=
  pad 4 (dy t) +++ "-" +++ pad 2 (dmo t) +++ "-" +++ pad 2 (dd t) +++ "T" +++
  pad 2 (dh t) +++ ":" +++ pad 2 (dmi t) +++ ":" +++ pad 2 (ds t) +++
  (if dus t =? 0 then "" else "." +++ pad 6 (dus t)).

(** xmlhelper.py:27-30.  [tz] tells whether the time carries zone information. *)
Definition createXMLTime (tz : bool) (t : dt) : result string :=
  if tz then Err EAssertion else Ok (isoformat t +++ "Z").

(** * dateutil.parser.isoparse (python-dateutil 2.8, used at xmlhelper.py:35)

    Modelled for the calendar form of the date (year, month, day); the week and
    ordinal forms, to which the library turns when this one fails, are not:
    the model answers ValueError for them. *)
Definition int_of (s : string) : result Z := match py_int s with Some z => Ok z | None => Err EValue end.

(** dateutil 2.8 isoparser._parse_isodate_common (xmlhelper.py:35). *)
Definition parse_isodate (s : string) : result (Z * Z * Z * nat) :=
  let len := String.length s in
  if (len <? 4)%nat then Err EValue else
  do! y <- int_of (substring 0 4 s);
  if (len <=? 4)%nat then Ok (y, 1, 1, 4%nat) else
  let has_sep := String.eqb (substring 4 1 s) "-" in
  let pos := if has_sep then 5%nat else 4%nat in
  if (len - pos <? 2)%nat then Err EValue else
  do! m <- int_of (substring pos 2 s);
  let pos := (pos + 2)%nat in
  if (len <=? pos)%nat then (if has_sep then Ok (y, m, 1, pos) else Err EValue) else
  if has_sep && negb (String.eqb (substring pos 1 s) "-") then Err EValue else
  let pos := if has_sep then (pos + 1)%nat else pos in
  if (len - pos <? 2)%nat then Err EValue else
  do! d <- int_of (substring pos 2 s);
  Ok (y, m, d, (pos + 2)%nat).

(** dateutil 2.8 isoparser._parse_tzstr (xmlhelper.py:35): the offset in
    minutes, zero for UTC. *)
Definition parse_tzstr (s : string) : result Z :=
  if String.eqb s "Z" || String.eqb s "z" then Ok 0 else
  let len := String.length s in
  if negb ((len =? 3) || (len =? 5) || (len =? 6))%nat then Err EValue else
  let sign := substring 0 1 s in
  do! mult <- (if String.eqb sign "-" then Ok (-1) else if String.eqb sign "+" then Ok 1 else Err EValue);
  do! hours <- int_of (substring 1 2 s);
  do! minutes <- (if (len =? 3)%nat then Ok 0
                  else int_of (sdrop (if String.eqb (substring 3 1 s) ":" then 4 else 3)%nat s));
  if (hours =? 0) && (minutes =? 0) then Ok 0
  else if 59 <? minutes then Err EValue
  else if 23 <? hours then Err EValue
  else Ok (mult * (hours * 60 + minutes)).

(** the leading digits of a text; dateutil.parser.isoparse (xmlhelper.py:35) *)
Fixpoint take_digits (s : string) : string :=
  match s with
  | String c r => if is_digit c then String c (take_digits r) else ""
  | EmptyString => ""
  end.

(** dateutil 2.8 isoparser._parse_isotime (xmlhelper.py:35): the loop over the
    components.  [comps] holds hour, minute, second, microsecond and zone;
    [comp] is the loop's counter before it is increased (starting at -1,
    written here as the number of components done). *)
Record tcomps := mkTc { tch : Z; tcm : Z; tcs : Z; tcu : Z; tcz : option Z }.
(** dateutil.parser.isoparse, used by xmlhelper.py:33-43 *)
Definition is_zone_start (c : ascii) : bool :=
  Ascii.eqb c "-" || Ascii.eqb c "+" || Ascii.eqb c "Z" || Ascii.eqb c "z".
(** dateutil.parser.isoparse, used by xmlhelper.py:33-43 *)
Definition set_comp (comp : nat) (v : Z) (t : tcomps) : tcomps :=
  match comp with
  | 0%nat => mkTc v (tcm t) (tcs t) (tcu t) (tcz t)
  | 1%nat => mkTc (tch t) v (tcs t) (tcu t) (tcz t)
  | 2%nat => mkTc (tch t) (tcm t) v (tcu t) (tcz t)
  | _ => mkTc (tch t) (tcm t) (tcs t) v (tcz t)
  end.
(** the fraction: first six digits, scaled (xmlhelper.py:35, library) *)
Definition frac_micros (digits_text : string) : result Z :=
  let us := substring 0 6 digits_text in
  do! v <- int_of us;
  Ok (v * 10 ^ Z.of_nat (6 - String.length us)).
(** [n] is the number of rounds left (the loop ends after comp = 5), [comp] the
    component of this round, [s] the rest of the text (xmlhelper.py:35, library). *)
Fixpoint isotime_loop (n comp : nat) (has_sep : bool) (s : string) (t : tcomps) : result (tcomps * string) :=
  match n with
  | O => Ok (t, s)
  | S n' =>
      match s with
      | EmptyString => Ok (t, s)
      | String c r =>
          if is_zone_start c then
            do! z <- parse_tzstr s; Ok (mkTc (tch t) (tcm t) (tcs t) (tcu t) (Some z), "")
          else
            do! hs <- (if (comp =? 1)%nat && Ascii.eqb c ":" then Ok (true, r)
                       else if (comp =? 2)%nat && has_sep then
                         if Ascii.eqb c ":" then Ok (has_sep, r) else Err EValue
                       else Ok (has_sep, s));
            let (has_sep, s) := (hs : bool * string) in
            if (comp <? 3)%nat then
              do! v <- int_of (substring 0 2 s);
              isotime_loop n' (S comp) has_sep (sdrop 2 s) (set_comp comp v t)
            else if (comp =? 3)%nat then
              match s with
              | String c r =>
                  if (Ascii.eqb c "." || Ascii.eqb c ",") && negb (String.eqb (take_digits r) "") then
                    do! v <- frac_micros (take_digits r);
                    isotime_loop n' (S comp) has_sep (sdrop (String.length (take_digits r)) r) (set_comp comp v t)
                  else isotime_loop n' (S comp) has_sep s t
              | EmptyString => isotime_loop n' (S comp) has_sep s t
              end
            else isotime_loop n' (S comp) has_sep s t
      end
  end.
(** dateutil.parser.isoparse, used by xmlhelper.py:33-43 *)
Definition parse_isotime (s : string) : result tcomps :=
  if (String.length s <? 2)%nat then Err EValue else
  do! (t, rest) <- isotime_loop 6 0 false s (mkTc 0 0 0 0 None);
  if negb (String.eqb rest "") then Err EValue
  else if (tch t =? 24) && negb ((tcm t =? 0) && (tcs t =? 0) && (tcu t =? 0)) then Err EValue
  else Ok t.

(** dateutil 2.8 isoparser.isoparse (xmlhelper.py:35): building the datetime
    from its components; hour 24 is midnight of the next day. *)
Definition iso_build (y m d : Z) (t : tcomps) : result (dt * option Z) :=
  if tch t =? 24 then
    do! x <- datetime_new (mkDt y m d 0 (tcm t) (tcs t) (tcu t));
    do! x <- dt_add x day_us;
    Ok (x, tcz t)
  else
    do! x <- datetime_new (mkDt y m d (tch t) (tcm t) (tcs t) (tcu t));
    Ok (x, tcz t).
(** dateutil 2.8 isoparser.isoparse (xmlhelper.py:35): the time and its zone;
    any single character may separate date and time. *)
Definition isoparse (s : string) : result (dt * option Z) :=
  do! (y, m, d, pos) <- parse_isodate s;
  do! t <- (if (pos <? String.length s)%nat then parse_isotime (sdrop (S pos) s) else Ok (mkTc 0 0 0 0 None));
  iso_build y m d t.

(** xmlhelper.py:33-43 *)
Definition parseXMLTimestamp (s : string) : result dt :=
  do! (x, z) <- isoparse s;
  match z with
  | None => Err EPayload
  | Some off => dt_add x (- (off * 60 * 1000000))
  end.
