(** What a calendar day, an instant and a written timestamp are; independent of
    the library's arithmetic. *)
From Verif Require Import Base ModelTime.
Open Scope Z_scope.

(** ** The Gregorian calendar by counting *)
Definition leap_yearb (y : Z) : bool :=
  if Z.rem y 400 =? 0 then true else if Z.rem y 100 =? 0 then false else Z.rem y 4 =? 0.
Definition month_length (y m : Z) : Z :=
  match m with
  | 4 | 6 | 9 | 11 => 30
  | 2 => if leap_yearb y then 29 else 28
  | _ => 31
  end.
(** the days of the first [k] years, and of the first [k] months of a year *)
Fixpoint years_days (k : nat) : Z :=
  match k with
  | O => 0
  | S j => years_days j + (if leap_yearb (Z.of_nat k) then 366 else 365)
  end.
Fixpoint months_days (y : Z) (k : nat) : Z :=
  match k with O => 0 | S j => months_days y j + month_length y (Z.of_nat k) end.
Definition day_number (y m d : Z) : Z :=
  years_days (Z.to_nat (y - 1)) + months_days y (Z.to_nat (m - 1)) + d.

(** a time that exists *)
Definition date_exists (y m d : Z) : Prop := 1 <= y <= 9999 /\ 1 <= m <= 12 /\ 1 <= d <= month_length y m.
Definition time_exists (t : dt) : Prop :=
  date_exists (dy t) (dmo t) (dd t) /\
  0 <= dh t < 24 /\ 0 <= dmi t < 60 /\ 0 <= ds t < 60 /\ 0 <= dus t < 1000000.
(** microseconds since the day before 0001-01-01, 00:00 *)
Definition instant (t : dt) : Z :=
  day_number (dy t) (dmo t) (dd t) * 86400000000 +
  dh t * 3600000000 + dmi t * 60000000 + ds t * 1000000 + dus t.
(** the instants of years 1 to 9999 *)
Definition representable (us : Z) : Prop :=
  instant (mkDt 1 1 1 0 0 0 0) <= us <= instant (mkDt 9999 12 31 23 59 59 999999).

(** ** Written timestamps *)
Inductive zone :=
| ZNone                                        (* no zone *)
| ZUtc                                         (* "Z" *)
| ZOff (east colon : bool) (h m : Z)           (* +HH:MM, -HH:MM, +HHMM, -HHMM *)
| ZHour (east : bool) (h : Z).                 (* +HH, -HH *)
Definition zone_ok (z : zone) : Prop :=
  match z with
  | ZNone | ZUtc => True
  | ZOff _ _ h m => 0 <= h < 24 /\ 0 <= m < 60
  | ZHour _ h => 0 <= h < 24
  end.
(** minutes east of Greenwich *)
Definition zone_minutes (z : zone) : option Z :=
  match z with
  | ZNone => None
  | ZUtc => Some 0
  | ZOff e _ h m => Some (if e then h * 60 + m else - (h * 60 + m))
  | ZHour e h => Some (if e then h * 60 else - (h * 60))
  end.
Definition two (n : Z) : string := String (digit_char (n / 10)) (String (digit_char (n mod 10)) "").
Definition four (n : Z) : string := two (n / 100) +++ two (n mod 100).
Definition zone_text (z : zone) : string :=
  match z with
  | ZNone => ""
  | ZUtc => "Z"
  | ZOff e colon h m => (if e then "+" else "-") +++ two h +++ (if colon then ":" else "") +++ two m
  | ZHour e h => (if e then "+" else "-") +++ two h
  end.
(** the digits after the decimal point: any number of them, or no fraction at all *)
Definition frac_text (f : string) : string := if String.eqb f "" then "" else "." +++ f.
Fixpoint dec_value (acc : Z) (s : string) : Z :=
  match s with
  | EmptyString => acc
  | String c r => dec_value (acc * 10 + (Z.of_nat (nat_of_ascii c) - 48)) r
  end.
(** whole microseconds of the fraction 0.[f] *)
Definition frac_value (f : string) : Z := dec_value 0 f * 1000000 / 10 ^ Z.of_nat (String.length f).
Definition stamp (t : dt) (f : string) (z : zone) : string :=
  four (dy t) +++ "-" +++ two (dmo t) +++ "-" +++ two (dd t) +++ "T" +++
  two (dh t) +++ ":" +++ two (dmi t) +++ ":" +++ two (ds t) +++ frac_text f +++ zone_text z.
