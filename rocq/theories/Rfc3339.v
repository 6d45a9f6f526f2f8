(** Times in the answers to producers: the RFC 3339 texts that chrono's serde makes of a DateTime<Utc> and reads
    (chrono 0.4.45, outside /repo; modelled from its documentation and source as known). The fields
    with times: common/chunk.rs:222; common/submission.rs:180,194,212.

    A time is a number of nanoseconds since 1970. Simplifications: years from 0 to 9999 only (the others are written with a
    sign); no leap seconds; the reader accepts other forms (offsets, lower case, a space for T) that
    no writer here makes, which are left out. *)
From Coq Require Import Ascii.
From Verif Require Export Types.
Local Open Scope string_scope.
Local Open Scope Z_scope.

(** *** The Gregorian calendar *)
(** The date of a day, counted from 1 January 1970: NaiveDate::from_num_days_from_ce_opt. The years are taken to begin in
    March; 719468 days from 1 March of the year 0. 400 years have 146097 days, 100 years 36524 (and one
    more at the end of 400), 4 years 1461 (and one less at the end of 100), a year 365 (and one
    more at the end of 4). *)
Definition civil_of_days (n : Z) : Z * Z * Z :=
  let z := n + 719468 in
  let era := z / 146097 in
  let doe := z mod 146097 in
  let c := Z.min 3 (doe / 36524) in
  let r := doe - 36524 * c in
  let q := r / 1461 in
  let r := r mod 1461 in
  let a := Z.min 3 (r / 365) in
  let doy := r - 365 * a in
  let mp := (5 * doy + 2) / 153 in
  let d := doy - (153 * mp + 2) / 5 + 1 in
  let m := if mp <? 10 then mp + 3 else mp - 9 in
  let y := era * 400 + 100 * c + 4 * q + a in
  (if m <=? 2 then y + 1 else y, m, d).
(** And back: NaiveDate::from_ymd_opt, num_days_from_ce. *)
Definition days_of_civil (y m d : Z) : Z :=
  let y := if m <=? 2 then y - 1 else y in
  let era := y / 400 in
  let yoe := y mod 400 in
  let mp := if 2 <? m then m - 3 else m + 9 in
  let doy := (153 * mp + 2) / 5 + d - 1 in
  era * 146097 + (365 * yoe + yoe / 4 - yoe / 100 + doy) - 719468.

(** The calendar, by itself: which years have a 29 February, how long the months are, which day comes next. *)
Definition leap (y : Z) : bool := (y mod 4 =? 0) && (negb (y mod 100 =? 0) || (y mod 400 =? 0)).
Definition month_length (y m : Z) : Z :=
  if m =? 2 then (if leap y then 29 else 28)
  else if (m =? 4) || (m =? 6) || (m =? 9) || (m =? 11) then 30 else 31.
Definition next_day (x : Z * Z * Z) : Z * Z * Z :=
  let '(y, m, d) := x in
  if d <? month_length y m then (y, m, d + 1)
  else if m <? 12 then (y, m + 1, 1) else (y + 1, 1, 1).

(** *** Texts *)
(** {:02}, {:03} and so on, for numbers that fit. *)
Definition digit (n : Z) : ascii := ascii_of_N (48 + Z.to_N (n mod 10)).
Fixpoint digits (k : nat) (n : Z) (rest : string) : string :=
  match k with O => rest | S k => digits k (n / 10) (String (digit n) rest) end.
Definition undigit (c : ascii) : option Z :=
  let n := Z.of_N (N_of_ascii c) in if (48 <=? n) && (n <=? 57) then Some (n - 48) else None.
Fixpoint read_digits (k : nat) (acc : Z) (s : string) : option (Z * string) :=
  match k, s with
  | O, _ => Some (acc, s)
  | S k, String c s => d ← undigit c; read_digits k (10 * acc + d) s
  | S _, EmptyString => None
  end.
Definition expect (c : ascii) (s : string) : option string :=
  match s with String c' s => if decide (c = c') then Some s else None | EmptyString => None end.
(** SecondsFormat::AutoSi: no fraction, or milliseconds, or microseconds, or nanoseconds. *)
Definition fraction (nano : Z) (rest : string) : string :=
  if nano =? 0 then rest
  else String "."%char (
    if nano mod 10 ^ 6 =? 0 then digits 3 (nano / 10 ^ 6) rest
    else if nano mod 10 ^ 3 =? 0 then digits 6 (nano / 10 ^ 3) rest
    else digits 9 nano rest).
(** The digits of a fraction, as many as there are; those after the ninth do not count. *)
Fixpoint read_fraction (k : nat) (s : string) : Z * string :=
  match s with
  | EmptyString => (0, s)
  | String c s' =>
    match undigit c with
    | None => (0, s)
    | Some d =>
      match k with
      | O => (0, (read_fraction O s').2)
      | S k => let '(n, r) := read_fraction k s' in (d * 10 ^ Z.of_nat k + n, r)
      end
    end
  end.
(** impl Serialize for DateTime<Tz>: write_rfc3339 with SecondsFormat::AutoSi and Z for UTC. *)
Definition time_text (t : Z) : string :=
  let nano := t mod 10 ^ 9 in
  let sec := t / 10 ^ 9 in
  let sod := sec mod 86400 in
  let '(y, m, d) := civil_of_days (sec / 86400) in
  digits 4 y (String "-"%char (digits 2 m (String "-"%char (digits 2 d (String "T"%char (
    digits 2 (sod / 3600) (String ":"%char (digits 2 (sod / 60 mod 60) (String ":"%char (digits 2 (sod mod 60) (
      fraction nano "Z"%string))))))))))).
(** impl Deserialize for DateTime<Utc>: what is no date, no time of the day, or goes on after the end, is refused. *)
Definition read_time (s : string) : option Z :=
  '(y, s) ← read_digits 4 0 s; s ← expect "-"%char s;
  '(m, s) ← read_digits 2 0 s; s ← expect "-"%char s;
  '(d, s) ← read_digits 2 0 s; s ← expect "T"%char s;
  '(h, s) ← read_digits 2 0 s; s ← expect ":"%char s;
  '(mi, s) ← read_digits 2 0 s; s ← expect ":"%char s;
  '(sec, s) ← read_digits 2 0 s;
  '(nano, s) ← match s with
    | String "." s' => if undigit (match s' with String c _ => c | EmptyString => "."%char end) then Some (read_fraction 9 s') else None
    | _ => Some (0, s)
    end;
  s ← expect "Z"%char s;
  if (1 <=? m) && (m <=? 12) && (1 <=? d) && (d <=? month_length y m) && (h <=? 23) && (mi <=? 59) && (sec <=? 59)
  then match s with EmptyString => Some ((days_of_civil y m d * 86400 + h * 3600 + mi * 60 + sec) * 10 ^ 9 + nano) | _ => None end
  else None.

(** *** Specification *)
(** From the year 0 to the year 9999. *)
Definition time_ok (t : Z) : Prop := -62167219200 * 10 ^ 9 <= t < 253402300800 * 10 ^ 9.
