(** Model of the textual timestamps: the server-time tag (xirc/xirc.go:43-48)
    and the SQLite column type (database/sqlite.go:26-59). Both use the layout
    "2006-01-02T15:04:05.000Z" in UTC. A time is the number of nanoseconds since
    1 January of year 1, 00:00:00 UTC, Go's zero time. *)
From Verif.Base Require Import Bytes.
From Coq Require Import ZArith.
Open Scope Z_scope.

(** time.isLeap. *)
Definition is_leap (y : Z) : bool := (y mod 4 =? 0) && (negb (y mod 100 =? 0) || (y mod 400 =? 0)).

(** time.daysBefore: days before each month in a non-leap year. *)
Definition days_before (m : Z) : Z :=
  nth (Z.to_nat m) [0; 31; 59; 90; 120; 151; 181; 212; 243; 273; 304; 334; 365] 365.

(** time.absDate (Go standard library): year, month and day of a day number. *)
Definition civil_of_days (d : Z) : Z * Z * Z :=
  let n := d / 146097 in
  let y := 400 * n in
  let d := d - 146097 * n in
  let n := d / 36524 in
  let n := n - n / 4 in
  let y := y + 100 * n in
  let d := d - 36524 * n in
  let n := d / 1461 in
  let y := y + 4 * n in
  let d := d - 1461 * n in
  let n := d / 365 in
  let n := n - n / 4 in
  let y := y + n in
  let d := d - 365 * n in
  let year := y + 1 in
  if is_leap year && (d =? 59) then (year, 2, 29)
  else
    let d := if is_leap year && (59 <? d) then d - 1 else d in
    let month := d / 31 in
    let end_ := days_before (month + 1) in
    let '(month, begin) := if end_ <=? d then (month + 1, end_) else (month, days_before month) in
    (year, month + 1, d - begin + 1).

Definition digit (x : Z) : ascii := ascii_of_N (48 + Z.to_N x).

(** time.appendInt: decimal with [w] digits (for 0 <= x < 10^w). *)
Fixpoint pad (w : nat) (x : Z) : bytes :=
  match w with
  | O => []
  | S w' => pad w' (x / 10) ++ [digit (x mod 10)]
  end.

Definition ns_per_day : Z := 86400 * 1000000000.

(** xirc/xirc.go:46-48 (FormatServerTime), for years 0 to 9999. *)
Definition format_time (t : Z) : bytes :=
  let '(y, m, d) := civil_of_days (t / ns_per_day) in
  let ns := t mod ns_per_day in
  let sec := ns / 1000000000 in
  pad 4 y ++ B "-" ++ pad 2 m ++ B "-" ++ pad 2 d ++ B "T" ++
  pad 2 (sec / 3600) ++ B ":" ++ pad 2 (sec / 60 mod 60) ++ B ":" ++ pad 2 (sec mod 60) ++ B "." ++
  pad 3 (ns mod 1000000000 / 1000000) ++ B "Z".

Definition digit_value (c : ascii) : option Z :=
  if is_digit c then Some (Z.of_N (code c) - 48) else None.

Fixpoint num (s : bytes) (acc : Z) : option Z :=
  match s with
  | [] => Some acc
  | c :: s' => match digit_value c with Some d => num s' (10 * acc + d) | None => None end
  end.

(** Reads a number of [w] digits followed by the separator [sep]. *)
Definition take_num (w : nat) (sep : ascii) (s : bytes) : option (Z * bytes) :=
  match skipn w s with
  | c :: rest => if aeqb c sep then match num (firstn w s) 0 with Some v => Some (v, rest) | None => None end else None
  | [] => None
  end.

(** time.daysIn. *)
Definition days_in (y m : Z) : Z :=
  if (m =? 2) && is_leap y then 29 else days_before m - days_before (m - 1).

(** time.Date: day number of a valid date. *)
Definition days_of_civil (y m d : Z) : Z :=
  let p := y - 1 in
  365 * p + p / 4 - p / 100 + p / 400 + days_before (m - 1) + (if is_leap y && (3 <=? m) then 1 else 0) + d - 1.

(** time.Parse with the layout; Go also accepts an hour of one digit, which the
    formatter never writes. *)
Definition parse_time (s : bytes) : option Z :=
  match take_num 4 "-" s with None => None | Some (y, s) =>
  match take_num 2 "-" s with None => None | Some (m, s) =>
  match take_num 2 "T" s with None => None | Some (d, s) =>
  match take_num 2 ":" s with None => None | Some (hh, s) =>
  match take_num 2 ":" s with None => None | Some (mi, s) =>
  match take_num 2 "." s with None => None | Some (ss, s) =>
  match take_num 3 "Z" s with None => None | Some (ms, s) =>
    if beqb s [] && (1 <=? m) && (m <=? 12) && (1 <=? d) && (d <=? days_in y m)
       && (hh <? 24) && (mi <? 60) && (ss <? 60)
    then Some (days_of_civil y m d * ns_per_day + (((hh * 60 + mi) * 60 + ss) * 1000 + ms) * 1000000)
    else None
  end end end end end end end.

(** database/sqlite.go:54-59 (Value): None is NULL. *)
Definition sqlite_value (t : Z) : option bytes := if t =? 0 then None else Some (format_time t).

(** database/sqlite.go:38-52 (Scan) on NULL or text; the outer None is an error. *)
Definition sqlite_scan (v : option bytes) : option Z :=
  match v with None => Some 0 | Some s => parse_time s end.
