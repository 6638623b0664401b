(* Specification: the proleptic Gregorian calendar, defined by counting days one by one,
   and the instant that a PostgreSQL timestamp literal in UTC denotes. Independent of the
   model. *)
From Verif Require Export Numerals.
Open Scope Z_scope.

(* A date: year, month 1-12, day of the month. *)
Definition date : Type := Z * Z * Z.

Definition leap (y : Z) : bool :=
  (y mod 4 =? 0) && (negb (y mod 100 =? 0) || (y mod 400 =? 0)).

Definition days_in_month (y m : Z) : Z :=
  if m =? 2 then (if leap y then 29 else 28)
  else if (m =? 4) || (m =? 6) || (m =? 9) || (m =? 11) then 30 else 31.

(* The day after a date. *)
Definition next_day (x : date) : date :=
  let '(y, m, d) := x in
  if d <? days_in_month y m then (y, m, d + 1)
  else if m <? 12 then (y, m + 1, 1)
  else (y + 1, 1, 1).

Definition is_date (x : date) : Prop :=
  let '(y, m, d) := x in 1 <= m <= 12 /\ 1 <= d <= days_in_month y m.

(* "on_day n x": the n-th day after 1970-01-01 (before it when n is negative) is x. *)
Inductive on_day : Z -> date -> Prop :=
| on_epoch : on_day 0 (1970, 1, 1)
| on_after n x : on_day n x -> on_day (n + 1) (next_day x)
| on_before n x : is_date x -> on_day (n + 1) (next_day x) -> on_day n x.

(* What a timestamp literal says: date, time of day, microseconds. *)
Record stamp := { st_date : date; st_hour : Z; st_min : Z; st_sec : Z; st_micro : Z }.

(* Reads exactly n characters. *)
Fixpoint take (n : nat) (s : string) : option (string * string) :=
  match n, s with
  | O, _ => Some (""%string, s)
  | S n, String a s => option_map (fun '(x, r) => (String a x, r)) (take n s)
  | S _, EmptyString => None
  end.

(* Exactly n digits, then the given text. *)
Definition field (n : nat) (sep s : string) : option (Z * string) :=
  match take n s with
  | Some (x, r) =>
    match dec_nat x with
    | Some v => if String.prefix sep r
                then Some (Z.of_N v, substring (String.length sep) (String.length r) r) else None
    | None => None
    end
  | None => None
  end.

(* The digits at the head of a text. *)
Fixpoint digits (s : string) : string * string :=
  match s with
  | String a s' =>
    match dec_digit a with
    | Some _ => let (x, r) := digits s' in (String a x, r)
    | None => (""%string, s)
    end
  | EmptyString => (""%string, s)
  end.

(* A fraction of a second, up to six digits, in microseconds. *)
Definition fraction (s : string) : option (Z * string) :=
  match s with
  | String "." s' =>
    let (x, r) := digits s' in
    let k := String.length x in
    if (k =? 0)%nat || (6 <? k)%nat then None
    else match dec_nat x with
         | Some v => Some (Z.of_N v * 10 ^ Z.of_nat (6 - k), r)
         | None => None
         end
  | _ => Some (0, s)
  end.

(* 'YYYY-MM-DD HH:MM:SS[.f]+00'; PostgreSQL has no year 0000. *)
Definition read_stamp (s : string) : option stamp :=
  match s with
  | String "'" s =>
    match field 4 "-" s with Some (y, s) =>
    match field 2 "-" s with Some (m, s) =>
    match field 2 " " s with Some (d, s) =>
    match field 2 ":" s with Some (h, s) =>
    match field 2 ":" s with Some (mi, s) =>
    match field 2 "" s with Some (sec, s) =>
    match fraction s with Some (us, s) =>
      if String.eqb s "+00'" && (1 <=? y)
      then Some {| st_date := (y, m, d); st_hour := h; st_min := mi; st_sec := sec; st_micro := us |}
      else None
    | None => None end | None => None end | None => None end | None => None end
    | None => None end | None => None end | None => None end
  | _ => None
  end.

(* "denotes x us": the stamp is a valid one and the instant it names lies us microseconds
   after the Unix epoch. *)
Definition denotes (x : stamp) (us : Z) : Prop :=
  exists n, on_day n (st_date x) /\ is_date (st_date x)
    /\ 0 <= st_hour x < 24 /\ 0 <= st_min x < 60 /\ 0 <= st_sec x < 60 /\ 0 <= st_micro x < 1000000
    /\ us = (((n * 24 + st_hour x) * 60 + st_min x) * 60 + st_sec x) * 1000000 + st_micro x.
