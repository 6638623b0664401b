(* Literals printed by String(): package format. *)
From Verif Require Export Quote.

(* format/format.go:70-91 String, one rune. *)
Definition format_rune (r : N) : string :=
  (if r =? 39 then "\'"
   else if r =? 92 then "\\"
   else if r =? 10 then "\n"
   else if r =? 13 then "\r"
   else if r =? 9 then "\t"
   else encode_rune r)%N.

(* format/format.go:70-91 String. Ranging over a string yields U+FFFD for a bad byte. *)
Definition format_string (s : string) : string :=
  "'" ++ concat_str (map format_rune (runes s)) ++ "'".

(* format/format.go:94-97 Bytes *)
Definition format_bytes (s : string) : string := "decode('" ++ hex_encode s ++ "', 'hex')".

(* format/format.go:100-107 Int and Uint *)
Definition format_int (z : Z) : string := string_of_Z z.

(* format/format.go:110-112 Bool *)
Definition format_bool (b : bool) : string := if b then "true" else "false".

(* Go time.appendInt: decimal, padded with zeros to the given width. *)
Fixpoint zeros (n : nat) : string := match n with O => "" | S n' => "0" ++ zeros n' end.
Definition pad_N (width : nat) (n : N) : string :=
  let t := string_of_N n in zeros (width - String.length t) ++ t.
Definition pad_Z (width : nat) (z : Z) : string :=
  (if (z <? 0)%Z then "-" else "") ++ pad_N width (Z.abs_N z).

(* Go time.Time.Date in UTC: civil date of a day count since 1970-01-01 (proleptic
   Gregorian calendar). *)
Definition civil_of_days (d : Z) : Z * Z * Z :=
  (let z := d + 719468 in
   let era := z / 146097 in
   let doe := z - era * 146097 in
   let yoe := (doe - doe / 1460 + doe / 36524 - doe / 146096) / 365 in
   let doy := doe - (365 * yoe + yoe / 4 - yoe / 100) in
   let mp := (5 * doy + 2) / 153 in
   let day := doy - (153 * mp + 2) / 5 + 1 in
   let month := if mp <? 10 then mp + 3 else mp - 9 in
   let year := yoe + era * 400 + (if month <=? 2 then 1 else 0) in
   (year, month, day))%Z.

(* Drop trailing zeros of a digit string. *)
Fixpoint trim_zeros (s : string) : string :=
  match s with
  | EmptyString => ""
  | String a s' =>
    match trim_zeros s' with
    | EmptyString => if Ascii.eqb a "0" then "" else str1 a
    | t => String a t
    end
  end.

(* Go time.formatNano for the layout element ".999999": six digits, truncated, trailing
   zeros removed, nothing when zero. *)
Definition format_micro (nsec : Z) : string :=
  match trim_zeros (pad_N 6 (Z.to_N (nsec / 1000)%Z)) with
  | EmptyString => ""
  | t => "." ++ t
  end.

(* format/format.go:120-122 Time: layout "2006-01-02 15:04:05.999999" in UTC. *)
Definition format_time (t : gtime) : string :=
  (let days := tm_sec t / 86400 in
   let tod := tm_sec t mod 86400 in
   let '(y, m, d) := civil_of_days days in
   "'" ++ pad_Z 4 y ++ "-" ++ pad_Z 2 m ++ "-" ++ pad_Z 2 d ++ " "
   ++ pad_Z 2 (tod / 3600)%Z ++ ":" ++ pad_Z 2 ((tod / 60) mod 60)%Z ++ ":" ++ pad_Z 2 (tod mod 60)%Z
   ++ format_micro (tm_nsec t) ++ "+00'")%Z%string.

Section Format.
  Context {O : Oracle}.

  (* format/format.go:14-67 Value *)
  Fixpoint format_value (v : gval) : res string :=
    match v with
    | GNil => Ok "NULL"
    | GStr s => Ok (format_string s)
    | GBytes s => Ok (format_bytes s)
    | GTime t => Ok (format_time t)
    | GNilValuer => Ok "NULL"
    | GValuerErr => Panic (PMsg "loukoum: was not able to retrieve valuer value")
    | GValuer v' => format_value v'
    | GInt _ z => Ok (format_int z)
    | GBool b => Ok (format_bool b)
    | GFloat _ f => Ok (o_float f)
    | _ => Ok (o_sprint v)
    end.
End Format.
