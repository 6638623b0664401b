(* Specification: the number that a decimal numeral denotes, the bytes that a hexadecimal
   string denotes. Independent of the model. *)
From Verif Require Export GoStr.

Definition dec_digit (a : ascii) : option N :=
  let n := N_of_ascii a in if ((48 <=? n) && (n <=? 57))%N then Some (n - 48)%N else None.

(* A sequence of digits, after a prefix of value acc. *)
Fixpoint dec_digits (acc : N) (s : string) : option N :=
  match s with
  | EmptyString => Some acc
  | String a s' => match dec_digit a with Some d => dec_digits (10 * acc + d) s' | None => None end
  end.
Definition dec_nat (s : string) : option N :=
  match s with EmptyString => None | _ => dec_digits 0 s end.

(* An optional minus sign and digits. *)
Definition dec_value (s : string) : option Z :=
  match s with
  | String a s' =>
    if Ascii.eqb a "-" then option_map (fun n => (- Z.of_N n)%Z) (dec_nat s')
    else option_map Z.of_N (dec_nat s)
  | EmptyString => None
  end.

Definition hex_value (a : ascii) : option N :=
  let n := N_of_ascii a in
  if ((48 <=? n) && (n <=? 57))%N then Some (n - 48)%N
  else if ((97 <=? n) && (n <=? 102))%N then Some (n - 87)%N else None.

(* Two hexadecimal digits per byte. *)
Fixpoint unhex_bytes (s : string) : option string :=
  match s with
  | EmptyString => Some ""
  | String a (String b s') =>
    match hex_value a, hex_value b, unhex_bytes s' with
    | Some h, Some l, Some t => Some (String (ascii_of_N (16 * h + l)) t)
    | _, _, _ => None
    end
  | _ => None
  end.
