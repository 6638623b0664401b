(* Specification for C21, C22 and C43: the integer an argument stands for, the items of a
   comma-separated string, white space around a string. *)
From Verif Require Export Ast Numerals.

(* The integer that a well-typed argument stands for: its value, or the value of a decimal
   numeral with an optional sign. *)
Definition signed_value (s : string) : option Z :=
  match s with
  | String a s' => if Ascii.eqb a "+" then option_map Z.of_N (dec_nat s') else dec_value s
  | EmptyString => None
  end.
Definition int_value (g : gval) : option Z :=
  match g with
  | GInt _ z => Some z
  | GStr s => signed_value s
  | GLimit z | GOffset z => Some z
  | _ => None
  end.

(* A Go value: an integer is in the range of its type. *)
Definition typed (g : gval) : Prop :=
  match g with
  | GInt k z => int_ok k z = true
  | GLimit z | GOffset z => int_ok KInt64 z = true
  | _ => True
  end.

(* What lies between the commas. *)
Definition comma_items (s : string) (items : list string) : Prop :=
  items <> [] /\ join_with "," items = s
  /\ Forall (fun i => ~ In ","%char (list_ascii_of_string i)) items.

(* t is s without the white space around it. *)
Definition trimmed (s t : string) : Prop :=
  exists before inner after,
    chunks s = (before ++ inner ++ after)%list
    /\ Forall (fun c => chunk_space c = true) before
    /\ Forall (fun c => chunk_space c = true) after
    /\ (forall c l, inner = c :: l -> chunk_space c = false)
    /\ (forall c l, inner = (l ++ [c])%list -> chunk_space c = false)
    /\ t = concat_str (map chunk_bytes inner).
