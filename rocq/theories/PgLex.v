(* Specification: how PostgreSQL reads quoted identifiers and string constants
   (documentation, section 4.1 "Lexical Structure"). Independent of the model. *)
From Verif Require Export GoStr.

Definition dquote : ascii := """"%char.
Definition squote : ascii := "'"%char.
Definition backslash : ascii := "\"%char.
Definition dot : ascii := "."%char.

(* The inside of a quoted identifier, after the opening double quote: everything up to the
   first double quote that is not doubled. Returns the identifier and the rest of the text. *)
Fixpoint pg_ident_body (s : string) : option (string * string) :=
  match s with
  | EmptyString => None
  | String a s1 =>
    if Ascii.eqb a dquote then
      match s1 with
      | String b s2 =>
        if Ascii.eqb b dquote then
          match pg_ident_body s2 with
          | Some (i, rest) => Some (String dquote i, rest)
          | None => None
          end
        else Some ("", s1)
      | EmptyString => Some ("", "")
      end
    else match pg_ident_body s1 with
         | Some (i, rest) => Some (String a i, rest)
         | None => None
         end
  end.

(* One quoted identifier: zero-length identifiers are an error. *)
Definition pg_ident (s : string) : option (string * string) :=
  match s with
  | String a s1 =>
    if Ascii.eqb a dquote then
      match pg_ident_body s1 with
      | Some ("", _) => None
      | r => r
      end
    else None
  | EmptyString => None
  end.

(* A dotted name: ident ( "." ident )*. The first argument bounds the number of parts. *)
Fixpoint pg_name_fuel (n : nat) (s : string) : option (list string * string) :=
  match n with
  | O => None
  | S n' =>
    match pg_ident s with
    | None => None
    | Some (i, rest) =>
      match rest with
      | String a rest1 =>
        if Ascii.eqb a dot then
          match pg_name_fuel n' rest1 with
          | Some (is, rest2) => Some (i :: is, rest2)
          | None => None
          end
        else Some ([i], rest)
      | EmptyString => Some ([i], "")
      end
    end
  end.
Definition pg_name (s : string) : option (list string * string) := pg_name_fuel (String.length s) s.

(* Text that does not continue a name: empty, or starting with neither a dot nor a quote. *)
Definition ends_name (s : string) : bool :=
  match s with
  | EmptyString => true
  | String a _ => negb (Ascii.eqb a dot) && negb (Ascii.eqb a dquote)
  end.

(* ------------------------------------------------------------------------- *)
(* String constants                                                            *)
(* ------------------------------------------------------------------------- *)

(* The C-style escapes used here; any other escaped character stands for itself. *)
Definition unescape (a : ascii) : ascii :=
  (if Ascii.eqb a "n" then "010"
   else if Ascii.eqb a "r" then "013"
   else if Ascii.eqb a "t" then "009"
   else if Ascii.eqb a "b" then "008"
   else if Ascii.eqb a "f" then "012"
   else a)%char.

(* The inside of a string constant, after the opening quote. [esc] tells whether a backslash
   is an escape character (escape string constants, or standard_conforming_strings = off) or
   an ordinary character (standard_conforming_strings = on, the default since 9.1). *)
Fixpoint pg_string_body (esc : bool) (s : string) : option (string * string) :=
  match s with
  | EmptyString => None
  | String a s1 =>
    if Ascii.eqb a squote then
      match s1 with
      | String b s2 =>
        if Ascii.eqb b squote then
          match pg_string_body esc s2 with
          | Some (t, rest) => Some (String squote t, rest)
          | None => None
          end
        else Some ("", s1)
      | EmptyString => Some ("", "")
      end
    else if esc && Ascii.eqb a backslash then
      match s1 with
      | String b s2 =>
        match pg_string_body esc s2 with
        | Some (t, rest) => Some (String (unescape b) t, rest)
        | None => None
        end
      | EmptyString => None
      end
    else match pg_string_body esc s1 with
         | Some (t, rest) => Some (String a t, rest)
         | None => None
         end
  end.

(* A string constant and the rest of the text. *)
Definition pg_string (esc : bool) (s : string) : option (string * string) :=
  match s with
  | String a s1 => if Ascii.eqb a squote then pg_string_body esc s1 else None
  | EmptyString => None
  end.

(* Text that does not continue a string constant. *)
Definition ends_string (s : string) : bool :=
  match s with EmptyString => true | String a _ => negb (Ascii.eqb a squote) end.
