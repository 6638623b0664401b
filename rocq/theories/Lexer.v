(* Lexer and token table. *)
From Verif Require Export Ast.

(* token/token.go:9, 82-85. A token.Type is a string in the code as well. *)
Record token := { tk_type : string; tk_value : string }.

Definition is_type (ty : string) (t : token) : bool := String.eqb (tk_type t) ty.

(* token/token.go:91-131: each keyword maps to the type spelled the same way. *)
Definition keywords : list string :=
  ["SELECT"; "UPDATE"; "INSERT"; "DELETE"; "FROM"; "WHERE"; "AND"; "OR"; "LIMIT"; "OFFSET";
   "SET"; "AS"; "INNER"; "CROSS"; "LEFT"; "RIGHT"; "JOIN"; "ON"; "GROUP"; "BY"; "HAVING";
   "ORDER"; "DISTINCT"; "DISTINCT ON"; "ONLY"; "USING"; "RETURNING"; "VALUES"; "INTO";
   "CONFLICT"; "DO"; "NOTHING"; "WITH"; "NOT"; "EXISTS"; "COUNT"; "MAX"; "MIN"; "SUM"].

(* token/token.go:134-141 Lookup *)
Definition lookup (e : string) : string :=
  let n := to_upper e in
  if existsb (String.eqb n) keywords then n else "Literal".

(* lexer/lexer.go:189-199 *)
Definition is_letter (r : N) : bool :=
  (between 97 122 r || between 65 90 r || (r =? 95) || (r =? 46))%N.
Definition is_whitespace (r : N) : bool := ((r =? 32) || (r =? 9) || (r =? 10) || (r =? 13))%N.
Definition is_digit (r : N) : bool := between 48 57 r.
Definition is_word (r : N) : bool := is_letter r || is_digit r.

(* lexer/lexer.go:119-145 getOperatorToken and getDelimiterToken: the type is the
   character itself *)
Definition symbol (r : N) : option string :=
  (if r =? 42 then Some "*"
   else if r =? 61 then Some "="
   else if r =? 59 then Some ";"
   else if r =? 44 then Some ","
   else if r =? 58 then Some ":"
   else if r =? 40 then Some "("
   else if r =? 41 then Some ")"
   else None)%N.

(* lexer/lexer.go:177-187 readIdentifier: the word and the rest of the input *)
Fixpoint read_word (rs : list N) : list N * list N :=
  match rs with
  | r :: rs' => if is_word r then let (w, rest) := read_word rs' in (r :: w, rest) else ([], rs)
  | [] => ([], [])
  end.

(* string(buffer) of a slice of runes *)
Definition string_of_runes (rs : list N) : string := concat_str (map encode_rune rs).

(* lexer/lexer.go:82-105 Next, on the list of runes not yet consumed (the two-rune window
   e0/en of the code is the front of the list; rune 0 is the end-of-file sentinel, so a NUL
   in the input ends it). None is the EOF token. *)
Definition lex_next (rs : list N) : option (token * list N) :=
  match drop_while is_whitespace rs with
  | [] => None
  | r :: rest =>
    if (r =? 0)%N then None
    (* line 90: unreachable, a newline is white space *)
    else if (r =? 10)%N then Some ({| tk_type := ";"; tk_value := ";" |}, rest)
    else match symbol r with
         | Some s => Some ({| tk_type := s; tk_value := s |}, rest)
         | None =>
           if is_word r then
             let (word, rest') := read_word (r :: rest) in
             let v := string_of_runes word in
             Some ({| tk_type := lookup v; tk_value := v |}, rest')
           else Some ({| tk_type := "Illegal"; tk_value := encode_rune r |}, rest)
         end
  end.

(* lexer/lexer.go:69-79 Iterator. The fuel bounds the number of tokens; [lex] gives one
   unit per rune, which is always enough (Lexer proofs: lex_fuel). *)
Fixpoint lex_all (fuel : nat) (rs : list N) : list token :=
  match fuel with
  | O => []
  | S fuel' =>
    match lex_next rs with
    | None => []
    | Some (t, rest) => t :: lex_all fuel' rest
    end
  end.

(* lexer.New(strings.NewReader(s)).Iterator() *)
Definition lex (s : string) : list token := lex_all (length (runes s)) (runes s).
