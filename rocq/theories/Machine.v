(* The lexer as the code has it: a window of two runes over a reader. [Lexer.v] describes the
   same lexer as a function on the list of runes; LexerP.v proves that they agree.

   Loops take a number of steps; C30 proves that the steps given are always enough. *)
From Verif Require Export Lexer.

(* lexer/lexer.go:18-21 Lexer. The reader is the list of runes it has yet to deliver. *)
Record lexer := { l_input : list N; l_e0 : N; l_en : N }.

(* lexer/lexer.go:38-55 read; the end of the input reads as rune 0 (eof) *)
Definition l_read (l : lexer) : lexer :=
  match l_input l with
  | [] => {| l_input := []; l_e0 := l_en l; l_en := 0 |}
  | e :: rest => {| l_input := rest; l_e0 := l_en l; l_en := e |}
  end.

(* lexer/lexer.go:24-36 New *)
Definition l_new (s : string) : lexer :=
  l_read (l_read {| l_input := runes s; l_e0 := 0; l_en := 0 |}).

(* lexer/lexer.go:58-60 current *)
Definition l_current (l : lexer) : N := l_e0 l.

(* lexer/lexer.go:107-117 getToken: the token, and the lexer after the deferred read *)
Definition l_token (ty : string) (l : lexer) : token * lexer :=
  ({| tk_type := ty;
      tk_value := if String.eqb ty "EOF" then "" else if String.eqb ty ";" then ";"
                  else encode_rune (l_current l) |}, l_read l).

(* lexer/lexer.go:171-175 skipWhitespace *)
Fixpoint l_skip (n : nat) (l : lexer) : option lexer :=
  if is_whitespace (l_current l)
  then match n with O => None | S n' => l_skip n' (l_read l) end
  else Some l.

(* lexer/lexer.go:177-187 readIdentifier: the runes of the buffer *)
Fixpoint l_identifier (n : nat) (l : lexer) : option (list N * lexer) :=
  if is_letter (l_current l) || is_digit (l_current l)
  then match n with
       | O => None
       | S n' => match l_identifier n' (l_read l) with
                 | Some (buffer, l') => Some (l_current l :: buffer, l')
                 | None => None
                 end
       end
  else Some ([], l).

(* lexer/lexer.go:82-169 Next, getOperatorToken, getDelimiterToken, getDefaultToken,
   getIdentifier *)
Definition l_next (n : nat) (l0 : lexer) : option (token * lexer) :=
  match l_skip n l0 with
  | None => None
  | Some l =>
    let c := l_current l in
    if (c =? 0)%N then Some (l_token "EOF" l)
    else if (c =? 10)%N then Some (l_token ";" l)
    else if (c =? 42)%N then Some (l_token "*" l)
    else if (c =? 61)%N then Some (l_token "=" l)
    else if (c =? 59)%N then Some (l_token ";" l)
    else if (c =? 44)%N then Some (l_token "," l)
    else if (c =? 58)%N then Some (l_token ":" l)
    else if (c =? 40)%N then Some (l_token "(" l)
    else if (c =? 41)%N then Some (l_token ")" l)
    else if is_letter c || is_digit c then
      match l_identifier n l with
      | None => None
      | Some (buffer, l') =>
        let v := string_of_runes buffer in
        Some ({| tk_type := lookup v; tk_value := v |}, l')
      end
    else Some (l_token "Illegal" l)
  end.

(* lexer/lexer.go:69-79 Iterator *)
Fixpoint l_iterator (n k : nat) (l : lexer) : option (list token) :=
  match l_next n l with
  | None => None
  | Some (t, l') =>
    if String.eqb (tk_type t) "EOF" then Some []
    else match k with
         | O => None
         | S k' => match l_iterator n k' l' with Some ts => Some (t :: ts) | None => None end
         end
  end.
