(* Specification: how a text is cut into words and symbols. *)
From Verif Require Export Lexer.

(* White space, and the characters of words. *)
Definition codes (s : string) : list N := map byte (list_ascii_of_string s).
Definition blank_rune (r : N) : Prop := In r [9; 10; 13; 32]%N.
Definition word_rune (r : N) : Prop :=
  In r (codes "abcdefghijklmnopqrstuvwxyzABCDEFGHIJKLMNOPQRSTUVWXYZ0123456789_.").
Definition symbol_rune (r : N) : Prop := In r (codes "*=;,:()").

(* The keywords. *)
Definition sql_words : list string :=
  split_on " " ("SELECT UPDATE INSERT DELETE FROM WHERE AND OR LIMIT OFFSET SET AS INNER CROSS "
   ++ "LEFT RIGHT JOIN ON GROUP BY HAVING ORDER DISTINCT ONLY USING RETURNING VALUES INTO "
   ++ "CONFLICT DO NOTHING WITH NOT EXISTS COUNT MAX MIN SUM").

(* A word is a keyword when its upper-case form is one; any other word is a literal. *)
Definition word_token (w : string) (t : token) : Prop :=
  tk_value t = w
  /\ (In (to_upper w) sql_words -> tk_type t = to_upper w)
  /\ (~ In (to_upper w) sql_words -> tk_type t = "Literal"%string).

(* The tokens of a text given by its characters. A word is as long as possible. *)
Inductive scan : list N -> list token -> Prop :=
| scan_end : scan [] []
| scan_blank r rs ts : blank_rune r -> scan rs ts -> scan (r :: rs) ts
| scan_symbol r rs ts : symbol_rune r -> scan rs ts ->
    scan (r :: rs) ({| tk_type := encode_rune r; tk_value := encode_rune r |} :: ts)
| scan_word w rs t ts : w <> [] -> Forall word_rune w ->
    match rs with r :: _ => ~ word_rune r | [] => True end ->
    word_token (concat_str (map encode_rune w)) t -> scan rs ts ->
    scan (w ++ rs)%list (t :: ts)
| scan_other r rs ts : ~ blank_rune r -> ~ symbol_rune r -> ~ word_rune r -> scan rs ts ->
    scan (r :: rs) ({| tk_type := "Illegal"; tk_value := encode_rune r |} :: ts).

Definition no_nul (s : string) : Prop := ~ In "000"%char (list_ascii_of_string s).
Definition blanks (s : string) : Prop := Forall (fun a => blank_rune (byte a)) (list_ascii_of_string s).

(* The text without its white space. *)
Definition blank_byte (a : ascii) : bool := existsb (N.eqb (byte a)) [9; 10; 13; 32]%N.
Definition without_blanks (s : string) : string :=
  string_of_list_ascii (filter (fun a => negb (blank_byte a)) (list_ascii_of_string s)).

(* The text with every byte that is not part of a well-formed UTF-8 sequence replaced by the
   three bytes of U+FFFD. *)
Definition scrubbed (s : string) : string :=
  concat_str (map (fun c => match c with
                            | CRune _ bs => bs
                            | CBad _ => String "239" (String "191" (str1 "189"))
                            end) (chunks s)).

(* ------------------------------------------------------------------------- *)
(* Text laid out with white space                                             *)
(* ------------------------------------------------------------------------- *)

Inductive lexeme := Word (w : string) | Sym (a : ascii).
Definition lexeme_text (p : lexeme) : string := match p with Word w => w | Sym a => str1 a end.
Definition is_word_lexeme (p : lexeme) : bool := match p with Word _ => true | _ => false end.
Definition lexeme_ok (p : lexeme) : Prop :=
  match p with
  | Word w => w <> ""%string /\ Forall (fun a => word_rune (byte a)) (list_ascii_of_string w)
  | Sym a => symbol_rune (byte a)
  end.
Definition lexeme_token (p : lexeme) (t : token) : Prop :=
  match p with
  | Word w => word_token w t
  | Sym a => t = {| tk_type := str1 a; tk_value := str1 a |}
  end.

(* s is the lexemes in order with white space before, between and after them. There is some
   between two words. *)
Inductive layout : bool -> list lexeme -> string -> Prop :=
| layout_end after_word g : blanks g -> layout after_word [] g
| layout_lexeme after_word g p ps s : blanks g -> lexeme_ok p ->
    (after_word = true -> is_word_lexeme p = true -> g <> ""%string) ->
    layout (is_word_lexeme p) ps s ->
    layout after_word (p :: ps) (g ++ lexeme_text p ++ s)%string.
