(* Specification: how a join clause is written, and what it means. *)
From Verif Require Export Scan Sql.

(* A table or column name: letters, digits, '_' and '.', and not a keyword. *)
Definition name (w : string) : Prop := lexeme_ok (Word w) /\ ~ In (to_upper w) sql_words.

(* A keyword in any letter case. *)
Definition spells (w keyword : string) : Prop := to_upper w = keyword.

(* left = right *)
Record equality := { eq_left : string; eq_right : string }.
Inductive conn := AndC | OrC.
Definition conn_word (o : conn) : string := match o with AndC => "AND" | OrC => "OR" end.

Inductive writes_type : list lexeme -> string -> Prop :=
| type_none : writes_type [] "INNER JOIN"
| type_join w : spells w "JOIN" -> writes_type [Word w] "INNER JOIN"
| type_inner w1 w2 : spells w1 "INNER" -> spells w2 "JOIN" -> writes_type [Word w1; Word w2] "INNER JOIN"
| type_left w1 w2 : spells w1 "LEFT" -> spells w2 "JOIN" -> writes_type [Word w1; Word w2] "LEFT JOIN"
| type_right w1 w2 : spells w1 "RIGHT" -> spells w2 "JOIN" -> writes_type [Word w1; Word w2] "RIGHT JOIN".

Definition writes_equality (ls : list lexeme) (e : equality) : Prop :=
  ls = [Word (eq_left e); Sym "="; Word (eq_right e)] /\ name (eq_left e) /\ name (eq_right e).

(* AND l = r OR l = r ... *)
Inductive writes_links : list lexeme -> list (conn * equality) -> Prop :=
| links_none : writes_links [] []
| links_some w o le e ls rest : spells w (conn_word o) -> writes_equality le e ->
    writes_links ls rest -> writes_links (Word w :: le ++ ls)%list ((o, e) :: rest).

(* l = r AND l = r ..., the whole in parentheses or not *)
Inductive writes_condition : list lexeme -> equality -> list (conn * equality) -> Prop :=
| condition_plain le e ls rest : writes_equality le e -> writes_links ls rest ->
    writes_condition (le ++ ls)%list e rest
| condition_parens ls e rest : writes_condition ls e rest ->
    writes_condition (Sym "(" :: ls ++ [Sym ")"])%list e rest.

Inductive writes_end : list lexeme -> Prop := end_none : writes_end [] | end_semicolon : writes_end [Sym ";"].

(* [LEFT | RIGHT | INNER] JOIN table ON condition [;] *)
Inductive writes_join : list lexeme -> string -> string -> equality -> list (conn * equality) -> Prop :=
| join_written lt ty t w lc e rest ln : writes_type lt ty -> name t -> spells w "ON" ->
    writes_condition lc e rest -> writes_end ln ->
    writes_join (lt ++ Word t :: Word w :: lc ++ ln)%list ty t e rest.

(* [ON] condition [;], for the calls that are given the table apart *)
Inductive writes_on : list lexeme -> equality -> list (conn * equality) -> Prop :=
| on_written_bare lc e rest ln : writes_condition lc e rest -> writes_end ln ->
    writes_on (lc ++ ln)%list e rest
| on_written w lc e rest ln : spells w "ON" -> writes_condition lc e rest -> writes_end ln ->
    writes_on (Word w :: lc ++ ln)%list e rest.

(* The condition: from the left, whatever the operators are. *)
Definition on_equality (e : equality) : expr :=
  EOn {| c_name := eq_left e; c_alias := "" |} {| c_name := eq_right e; c_alias := "" |}.
Definition on_condition (e : equality) (rest : list (conn * equality)) : expr :=
  fold_left (fun x oe => EInfix x (Some (conn_word (fst oe))) (on_equality (snd oe))) rest (on_equality e).

Definition join_of (ty t : string) (e : equality) (rest : list (conn * equality)) : join :=
  {| j_type := ty; j_table := {| t_name := t; t_alias := ""; t_only := false |};
     j_cond := on_condition e rest |}.

(* Its SQL. *)
Definition dotted (n : string) : string :=
  join_with "." (map (fun p => dq ++ p ++ dq)%string (split_on "." n)).
Definition equality_text (e : equality) : string := dotted (eq_left e) ++ " = " ++ dotted (eq_right e).
Definition condition_text (e : equality) (rest : list (conn * equality)) : string :=
  fold_left (fun x oe => "(" ++ x ++ " " ++ conn_word (fst oe) ++ " " ++ equality_text (snd oe) ++ ")")%string
    rest (equality_text e).

(* The names and the type of a join come from the text. *)
Fixpoint on_names (e : expr) : list string :=
  match e with
  | EOn l r => [c_name l; c_name r]
  | EInfix a _ b => (on_names a ++ on_names b)%list
  | _ => []
  end.

(* The literal words of a list of tokens. *)
Definition literals (ts : list token) : list string :=
  map tk_value (filter (fun t => String.eqb (tk_type t) "Literal") ts).

Inductive subsequence {A} : list A -> list A -> Prop :=
| sub_nil l : subsequence [] l
| sub_keep x k l : subsequence k l -> subsequence (x :: k) (x :: l)
| sub_skip x k l : subsequence k l -> subsequence k (x :: l).

(* What a condition means to PostgreSQL, given the truth of each equality: AND binds tighter
   than OR. *)
Fixpoint sql_meaning (v : equality -> bool) (first : bool) (rest : list (conn * equality)) : bool :=
  match rest with
  | [] => first
  | (AndC, e) :: rest' => sql_meaning v (first && v e) rest'
  | (OrC, e) :: rest' => first || sql_meaning v (v e) rest'
  end.

(* What the parenthesised condition of a join means. *)
Fixpoint on_meaning (v : equality -> bool) (e : expr) : bool :=
  match e with
  | EOn l r => v {| eq_left := c_name l; eq_right := c_name r |}
  | EInfix a (Some o) b =>
    if String.eqb o "AND" then on_meaning v a && on_meaning v b else on_meaning v a || on_meaning v b
  | _ => false
  end.

(* No AND comes after an OR. *)
Fixpoint ands_first (seen_or : bool) (rest : list (conn * equality)) : bool :=
  match rest with
  | [] => true
  | (AndC, _) :: rest' => negb seen_or && ands_first seen_or rest'
  | (OrC, _) :: rest' => ands_first true rest'
  end.
