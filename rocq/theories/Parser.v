(* parser/join.go *)
From Verif Require Export Lexer Api.

(* stmt.Join{} *)
Definition zero_table : table := {| t_name := ""; t_alias := ""; t_only := false |}.
Definition zero_join : join := {| j_type := ""; j_table := zero_table; j_cond := ENil |}.

Definition set_type (j : join) (t : string) : join :=
  {| j_type := t; j_table := j_table j; j_cond := j_cond j |}.
Definition set_table (j : join) (t : table) : join :=
  {| j_type := j_type j; j_table := t; j_cond := j_cond j |}.
Definition set_cond (j : join) (c : expr) : join :=
  {| j_type := j_type j; j_table := j_table j; j_cond := c |}.

(* The (Join, error) pair returned by ParseJoin. *)
Definition parsed := (join * option string)%type.

Definition join_error : string := "join condition is invalid".

(* parser/join.go:27-141: the main loop and, when [chain] is true, the AND/OR loop of lines
   79-130, which runs right after a condition and falls back to the main loop. The iterator
   is the list of tokens not yet consumed; Next() on an empty list is an index panic. *)
Fixpoint parse_loop (chain : bool) (toks : list token) (j : join) : res parsed :=
  match toks with
  | [] => Ok (j, None)
  | e :: rest =>
    if chain && (is_type "AND" e || is_type "OR" e) then
      match rest with
      | l :: rest1 =>
        if is_type "Literal" l then
          match rest1 with
          | [] => Panic PIndex
          | q :: rest2 =>
            if is_type "=" q then
              match rest2 with
              | r :: rest3 =>
                if is_type "Literal" r then
                  let o := if is_type "AND" e then "AND" else "OR" in
                  parse_loop true rest3
                    (set_cond j (EInfix (j_cond j) (Some o)
                                   (EOn (lk_column (tk_value l)) (lk_column (tk_value r)))))
                else Ok (zero_join, Some join_error)
              | [] => Ok (zero_join, Some join_error)
              end
            else Ok (zero_join, Some join_error)
          end
        else Ok (zero_join, Some join_error)
      | [] => Ok (zero_join, Some join_error)
      end
    else if is_type "JOIN" e then parse_loop false rest j
    else if is_type "INNER" e || is_type "LEFT" e || is_type "RIGHT" e then
      match rest with
      | n :: rest1 =>
        if is_type "JOIN" n then
          parse_loop false rest1
            (set_type j (if is_type "INNER" e then "INNER JOIN"
                         else if is_type "LEFT" e then "LEFT JOIN" else "RIGHT JOIN"))
        else Ok (j, None)
      | [] => Ok (j, None)
      end
    else if is_type "Literal" e then
      match rest with
      | n :: rest1 =>
        if is_type "ON" n then parse_loop false rest1 (set_table j (lk_table (tk_value e)))
        else if is_type "=" n then
          match rest1 with
          | r :: rest2 =>
            if is_type "Literal" r then
              parse_loop true rest2
                (set_cond j (EOn (lk_column (tk_value e)) (lk_column (tk_value r))))
            else Ok (zero_join, Some join_error)
          | [] => Ok (zero_join, Some join_error)
          end
        else Ok (j, None)
      | [] => Ok (j, None)
      end
    else if is_type "ON" e || is_type "(" e || is_type ")" e then parse_loop false rest j
    else Ok (j, None)
  end.

(* parser/join.go:19-144 ParseJoin *)
Definition parse_join (s : string) : res parsed :=
  parse_loop false (lex s) (set_type zero_join "INNER JOIN").

(* parser/join.go:147-153 MustParseJoin *)
Definition must_parse_join (s : string) : res join :=
  do p <- parse_join s;
  match snd p with
  | None => Ok (fst p)
  | Some m => Panic (PError m)
  end.
