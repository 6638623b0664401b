(* Specification: reading the SQL of a statement together with its arguments.

   A tokenizer for SQL text, in which a placeholder $i stands for the i-th argument and :x for
   the argument named x, and a recursive-descent parser for SELECT, INSERT, UPDATE and DELETE.
   Independent of the model: it reads text only. The character classes, dec_digit,
   unhex_bytes and unescape come from Cond.v, Numerals.v and PgLex.v, which are specifications
   too. *)
From Verif Require Export Cond Ast Numerals.

(* What is known besides the text: the arguments by position, the arguments by name, and
   whether a backslash is an escape in a string literal (standard_conforming_strings = off)
   or an ordinary character (on). *)
Record env := { by_number : list gval; by_name : list (string * gval); escapes : bool }.
Definition numbered (vs : list gval) : env := {| by_number := vs; by_name := []; escapes := false |}.
Definition named (vs : list (string * gval)) : env := {| by_number := []; by_name := vs; escapes := false |}.
Definition no_args (escapes : bool) : env := {| by_number := []; by_name := []; escapes := escapes |}.

Fixpoint argument (x : string) (l : list (string * gval)) : option gval :=
  match l with
  | [] => None
  | (y, v) :: l' => if String.eqb x y then Some v else argument x l'
  end.

(* ------------------------------------------------------------------------- *)
(* Tokens                                                                      *)
(* ------------------------------------------------------------------------- *)

Inductive lexeme :=
| KName (parts : list string)     (* "a"."b" *)
| KWord (s : string)              (* SELECT, id, users.id: unquoted, dots included *)
| KNum (n : N)                    (* 10 *)
| KVal (v : gval)                 (* $1 or :x, with its argument; 'abc', with its string *)
| KOp (s : string)                (* =, <=, &&, * ... *)
| KOpen | KClose | KComma | KSemi.

(* What has been read of the current token. *)
Inductive lstate :=
| L0                                         (* nothing *)
| LWord (s : string)
| LNum (n : N)
| LVar (n : option N)                        (* after $ *)
| LArg (s : string)                          (* after : *)
| LOp (s : string)
| LQuote (done : list string) (s : string)   (* inside double quotes *)
| LQuoted (done : list string) (s : string)  (* after a double quote inside double quotes *)
| LDot (done : list string)                  (* after the dot that follows a quoted part *)
| LStr (s : string)                          (* inside single quotes *)
| LEsc (s : string)                          (* after a backslash inside single quotes *)
| LStrEnd (s : string)                       (* after a single quote inside single quotes *)
| LDash                                      (* after - *)
| LComment.                                  (* after -- *)

Definition word_char (a : ascii) : bool := is_alnum a || Ascii.eqb a ".".
Definition newline (a : ascii) : bool := Ascii.eqb a "010" || Ascii.eqb a "013".

Section Lexer.
  Context (E : env).

  (* The token that ends here. *)
  Definition flush (st : lstate) : option (list lexeme) :=
    match st with
    | L0 | LComment => Some []
    | LWord s => Some [KWord s]
    | LNum n => Some [KNum n]
    | LVar (Some n) =>
      if (n =? 0)%N then None
      else match nth_error (by_number E) (N.to_nat n - 1) with Some v => Some [KVal v] | None => None end
    | LVar None => None
    | LArg s => match argument s (by_name E) with Some v => Some [KVal v] | None => None end
    | LOp s => Some [KOp s]
    | LQuoted done s => if String.eqb s "" then None else Some [KName (done ++ [s])]
    | LStrEnd s => Some [KVal (GStr s)]
    | LQuote _ _ | LDot _ | LStr _ | LEsc _ => None
    | LDash => Some [KOp "-"]
    end.

  (* The first character of a token. *)
  Definition start (a : ascii) : option (list lexeme * lstate) :=
    if is_blank a then Some ([], L0)
    else if Ascii.eqb a "(" then Some ([KOpen], L0)
    else if Ascii.eqb a ")" then Some ([KClose], L0)
    else if Ascii.eqb a "," then Some ([KComma], L0)
    else if Ascii.eqb a ";" then Some ([KSemi], L0)
    else if Ascii.eqb a dquote then Some ([], LQuote [] "")
    else if Ascii.eqb a squote then Some ([], LStr "")
    else if Ascii.eqb a "$" then Some ([], LVar None)
    else if Ascii.eqb a ":" then Some ([], LArg "")
    else if Ascii.eqb a "-" then Some ([], LDash)
    else if is_alpha a then Some ([], LWord (String a ""))
    else if is_opchar a then Some ([], LOp (String a ""))
    else match dec_digit a with Some d => Some ([], LNum d) | None => None end.

  (* The current token ends before a. *)
  Definition cut (st : lstate) (a : ascii) : option (list lexeme * lstate) :=
    match flush st, start a with
    | Some x, Some (y, st') => Some ((x ++ y)%list, st')
    | _, _ => None
    end.

  Definition advance (st : lstate) (a : ascii) : option (list lexeme * lstate) :=
    match st with
    | L0 => start a
    | LWord s => if word_char a then Some ([], LWord (s ++ String a "")) else cut st a
    | LNum n => match dec_digit a with Some d => Some ([], LNum (10 * n + d)%N) | None => cut st a end
    | LVar n =>
      match dec_digit a with
      | Some d => Some ([], LVar (Some (10 * match n with Some m => m | None => 0 end + d)%N))
      | None => cut st a
      end
    | LArg s => if is_alnum a then Some ([], LArg (s ++ String a "")) else cut st a
    | LOp s => if is_opchar a then Some ([], LOp (s ++ String a "")) else cut st a
    | LQuote done s =>
      if Ascii.eqb a dquote then Some ([], LQuoted done s) else Some ([], LQuote done (s ++ String a ""))
    | LQuoted done s =>
      if Ascii.eqb a dquote then Some ([], LQuote done (s ++ String dquote ""))
      else if Ascii.eqb a dot then (if String.eqb s "" then None else Some ([], LDot (done ++ [s])))
      else cut st a
    | LDot done => if Ascii.eqb a dquote then Some ([], LQuote done "") else None
    | LStr s =>
      if Ascii.eqb a squote then Some ([], LStrEnd s)
      else if Ascii.eqb a backslash && escapes E then Some ([], LEsc s)
      else Some ([], LStr (s ++ String a ""))
    | LEsc s => Some ([], LStr (s ++ String (unescape a) ""))
    | LStrEnd s => if Ascii.eqb a squote then Some ([], LStr (s ++ String squote "")) else cut st a
    | LDash =>
      if Ascii.eqb a "-" then Some ([], LComment)
      else if is_opchar a then Some ([], LOp (String "-" (String a ""))) else cut st a
    | LComment => if newline a then Some ([], L0) else Some ([], LComment)
    end.

  Fixpoint tokens_from (st : lstate) (s : string) : option (list lexeme * lstate) :=
    match s with
    | EmptyString => Some ([], st)
    | String a s' =>
      match advance st a with
      | Some (x, st1) =>
        match tokens_from st1 s' with Some (y, st2) => Some ((x ++ y)%list, st2) | None => None end
      | None => None
      end
    end.

  (* The tokens of a text. *)
  Definition tokens (s : string) : option (list lexeme) :=
    match tokens_from L0 s with
    | Some (x, st) => match flush st with Some y => Some (x ++ y)%list | None => None end
    | None => None
    end.
End Lexer.

(* ------------------------------------------------------------------------- *)
(* Statements                                                                  *)
(* ------------------------------------------------------------------------- *)

Definition name := list string.

(* A table: [ONLY] name [AS alias]; no alias is []. *)
Record tableref := { tb_only : bool; tb_name : name; tb_alias : name }.

Section Nodes.
  Context (Q : Type).

  Inductive term_ :=
  | MNull
  | MVal (v : gval)          (* a bound value or a literal *)
  | MName (n : name)         (* a column *)
  | MSub (q : Q)             (* ( SELECT ... ) *)
  | MCall (f : string) (args : list lexeme).    (* f( ... ) *)

  Inductive formula_ :=
  | FCmp (l : term_) (op : string) (r : term_)
  | FIn (negated : bool) (l : term_) (vs : list term_)
  | FInSub (negated : bool) (l : term_) (q : Q)
  | FBetween (negated : bool) (l : term_) (a b : term_)
  | FExists (negated : bool) (q : Q)
  | FAnd (l r : formula_)
  | FOr (l r : formula_).

  Inductive item_ :=
  | ItName (n : name) (alias : name)
  | ItAgg (f : string) (distinct : bool) (arg : string) (alias : string)
  | ItExists (negated : bool) (q : Q).

  Record body_ := {
    q_prefix : list string;                     (* words before the statement *)
    q_with : list (string * Q);
    q_distinct_on : list name;
    q_distinct : bool;
    q_items : list item_;
    q_from : list tableref;
    q_joins : list (list string * tableref * formula_);    (* words of the type, table, ON *)
    q_where : option formula_;
    q_group_by : list name;
    q_having : option formula_;
    q_order_by : list (string * string);        (* unquoted column, direction *)
    q_limit : option N;
    q_offset : option N;
    q_suffix : list string                      (* words after the statement *)
  }.
End Nodes.
Arguments MNull {Q}. Arguments MVal {Q}. Arguments MName {Q}. Arguments MSub {Q}.
Arguments MCall {Q}.
Arguments FCmp {Q}. Arguments FIn {Q}. Arguments FInSub {Q}. Arguments FBetween {Q}.
Arguments FExists {Q}. Arguments FAnd {Q}. Arguments FOr {Q}.
Arguments ItName {Q}. Arguments ItAgg {Q}. Arguments ItExists {Q}.
Arguments q_prefix {Q}. Arguments q_with {Q}. Arguments q_distinct_on {Q}. Arguments q_distinct {Q}.
Arguments q_items {Q}. Arguments q_from {Q}. Arguments q_joins {Q}. Arguments q_where {Q}.
Arguments q_group_by {Q}. Arguments q_having {Q}. Arguments q_order_by {Q}. Arguments q_limit {Q}.
Arguments q_offset {Q}. Arguments q_suffix {Q}.

Inductive squery := Query (b : body_ squery).
Notation term := (term_ squery).
Notation formula := (formula_ squery).
Notation item := (item_ squery).
Notation body := (body_ squery).

(* ------------------------------------------------------------------------- *)
(* Parser                                                                      *)
(* ------------------------------------------------------------------------- *)

Definition parser (A : Type) : Type := list lexeme -> option (A * list lexeme).

Definition andthen {A B} (o : option (A * list lexeme)) (k : A -> list lexeme -> option B) : option B :=
  match o with Some (a, r) => k a r | None => None end.
Notation "'read' x r 'from' o ; k" := (andthen o (fun x r => k))
  (at level 200, x name, r name, o at level 100, k at level 200).

(* The given words come next. *)
Fixpoint strip (kw : list string) (ts : list lexeme) : option (list lexeme) :=
  match kw with
  | [] => Some ts
  | x :: kw' => match ts with
                | KWord y :: ts' => if String.eqb x y then strip kw' ts' else None
                | _ => None
                end
  end.

(* An optional clause introduced by words. *)
Definition clause {A} (kw : list string) (none : A) (p : parser A) : parser A :=
  fun ts => match strip kw ts with Some r => p r | None => Some (none, ts) end.
Definition optional {A} (kw : list string) (p : parser A) : parser (option A) :=
  clause kw None (fun ts => read x r from p ts; Some (Some x, r)).
Definition flag (kw : list string) : parser bool := clause kw false (fun ts => Some (true, ts)).

Definition p_close {A} (x : A) : parser A :=
  fun ts => match ts with KClose :: r => Some (x, r) | _ => None end.
(* ( p ) *)
Definition p_parens {A} (p : parser A) : parser A :=
  fun ts => match ts with KOpen :: r => read x r1 from p r; p_close x r1 | _ => None end.

(* p, p, ... *)
Fixpoint commas_fuel {A} (n : nat) (p : parser A) (ts : list lexeme) : option (list A * list lexeme) :=
  match n with
  | O => None
  | S n' =>
    read x r from p ts;
    match r with
    | KComma :: r1 => read xs r2 from commas_fuel n' p r1; Some (x :: xs, r2)
    | _ => Some ([x], r)
    end
  end.
Definition p_commas {A} (p : parser A) : parser (list A) := fun ts => commas_fuel (length ts) p ts.

Definition p_name : parser name :=
  fun ts => match ts with KName n :: r => Some (n, r) | _ => None end.
Definition p_word : parser string :=
  fun ts => match ts with KWord s :: r => Some (s, r) | _ => None end.
Definition p_num : parser N :=
  fun ts => match ts with KNum n :: r => Some (n, r) | _ => None end.

(* Words, as many as possible, up to one of the given ones. *)
Fixpoint p_words (stop : list string) (ts : list lexeme) : list string * list lexeme :=
  match ts with
  | KWord s :: r =>
    if existsb (String.eqb s) stop then ([], ts)
    else let (x, r1) := p_words stop r in (s :: x, r1)
  | _ => ([], ts)
  end.

Definition p_table : parser tableref :=
  fun ts =>
    read only r from flag ["ONLY"] ts;
    read n r1 from p_name r;
    read a r2 from clause ["AS"] [] p_name r1;
    Some ({| tb_only := only; tb_name := n; tb_alias := a |}, r2).

Definition p_order : parser (string * string) :=
  fun ts => read x r from p_word ts; read d r1 from p_word r;
            if String.eqb d "ASC" || String.eqb d "DESC" then Some ((x, d), r1) else None.

(* Words that end a condition or a list of tables. *)
Definition reserved : list string :=
  ["AS"; "AND"; "OR"; "FROM"; "INNER"; "LEFT"; "RIGHT"; "ON"; "WHERE"; "GROUP"; "HAVING"; "ORDER";
   "LIMIT"; "OFFSET"; "SET"; "VALUES"; "RETURNING"; "USING"].

(* Words that are not read as the name of a function. *)
Definition not_functions : list string :=
  ["NULL"; "true"; "false"; "decode"; "NOT"; "EXISTS"; "DISTINCT"; "SELECT"; "WITH"].

(* INNER JOIN, LEFT [OUTER] JOIN, RIGHT [OUTER] JOIN *)
Definition join_types : list (list string) :=
  [["INNER"; "JOIN"]; ["LEFT"; "JOIN"]; ["RIGHT"; "JOIN"]; ["LEFT"; "OUTER"; "JOIN"];
   ["RIGHT"; "OUTER"; "JOIN"]].
Fixpoint strip_any (l : list (list string)) (ts : list lexeme) : option (list string * list lexeme) :=
  match l with
  | [] => None
  | kw :: l' => match strip kw ts with Some r => Some (kw, r) | None => strip_any l' ts end
  end.

(* table.column, not in quotes: in lower case, because case is lost without quotes. The first word
   is none of the reserved words of PostgreSQL. *)
Fixpoint dotted (s : string) : name :=
  match s with
  | EmptyString => [""]
  | String a s' =>
    if Ascii.eqb a dot then "" :: dotted s'
    else match dotted s' with x :: r => String a x :: r | [] => [String a ""] end
  end.
Definition lower_char (a : ascii) : bool := in_range 97 122 a || Ascii.eqb a "_".
Definition lower_word (s : string) : bool :=
  match s with
  | EmptyString => false
  | String a s' => lower_char a && forallb (fun b => lower_char b || is_num b) (list_ascii_of_string s')
  end.
Definition sql_reserved : list string :=
  ["all"; "analyse"; "analyze"; "and"; "any"; "array"; "as"; "asc"; "asymmetric"; "authorization"; "binary"; "both";
   "case"; "cast"; "check"; "collate"; "collation"; "column"; "concurrently"; "constraint"; "create"; "cross";
   "current_catalog"; "current_date"; "current_role"; "current_schema"; "current_time"; "current_timestamp";
   "current_user"; "default"; "deferrable"; "desc"; "distinct"; "do"; "else"; "end"; "except"; "false"; "fetch"; "for";
   "foreign"; "freeze"; "from"; "full"; "grant"; "group"; "having"; "ilike"; "in"; "initially"; "inner"; "intersect";
   "into"; "is"; "isnull"; "join"; "lateral"; "leading"; "left"; "like"; "limit"; "localtime"; "localtimestamp";
   "natural"; "not"; "notnull"; "null"; "offset"; "on"; "only"; "or"; "order"; "outer"; "overlaps"; "placing"; "primary";
   "references"; "returning"; "right"; "select"; "session_user"; "similar"; "some"; "symmetric"; "table"; "tablesample";
   "then"; "to"; "trailing"; "true"; "union"; "unique"; "user"; "using"; "variadic"; "verbose"; "when"; "where"; "window"; "with"].
Definition column_word (s : string) : bool :=
  match dotted s with
  | (x :: _ :: _) as l => forallb lower_word l && negb (existsb (String.eqb x) sql_reserved)
  | _ => false
  end.
Definition p_column : parser name :=
  fun ts => match ts with KWord s :: r => if column_word s then Some (dotted s, r) else None | _ => None end.

Section Parts.
  (* The parser of subqueries. *)
  Context (pq : parser squery).

  (* 'abc', 12, -12, true, false, decode('6869', 'hex') *)
  Definition p_value : parser gval :=
    fun ts =>
      match ts with
      | KVal v :: r => Some (v, r)
      | KNum n :: r => Some (GInt KInt64 (Z.of_N n), r)
      | KOp o :: KNum n :: r => if String.eqb o "-" then Some (GInt KInt64 (- Z.of_N n), r) else None
      | KWord x :: r =>
        if String.eqb x "true" then Some (GBool true, r)
        else if String.eqb x "false" then Some (GBool false, r)
        else if String.eqb x "decode" then
          match r with
          | KOpen :: KVal (GStr h) :: KComma :: KVal (GStr f) :: KClose :: r1 =>
            if String.eqb f "hex" then match unhex_bytes h with Some s => Some (GBytes s, r1) | None => None end
            else None
          | _ => None
          end
        else None
      | _ => None
      end.

  (* What stands up to the parenthesis that closes depth others. *)
  Fixpoint p_args (depth : nat) (ts : list lexeme) : option (list lexeme * list lexeme) :=
    match ts with
    | [] | KSemi :: _ => None
    | KOpen :: r => read x r1 from p_args (S depth) r; Some (KOpen :: x, r1)
    | KClose :: r =>
      match depth with
      | O => Some ([], r)
      | S d => read x r1 from p_args d r; Some (KClose :: x, r1)
      end
    | t :: r => read x r1 from p_args depth r; Some (t :: x, r1)
    end.

  (* f( ... ), the arguments are not read further *)
  Definition p_call : parser term :=
    fun ts =>
      match ts with
      | KWord f :: KOpen :: r =>
        if existsb (String.eqb f) not_functions then None
        else read x r1 from p_args O r; Some (MCall f x, r1)
      | _ => None
      end.

  Definition p_term : parser term :=
    fun ts =>
      match ts with
      | KName n :: r => Some (MName n, r)
      | KOpen :: _ => read q r from p_parens pq ts; Some (MSub q, r)
      | _ =>
        match p_column ts with
        | Some (n, r) => Some (MName n, r)
        | None =>
          match strip ["NULL"] ts with
          | Some r => Some (MNull, r)
          | None =>
            match p_value ts with
            | Some (v, r) => Some (MVal v, r)
            | None => p_call ts
            end
          end
        end
      end.

  (* a value, NULL, a call or table.column *)
  Definition p_scalar : parser term :=
    fun ts => match ts with KName _ :: _ | KOpen :: _ => None | _ => p_term ts end.

  Definition p_cmp (l : term) (op : string) : parser formula :=
    fun ts => read x r from p_term ts; Some (FCmp l op x, r).

  (* After IN: ( SELECT ... ) or ( value, ... ) *)
  Definition p_in (neg : bool) (l : term) : parser formula :=
    fun ts =>
      match ts with
      | KOpen :: r =>
        match p_commas p_scalar r with
        | Some (vs, KClose :: r1) => Some (FIn neg l vs, r1)
        | _ => read q r1 from p_parens pq ts; Some (FInSub neg l q, r1)
        end
      | _ => None
      end.

  (* After BETWEEN: value AND value *)
  Definition p_between (neg : bool) (l : term) : parser formula :=
    fun ts =>
      read a r from p_scalar ts;
      match strip ["AND"] r with
      | Some r1 => read b r2 from p_scalar r1; Some (FBetween neg l a b, r2)
      | None => None
      end.

  (* The operators made of words, longest first. *)
  Definition word_ops : list (list string) :=
    [["IS"; "NOT"; "DISTINCT"; "FROM"]; ["IS"; "DISTINCT"; "FROM"]; ["IS"; "NOT"]; ["IS"];
     ["NOT"; "LIKE"]; ["NOT"; "ILIKE"]; ["LIKE"]; ["ILIKE"]].

  Fixpoint spaced (l : list string) : string :=
    match l with [] => "" | [x] => x | x :: l' => x ++ " " ++ spaced l' end.

  (* What follows the left operand. *)
  Definition p_rest (l : term) : parser formula :=
    fun ts =>
      match ts with
      | KOp o :: r => p_cmp l o r
      | _ =>
        match strip_any word_ops ts with
        | Some (kw, r) => p_cmp l (spaced kw) r
        | None =>
          match strip_any [["NOT"; "IN"]; ["IN"]; ["NOT"; "BETWEEN"]; ["BETWEEN"]] ts with
          | Some (["IN"], r) => p_in false l r
          | Some (["NOT"; "IN"], r) => p_in true l r
          | Some (["BETWEEN"], r) => p_between false l r
          | Some (["NOT"; "BETWEEN"], r) => p_between true l r
          | _ => None
          end
        end
      end.

  Definition p_exists (neg : bool) : parser formula :=
    fun ts => read q r from p_parens pq ts; Some (FExists neg q, r).

  Definition p_atom : parser formula :=
    fun ts =>
      match strip_any [["NOT"; "EXISTS"]; ["EXISTS"]] ts with
      | Some (kw, r) => p_exists (Nat.ltb 1 (length kw)) r
      | None => read l r from p_term ts; p_rest l r
      end.

  (* formula ::= conjunct (OR conjunct)*,  conjunct ::= prim (AND prim)*,
     prim ::= ( formula ) | atom; both lists grouped to the left. The first argument bounds
     the recursion depth. *)
  Definition link (k : level) : string := match k with Tight => "AND" | _ => "OR" end.
  Definition joined (k : level) (l r : formula) : formula :=
    match k with Tight => FAnd l r | _ => FOr l r end.

  Fixpoint p_formula (n : nat) (k : level) (ts : list lexeme) : option (formula * list lexeme) :=
    match n with
    | O => None
    | S n' =>
      match k with
      | Prim =>
        match ts with
        | KOpen :: r => read f r1 from p_formula n' Loose r; p_close f r1
        | _ => p_atom ts
        end
      | _ => read f r from p_formula n' (below k) ts; p_links n' k f r
      end
    end
  with p_links (n : nat) (k : level) (acc : formula) (ts : list lexeme) : option (formula * list lexeme) :=
    match n with
    | O => None
    | S n' =>
      match strip [link k] ts with
      | Some r => read f r1 from p_formula n' (below k) r; p_links n' k (joined k acc f) r1
      | None => Some (acc, ts)
      end
    end.

  Definition p_cond : parser formula := fun ts => p_formula (4 + 4 * length ts) Loose ts.

  Definition p_with : parser (string * squery) :=
    fun ts =>
      read x r from p_word ts;
      match strip ["AS"] r with
      | Some r1 => read q r2 from p_parens pq r1; Some ((x, q), r2)
      | None => None
      end.

  Definition p_agg_arg : parser string :=
    fun ts => match ts with
              | KWord a :: r => Some (a, r)
              | KOp o :: r => if String.eqb o "*" then Some (o, r) else None
              | _ => None
              end.

  Definition p_item : parser item :=
    fun ts =>
      match ts with
      | KName n :: r => read a r1 from clause ["AS"] [] p_name r; Some (ItName n a, r1)
      | _ =>
        match strip_any [["NOT"; "EXISTS"]; ["EXISTS"]] ts with
        | Some (kw, r) => read q r1 from p_parens pq r; Some (ItExists (Nat.ltb 1 (length kw)) q, r1)
        | None =>
          read f r from p_word ts;
          read da r1 from p_parens (fun ts => read d r from flag ["DISTINCT"] ts;
                                              read a r1 from p_agg_arg r; Some ((d, a), r1)) r;
          read a r2 from clause ["AS"] "" p_word r1;
          Some (ItAgg f (fst da) (snd da) a, r2)
        end
      end.

  Fixpoint joins_fuel (n : nat) (ts : list lexeme)
    : option (list (list string * tableref * formula) * list lexeme) :=
    match strip_any join_types ts with
    | None => Some ([], ts)
    | Some (kw, r) =>
      match n with
      | O => None
      | S n' =>
        read t r1 from p_table r;
        match strip ["ON"] r1 with
        | Some r2 => read f r3 from p_cond r2; read l r4 from joins_fuel n' r3; Some ((kw, t, f) :: l, r4)
        | None => None
        end
      end
    end.
  Definition p_joins : parser (list (list string * tableref * formula)) :=
    fun ts => joins_fuel (length ts) ts.

  Definition p_body : parser body :=
    fun ts =>
      let (prefix, ts) := p_words ["WITH"; "SELECT"] ts in
      read wi ts from clause ["WITH"] [] (p_commas p_with) ts;
      match strip ["SELECT"] ts with
      | None => None
      | Some ts =>
        read on ts from clause ["DISTINCT"; "ON"] [] (p_parens (p_commas p_name)) ts;
        read di ts from flag ["DISTINCT"] ts;
        read items ts from p_commas p_item ts;
        read from_ ts from clause ["FROM"] [] (p_commas p_table) ts;
        read joins ts from p_joins ts;
        read wh ts from optional ["WHERE"] p_cond ts;
        read gr ts from clause ["GROUP"; "BY"] [] (p_commas p_name) ts;
        read ha ts from optional ["HAVING"] p_cond ts;
        read ord ts from clause ["ORDER"; "BY"] [] (p_commas p_order) ts;
        read li ts from optional ["LIMIT"] p_num ts;
        read off ts from optional ["OFFSET"] p_num ts;
        let (suffix, ts) := p_words [] ts in
        Some ({| q_prefix := prefix; q_with := wi; q_distinct_on := on; q_distinct := di;
                 q_items := items; q_from := from_; q_joins := joins; q_where := wh;
                 q_group_by := gr; q_having := ha; q_order_by := ord; q_limit := li;
                 q_offset := off; q_suffix := suffix |}, ts)
      end.
End Parts.

(* The first argument bounds the nesting of subqueries. *)
Fixpoint p_query (n : nat) (ts : list lexeme) : option (squery * list lexeme) :=
  match n with
  | O => None
  | S n' => read b r from p_body (p_query n') ts; Some (Query b, r)
  end.

(* The end of a statement: nothing, or a semicolon (comments are not tokens). *)
Definition at_end (ts : list lexeme) : bool :=
  match ts with [] | [KSemi] => true | _ => false end.

Definition whole {A} (p : parser A) (E : env) (text : string) : option A :=
  match tokens E text with
  | Some ts => match p ts with Some (x, r) => if at_end r then Some x else None | None => None end
  | None => None
  end.

(* A SELECT statement with its arguments. *)
Definition read_query (E : env) (text : string) : option squery :=
  whole (fun ts => p_query (length ts) ts) E text.
