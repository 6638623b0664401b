(* Specification: which arguments of which calls reach the SQL text, and as what; and how far a
   text stays within one statement. The list of words of a statement is that of Balance.v. *)
From Verif Require Export Balance Build.

(* ------------------------------------------------------------------------- *)
(* The pieces of a text                                                        *)
(* ------------------------------------------------------------------------- *)

(* Everything the library writes of its own accord, for every statement, is spelled with these. *)
Definition vocabulary : list string :=
  [" "; ","; "("; ")"; "="; "NULL"; "SELECT"; "DISTINCT"; "ON"; "FROM"; "ONLY"; "AS"; "WITH"; "WHERE"; "GROUP";
   "BY"; "HAVING"; "ORDER"; "LIMIT"; "OFFSET"; "EXISTS"; "NOT"; "USING"; "SET"; "INSERT"; "INTO"; "VALUES";
   "CONFLICT"; "DO"; "NOTHING"; "UPDATE"; "RETURNING"; "DELETE"].

(* A piece of the text of a statement with the given words, bound values aside. *)
Inductive sql_piece {O : Oracle} (ws : list word) : string -> Prop :=
| piece_word p : In p vocabulary -> sql_piece ws p
| piece_name n : In (Name n) ws -> sql_piece ws (quote n)
| piece_verbatim v : In (Verbatim v) ws -> sql_piece ws v
| piece_number z : In (Number z) ws -> sql_piece ws (string_of_Z z)
| piece_comment c : In (Remark c) ws -> c <> "" -> sql_piece ws ("; -- " ++ c).

(* ------------------------------------------------------------------------- *)
(* One statement                                                               *)
(* ------------------------------------------------------------------------- *)

(* Where a reader of SQL stands: outside quotes, in a quoted identifier, in a string constant, or
   outside quotes after a character that may begin something with the next one. *)
Inductive place := Code | InIdent | InConst | AfterDash | AfterSlash | AfterDollar.

Definition digit_char (a : ascii) : bool := ((48 <=? N_of_ascii a) && (N_of_ascii a <=? 57))%N.

(* None: the statement ends (;), a comment (two dashes, or slash and star) or a dollar-quoted constant begins, or a
   backslash stands in a string constant, where its meaning depends on the kind of constant. *)
Definition read_code (a : ascii) : option place :=
  if Ascii.eqb a """" then Some InIdent
  else if Ascii.eqb a "'" then Some InConst
  else if Ascii.eqb a "-" then Some AfterDash
  else if Ascii.eqb a "/" then Some AfterSlash
  else if Ascii.eqb a "$" then Some AfterDollar
  else if Ascii.eqb a ";" then None
  else Some Code.
Definition read_char (p : place) (a : ascii) : option place :=
  match p with
  | Code => read_code a
  | InIdent => Some (if Ascii.eqb a """" then Code else InIdent)
  | InConst => if Ascii.eqb a "'" then Some Code else if Ascii.eqb a "\" then None else Some InConst
  | AfterDash => if Ascii.eqb a "-" then None else read_code a
  | AfterSlash => if Ascii.eqb a "*" then None else read_code a
  | AfterDollar => if digit_char a then Some Code else None
  end.
Fixpoint read_text (p : place) (s : string) : option place :=
  match s with
  | EmptyString => Some p
  | String a s' => match read_char p a with Some p' => read_text p' s' | None => None end
  end.

(* The text ends where it began, outside quotes, and does none of the above on the way: put into
   a statement it leaves it one statement. *)
Definition stays_inside (s : string) : Prop := read_text Code s = Some Code.

(* What a caller has to see to, for each word: a name has no double quote; a text written as it
   is stays inside; no comment within. *)
Definition safe_word (x : word) : Prop :=
  match x with
  | Name s => ~ In """"%char (list_ascii_of_string s)
  | Verbatim s => stays_inside s
  | Number _ => True
  | Remark c => c = ""
  end.

(* ------------------------------------------------------------------------- *)
(* The words in the arguments of a call                                        *)
(* ------------------------------------------------------------------------- *)

(* Columns: DistinctOn, GroupBy, Columns of an INSERT. *)
Definition column_arg (g : gval) : list word :=
  match g with
  | GStr s => [Name s]
  | GColumn c => column_words c
  | GStrs l => map Name l
  | GColumns l => flat_map column_words l
  | _ => []
  end.

(* Columns of a SELECT, Returning. *)
Definition select_arg (g : gval) : list word :=
  match g with
  | GExpr (ERaw s) => [Verbatim s]
  | GExpr (EExists e) | GExpr (ENotExists e) => words e
  | GSel x => selexpr_words words x
  | GSels l => flat_map (selexpr_words words) l
  | _ => column_arg g
  end.

(* Tables: From, Update, Insert, Using. *)
Definition table_arg (g : gval) : list word :=
  match g with
  | GStr s => [Name s]
  | GTable t | GInto t => table_words t
  | GExpr (ERaw s) => [Verbatim s]
  | _ => []
  end.

(* Prefix, Suffix. *)
Definition affix_arg (g : gval) : list word :=
  match g with GStr s | GPrefix s | GSuffix s => [Verbatim s] | _ => [] end.

(* Join. A text, whatever it is, brings no word that needs care. *)
Definition join_arg (args : list gval) : list word :=
  match args with
  | [GJoin j] => join_words words j
  | [t; c] => (table_arg t ++ match c with GExpr e => words e | _ => [] end)%list
  | [t; c; k] =>
    (table_arg t ++ match c with GExpr e => words e | _ => [] end
     ++ match k with GJoinType s => [Verbatim s] | _ => [] end)%list
  | _ => []
  end.

(* Values: only an expression or a builder brings words, at any place of a list or a row. *)
Definition value_arg (g : gval) : list word :=
  match g with GExpr e | GStmtEnc (Some e) => words e | _ => [] end.
Definition list_arg (g : gval) : list word :=
  match g with
  | GExprs l => flat_map words l
  | GAnys l => flat_map value_arg l
  | _ => value_arg g
  end.
Definition rows_arg (g : gval) : list word :=
  match g with
  | GExprss rows => flat_map (flat_map words) rows
  | GAnyss rows => flat_map (flat_map list_arg) rows
  | _ => list_arg g
  end.

(* Set, DoUpdate. *)
Definition set_arg (g : gval) : list word :=
  match g with
  | GStr _ | GColumn _ => column_arg g
  | GMapAny l => flat_map (fun kv => Name (fst kv) :: value_arg (snd kv)) l
  | GMap l => flat_map (fun kv => column_arg (fst kv) ++ value_arg (snd kv))%list l
  | GPair k v => (column_arg k ++ value_arg v)%list
  | _ => []
  end.

(* OnConflict *)
Definition conflict_arg (g : gval) : list word :=
  match g with GConflictUpdate p => pairs_words p | _ => column_arg g end.

Definition sel_call_words (c : sel_call) : list word :=
  match c with
  | SelDistinctOn args | SelGroupBy args => flat_map column_arg args
  | SelDistinct | SelLimit _ | SelOffset _ => []
  | SelColumns args => flat_map select_arg args
  | SelFrom args => flat_map table_arg args
  | SelJoin args => join_arg args
  | SelWith l => flat_map (with_words words) l
  | SelWhere e | SelAnd e | SelOr e | SelHaving e => words e
  | SelOrderBy l => flat_map order_words l
  | SelSuffix g | SelPrefix g => affix_arg g
  | SelComment c => [Remark c]
  end.
Definition ins_call_words (c : ins_call) : list word :=
  match c with
  | InsInto g => table_arg g
  | InsColumns args => flat_map column_arg args
  | InsValues args => flat_map rows_arg args
  | InsReturning args => flat_map select_arg args
  | InsComment c => [Remark c]
  | InsOnConflict args => flat_map conflict_arg args
  | InsSet args => flat_map set_arg args
  end.
Definition upd_call_words (c : upd_call) : list word :=
  match c with
  | UpdOnly => []
  | UpdSet args => flat_map set_arg args
  | UpdUsing args => flat_map value_arg args
  | UpdWith l => flat_map (with_words words) l
  | UpdWhere e | UpdAnd e | UpdOr e => words e
  | UpdFrom g => table_arg g
  | UpdReturning args => flat_map select_arg args
  | UpdComment c => [Remark c]
  end.
Definition del_call_words (c : del_call) : list word :=
  match c with
  | DelFrom args | DelUsing args => flat_map table_arg args
  | DelWhere e | DelAnd e | DelOr e => words e
  | DelReturning args => flat_map select_arg args
  | DelComment c => [Remark c]
  end.

(* A statement made by a constructor and a chain of calls, with the words of all the arguments. *)
Inductive built {O : Oracle} : list word -> stmt -> Prop :=
| built_select cols q0 cs q : lk_select cols = Ok q0 -> sel_run q0 cs = Ok q ->
    built (flat_map select_arg cols ++ flat_map sel_call_words cs) (StSelect q)
| built_insert t i0 cs i : lk_insert t = Ok i0 -> ins_run i0 cs = Ok i ->
    built (table_arg t ++ flat_map ins_call_words cs) (StInsert i)
| built_update t u0 cs u : lk_update t = Ok u0 -> upd_run u0 cs = Ok u ->
    built (table_arg t ++ flat_map upd_call_words cs) (StUpdate u)
| built_delete t d0 cs d : lk_delete t = Ok d0 -> del_run d0 cs = Ok d ->
    built (table_arg t ++ flat_map del_call_words cs) (StDelete d).

(* The words of a condition, by the calls that make it. Operators are the library's. *)
Inductive made : list word -> expr -> Prop :=
| made_column s : made [Name s] (lk_condition (GStr s))
| made_raw_column s : made [Verbatim s] (lk_condition (GExpr (lk_raw s)))
| made_value v : made [] (lk_value v)
| made_raw s : made [Verbatim s] (lk_raw s)
| made_call f args ws : Forall2 made ws args -> made (Verbatim f :: concat ws) (new_call f args)
| made_compare ws l c v e : made ws l -> cmp_expr l c v = Ok e -> made (ws ++ value_arg v) e
| made_null ws l b e : made ws l -> is_null l b = Ok e -> made ws e
| made_in ws l vs e : made ws l -> expr_in l vs = Ok e -> made (ws ++ flat_map list_arg vs) e
| made_not_in ws l vs e : made ws l -> expr_not_in l vs = Ok e -> made (ws ++ flat_map list_arg vs) e
| made_between s a b e : ident_between (GStr s) a b = Ok e -> made (Name s :: value_arg a ++ value_arg b) e
| made_not_between s a b e : ident_not_between (GStr s) a b = Ok e -> made (Name s :: value_arg a ++ value_arg b) e
| made_and wl l wr r : made wl l -> made wr r -> made (wl ++ wr) (lk_and l r)
| made_or wl l wr r : made wl l -> made wr r -> made (wl ++ wr) (lk_or l r)
| made_infix_and wl l wr r : made wl l -> made wr r -> made (wl ++ wr) (infix_and l r)
| made_infix_or wl l wr r : made wl l -> made wr r -> made (wl ++ wr) (infix_or l r)
| made_exists g e : lk_exists g = Ok e -> made (value_arg g) e
| made_not_exists g e : lk_not_exists g = Ok e -> made (value_arg g) e
| made_on l r : made [Name l; Name r] (lk_on l r)
| made_and_on wl l wr r : made wl l -> made wr r -> made (wl ++ wr) (lk_and_on l r)
| made_or_on wl l wr r : made wl l -> made wr r -> made (wl ++ wr) (lk_or_on l r).

(* ------------------------------------------------------------------------- *)
(* What the calls add of their own                                             *)
(* ------------------------------------------------------------------------- *)

(* The texts that the calls themselves bring. *)
Definition own_texts : list string := [""; "AND"; "OR"; "INNER JOIN"; "LEFT JOIN"; "RIGHT JOIN"].
(* Letters, digits, underscores and dots: all that the parser of joins takes for a name. *)
Definition plain_char (a : ascii) : bool :=
  let n := N_of_ascii a in
  (digit_char a || ((65 <=? n) && (n <=? 90)) || ((97 <=? n) && (n <=? 122)) || (n =? 95) || (n =? 46))%N.
(* The operators of conditions. *)
Definition operator_texts : list string :=
  ["AND"; "OR"; "IN"; "NOT IN"; "BETWEEN"; "NOT BETWEEN"; "="; "!="; "IS"; "IS NOT"; ">"; ">="; "<"; "<="; "LIKE";
   "NOT LIKE"; "ILIKE"; "NOT ILIKE"; "IS DISTINCT FROM"; "IS NOT DISTINCT FROM"; "@>"; "<@"; "&&"].
(* A text is part of another. *)
Definition cut_from (n s : string) : Prop := exists before after, s = before ++ n ++ after.

(* Where a word of a statement comes from: a text written as it is, from an argument that is one;
   a name, from a part of a name in an argument, or from the text of a join, or it is * for all columns. *)
Definition traced (ws : list word) (x : word) : Prop :=
  match x with
  | Verbatim v => In (Verbatim v) ws \/ In v own_texts
  | Name n => (exists s, In (Name s) ws /\ cut_from n s)
              \/ (forall a, In a (list_ascii_of_string n) -> plain_char a = true) \/ n = "*"
  | Remark c => In (Remark c) ws \/ c = ""
  | Number _ => True
  end.
