(* Specification: what the calls of the API say, in terms of the statements of Grammar.v.

   A statement is described as its text shows it (view): with its arguments, or with literals.
   "says e f", "sel_says s b": the expression e, the Select builder s have been built by
   these calls of the API, and the calls describe the condition f, the query b. Every rule
   names one call and what it adds; nothing here looks at how a statement is written. *)
From Verif Require Export Grammar CondApi Conv QuoteP.
From Verif Require Scan JoinSpec.

Definition empty_body : body := {|
  q_prefix := []; q_with := []; q_distinct_on := []; q_distinct := false; q_items := [];
  q_from := []; q_joins := []; q_where := None; q_group_by := []; q_having := None;
  q_order_by := []; q_limit := None; q_offset := None; q_suffix := [] |}.

Definition set_prefix v (b : body) : body := {| q_prefix := v; q_with := q_with b; q_distinct_on := q_distinct_on b; q_distinct := q_distinct b; q_items := q_items b; q_from := q_from b; q_joins := q_joins b; q_where := q_where b; q_group_by := q_group_by b; q_having := q_having b; q_order_by := q_order_by b; q_limit := q_limit b; q_offset := q_offset b; q_suffix := q_suffix b |}.
Definition set_with v (b : body) : body := {| q_prefix := q_prefix b; q_with := v; q_distinct_on := q_distinct_on b; q_distinct := q_distinct b; q_items := q_items b; q_from := q_from b; q_joins := q_joins b; q_where := q_where b; q_group_by := q_group_by b; q_having := q_having b; q_order_by := q_order_by b; q_limit := q_limit b; q_offset := q_offset b; q_suffix := q_suffix b |}.
Definition set_distinct_on v (b : body) : body := {| q_prefix := q_prefix b; q_with := q_with b; q_distinct_on := v; q_distinct := q_distinct b; q_items := q_items b; q_from := q_from b; q_joins := q_joins b; q_where := q_where b; q_group_by := q_group_by b; q_having := q_having b; q_order_by := q_order_by b; q_limit := q_limit b; q_offset := q_offset b; q_suffix := q_suffix b |}.
Definition set_distinct v (b : body) : body := {| q_prefix := q_prefix b; q_with := q_with b; q_distinct_on := q_distinct_on b; q_distinct := v; q_items := q_items b; q_from := q_from b; q_joins := q_joins b; q_where := q_where b; q_group_by := q_group_by b; q_having := q_having b; q_order_by := q_order_by b; q_limit := q_limit b; q_offset := q_offset b; q_suffix := q_suffix b |}.
Definition set_items v (b : body) : body := {| q_prefix := q_prefix b; q_with := q_with b; q_distinct_on := q_distinct_on b; q_distinct := q_distinct b; q_items := v; q_from := q_from b; q_joins := q_joins b; q_where := q_where b; q_group_by := q_group_by b; q_having := q_having b; q_order_by := q_order_by b; q_limit := q_limit b; q_offset := q_offset b; q_suffix := q_suffix b |}.
Definition set_from v (b : body) : body := {| q_prefix := q_prefix b; q_with := q_with b; q_distinct_on := q_distinct_on b; q_distinct := q_distinct b; q_items := q_items b; q_from := v; q_joins := q_joins b; q_where := q_where b; q_group_by := q_group_by b; q_having := q_having b; q_order_by := q_order_by b; q_limit := q_limit b; q_offset := q_offset b; q_suffix := q_suffix b |}.
Definition set_joins v (b : body) : body := {| q_prefix := q_prefix b; q_with := q_with b; q_distinct_on := q_distinct_on b; q_distinct := q_distinct b; q_items := q_items b; q_from := q_from b; q_joins := v; q_where := q_where b; q_group_by := q_group_by b; q_having := q_having b; q_order_by := q_order_by b; q_limit := q_limit b; q_offset := q_offset b; q_suffix := q_suffix b |}.
Definition set_where v (b : body) : body := {| q_prefix := q_prefix b; q_with := q_with b; q_distinct_on := q_distinct_on b; q_distinct := q_distinct b; q_items := q_items b; q_from := q_from b; q_joins := q_joins b; q_where := v; q_group_by := q_group_by b; q_having := q_having b; q_order_by := q_order_by b; q_limit := q_limit b; q_offset := q_offset b; q_suffix := q_suffix b |}.
Definition set_group_by v (b : body) : body := {| q_prefix := q_prefix b; q_with := q_with b; q_distinct_on := q_distinct_on b; q_distinct := q_distinct b; q_items := q_items b; q_from := q_from b; q_joins := q_joins b; q_where := q_where b; q_group_by := v; q_having := q_having b; q_order_by := q_order_by b; q_limit := q_limit b; q_offset := q_offset b; q_suffix := q_suffix b |}.
Definition set_having v (b : body) : body := {| q_prefix := q_prefix b; q_with := q_with b; q_distinct_on := q_distinct_on b; q_distinct := q_distinct b; q_items := q_items b; q_from := q_from b; q_joins := q_joins b; q_where := q_where b; q_group_by := q_group_by b; q_having := v; q_order_by := q_order_by b; q_limit := q_limit b; q_offset := q_offset b; q_suffix := q_suffix b |}.
Definition set_order_by v (b : body) : body := {| q_prefix := q_prefix b; q_with := q_with b; q_distinct_on := q_distinct_on b; q_distinct := q_distinct b; q_items := q_items b; q_from := q_from b; q_joins := q_joins b; q_where := q_where b; q_group_by := q_group_by b; q_having := q_having b; q_order_by := v; q_limit := q_limit b; q_offset := q_offset b; q_suffix := q_suffix b |}.
Definition set_limit v (b : body) : body := {| q_prefix := q_prefix b; q_with := q_with b; q_distinct_on := q_distinct_on b; q_distinct := q_distinct b; q_items := q_items b; q_from := q_from b; q_joins := q_joins b; q_where := q_where b; q_group_by := q_group_by b; q_having := q_having b; q_order_by := q_order_by b; q_limit := v; q_offset := q_offset b; q_suffix := q_suffix b |}.
Definition set_offset v (b : body) : body := {| q_prefix := q_prefix b; q_with := q_with b; q_distinct_on := q_distinct_on b; q_distinct := q_distinct b; q_items := q_items b; q_from := q_from b; q_joins := q_joins b; q_where := q_where b; q_group_by := q_group_by b; q_having := q_having b; q_order_by := q_order_by b; q_limit := q_limit b; q_offset := v; q_suffix := q_suffix b |}.
Definition set_suffix v (b : body) : body := {| q_prefix := q_prefix b; q_with := q_with b; q_distinct_on := q_distinct_on b; q_distinct := q_distinct b; q_items := q_items b; q_from := q_from b; q_joins := q_joins b; q_where := q_where b; q_group_by := q_group_by b; q_having := q_having b; q_order_by := q_order_by b; q_limit := q_limit b; q_offset := q_offset b; q_suffix := v |}.

(* The parts of a dotted name, none for the empty string. *)
Definition parts_of (x : string) : name := if String.eqb x "" then [] else split_on "." x.

(* An unquoted word: a letter or '_', then letters, digits, '_' and '.'. *)
Definition bare (s : string) : bool :=
  match s with
  | String a s' => is_alpha a && forallb word_char (list_ascii_of_string s')
  | EmptyString => false
  end.

(* Two ways to see the values of a statement: as arguments, beside the text of Query() and
   NamedQuery(), or as literals, in the text of String(). That text can be read with backslash
   escapes in string literals, or without. *)
Inductive view := Bound | Inline (escapes : bool).
Existing Class view.

(* Strings that are the same text in a literal with and without backslash escapes. *)
Definition no_special (s : string) : bool :=
  forallb (fun r => negb (existsb (N.eqb r) [39; 92; 10; 13; 9]%N)) (runes s).

(* The text between the quotes of the literal of a time; C48 says which instant it names. *)
Definition time_text (t : gtime) : string :=
  String.substring 1 (String.length (format_time t) - 2) (format_time t).

(* What the literal of a value says: every integer type is an integer, a time is its text, a
   string must be valid UTF-8. Nothing is claimed of floats and of values printed by fmt. *)
Fixpoint literal_says (escapes : bool) (v : gval) : option term :=
  match v with
  | GNil | GNilValuer => Some MNull
  | GBool _ | GBytes _ => Some (MVal v)
  | GInt _ z => Some (MVal (GInt KInt64 z))
  | GStr s => if utf8_valid s && (escapes || no_special s) then Some (MVal v) else None
  | GTime t => Some (MVal (GStr (time_text t)))
  | GValuer u => literal_says escapes u
  | _ => None
  end.

(* What a value that is part of a statement is in its text: nil is NULL, any other value is the
   argument, or the literal. *)
Definition shown {m : view} (v : gval) : option term :=
  match m, v with
  | Inline escapes, _ => literal_says escapes v
  | Bound, GNil => Some MNull
  | Bound, _ => Some (MVal v)
  end.

(* The value that an operand stands for: pointers to times and encoders stand for the value
   they give, anything else that NewExpression takes for itself. *)
Definition stands_for (v : gval) : option gval :=
  match v with
  | GNil | GStr _ | GBool _ | GInt _ _ | GFloat _ _ | GBytes _ | GTime _ | GValuer _ | GNilValuer
  | GValuerErr | GBindable _ _ | GStrs _ | GInts KInt64 _ | GMapStr _ | GMapAny _ => Some v
  | GTimePtr (Some t) => Some (GTime t)
  | GInt64Enc z => Some (GInt KInt64 z)
  | GBoolEnc b => Some (GBool b)
  | GTimeEnc t => Some (GTime t)
  | GStringEnc s => Some (GStr s)
  | _ => None
  end.
Definition bound_as {m : view} (v : gval) : option term :=
  match stands_for v with Some u => shown u | None => None end.

(* Raw(s), when s is a call: a function name (a lower-case name with a dot is read as a column), and arguments with matching parentheses, closed
   quotes and no placeholder. *)
Fixpoint balanced (depth : nat) (ts : list lexeme) : bool :=
  match ts with
  | [] => Nat.eqb depth 0
  | KOpen :: r => balanced (S depth) r
  | KClose :: r => match depth with O => false | S d => balanced d r end
  | KSemi :: _ => false
  | _ :: r => balanced depth r
  end.
Definition raw_call (s f : string) (ts : list lexeme) : Prop :=
  bare f = true /\ column_word f = false /\ existsb (String.eqb f) not_functions = false /\ balanced 0 ts = true
  /\ exists inside, s = f ++ "(" ++ inside ++ ")"
     /\ forall E, tokens_from E L0 (inside ++ ")") = Some ((ts ++ [KClose])%list, L0).

(* stmt.NewCall(f, arguments...): the arguments are columns, words and Raw("*"). *)
Inductive argument_says {O : Oracle} : expr -> lexeme -> Prop :=
| argument_column x : plain_name x = true -> argument_says (lk_condition (GStr x)) (KName (parts_of x))
| argument_word s : bare s = true -> argument_says (ERaw s) (KWord s)
| argument_all : argument_says (ERaw "*") (KOp "*").
Fixpoint with_commas (ts : list lexeme) : list lexeme :=
  match ts with
  | [] => []
  | [t] => [t]
  | t :: r => t :: KComma :: with_commas r
  end.
Inductive call_says {O : Oracle} : expr -> term -> Prop :=
| call_new f args ts : bare f = true -> column_word f = false -> existsb (String.eqb f) not_functions = false ->
    Forall2 argument_says args ts -> call_says (new_call f args) (MCall f (with_commas ts)).

(* A scalar operand: a value, a call given as Raw or made with NewCall, or a column: Raw("table.column"). *)
Inductive value_says {O : Oracle} {m : view} : gval -> term -> Prop :=
| value_bound v a : bound_as v = Some a -> value_says v a
| value_raw s f ts : raw_call s f ts -> value_says (GExpr (ERaw s)) (MCall f ts)
| value_column s : column_word s = true -> value_says (GExpr (ERaw s)) (MName (dotted s))
| value_call c t : call_says c t -> value_says (GExpr c) t.

(* The methods whose operand may be a subquery (C42: the others do not parenthesise it). *)
Definition takes_subquery (o : cmp) : bool :=
  match o with
  | OpEqual | OpNotEqual | OpGreaterThan | OpGreaterThanOrEqual | OpLessThan | OpLessThanOrEqual
  | OpContains | OpIsContainedBy | OpOverlap => true
  | _ => false
  end.

(* A Select passed as an argument: its statement, or the builder itself. *)
Inductive sub_arg (s : select) : gval -> Prop :=
| sub_statement : sub_arg s (GExpr (ESelect s))
| sub_builder : sub_arg s (g_select s).

(* A Select that can stand inside another statement: it has columns, and no comment, since a
   comment goes to the end of the line. *)
Definition finished (s : select) (b : body) : Prop := q_items b <> [] /\ s_comment s = "".

Definition opt_and (f : formula) (o : option formula) : option formula :=
  match o with None => Some f | Some g => Some (FAnd g f) end.

Definition nonzero (z : Z) : option N := if (z =? 0)%Z then None else Some (Z.to_N z).

Section Says.
  Context {O : Oracle} {m : view}.

  (* A table or column: a name that PostgreSQL reads back (C08), perhaps an alias. *)
  Definition plain_alias (a : string) : bool := String.eqb a "" || plain_name a.

  (* Table(x), t.Only(), t.As(a) *)
  Inductive table_value_says : table -> tableref -> Prop :=
  | table_new x : plain_name x = true ->
      table_value_says (lk_table x) {| tb_only := false; tb_name := parts_of x; tb_alias := [] |}
  | table_only_call t o n a : table_value_says t {| tb_only := o; tb_name := n; tb_alias := a |} ->
      table_value_says (table_only t) {| tb_only := true; tb_name := n; tb_alias := a |}
  | table_as_call t o n a x : table_value_says t {| tb_only := o; tb_name := n; tb_alias := a |} ->
      plain_name x = true ->
      table_value_says (table_as t x) {| tb_only := o; tb_name := n; tb_alias := parts_of x |}.

  Inductive table_says : gval -> tableref -> Prop :=
  | table_string x : plain_name x = true ->
      table_says (GStr x) {| tb_only := false; tb_name := parts_of x; tb_alias := [] |}
  | table_value t r : table_value_says t r -> table_says (GTable t) r.

  (* Column(x), c.As(a) *)
  Inductive column_says : column -> name -> name -> Prop :=
  | column_new x : plain_name x = true -> column_says (lk_column x) (parts_of x) []
  | column_as_call c n a x : column_says c n a -> plain_name x = true ->
      column_says (column_as c x) n (parts_of x).

  (* Count(x), Max(x), Min(x), Sum(x), their As(a), and Distinct of Count: f, DISTINCT or not,
     the argument and the alias *)
  Definition agg_arg (x : string) : bool := (bare x && negb (String.eqb x "DISTINCT")) || String.eqb x "*".
  Inductive aggregate_says : selexpr -> string -> bool -> string -> string -> Prop :=
  | agg_count x : agg_arg x = true -> aggregate_says (lk_count x) "COUNT" false x ""
  | agg_max x : agg_arg x = true -> aggregate_says (lk_max x) "MAX" false x ""
  | agg_min x : agg_arg x = true -> aggregate_says (lk_min x) "MIN" false x ""
  | agg_sum x : agg_arg x = true -> aggregate_says (lk_sum x) "SUM" false x ""
  | agg_as_call e f d x a b : aggregate_says e f d x a -> bare b = true ->
      aggregate_says (agg_as e b) f d x b
  | agg_distinct_call e d x a v : aggregate_says e "COUNT" d x a ->
      aggregate_says (agg_distinct e v) "COUNT" v x a.

  (* The text that Raw(s) needs for the same: COUNT( * ), MAX(x) AS y *)
  Definition aggregate_text (f : string) (d : bool) (x a : string) : string :=
    f ++ "(" ++ (if d then "DISTINCT " else "") ++ x ++ ")" ++ (if String.eqb a "" then "" else " AS " ++ a).
  Inductive raw_item : string -> string -> bool -> string -> string -> Prop :=
  | raw_aggregate f d x a : In f ["COUNT"; "MAX"; "MIN"; "SUM"] -> agg_arg x = true -> a = "" \/ bare a = true ->
      raw_item (aggregate_text f d x a) f d x a.

  (* Order(x), Order(x, types.Asc), Order(x, types.Desc), Column(x).Asc(), Column(x).Desc(), and
     these of a column with an alias: the key and the direction *)
  Inductive order_says : order -> string * string -> Prop :=
  | order_default x : bare x = true -> order_says (lk_order x []) (x, "ASC")
  | order_option x d : bare x = true -> In d ["ASC"; "DESC"] -> order_says (lk_order x [d]) (x, d)
  | order_column x d : bare x = true -> In d ["ASC"; "DESC"] ->
      order_says (column_order (lk_column x) d) (x, d)
  | order_alias c x d : bare x = true -> In d ["ASC"; "DESC"] ->
      order_says (column_order (column_as c x) d) (x, d).

  (* Arguments that are lists of columns: "a, b", Column("a"). *)
  Inductive columns_say : list gval -> list name -> Prop :=
  | columns_none : columns_say [] []
  | columns_string x items rest ns : comma_items x items ->
      Forall (fun i => plain_name (trim_space i) = true) items -> columns_say rest ns ->
      columns_say (GStr x :: rest) (map (fun i => parts_of (trim_space i)) items ++ ns)%list
  | columns_value x rest ns : plain_name x = true -> columns_say rest ns ->
      columns_say (GColumn (lk_column x) :: rest) (parts_of x :: ns).

  (* The same, or one slice: []Column, []string. *)
  Inductive columns_args : list gval -> list name -> Prop :=
  | columns_each args ns : columns_say args ns -> columns_args args ns
  | columns_slice xs : forallb plain_name xs = true ->
      columns_args [GColumns (map lk_column xs)] (map parts_of xs)
  | columns_strings xs ns : columns_say (map GStr xs) ns -> columns_args [GStrs xs] ns.

  (* The elements of []Column and of []SelectExpression; subqueries in the latter are left out. *)
  Definition column_item_says (c : column) (i : item) : Prop :=
    exists n a, column_says c n a /\ i = ItName n a.
  Definition expr_item_says (e : selexpr) (i : item) : Prop :=
    (exists c, e = SColumn c /\ column_item_says c i)
    \/ (exists f d x a, aggregate_says e f d x a /\ i = ItAgg f d x a).

  (* The condition of a join. *)
  Inductive on_says : expr -> formula -> Prop :=
  | on_equal x y : plain_name x = true -> plain_name y = true ->
      on_says (lk_on x y) (FCmp (MName (parts_of x)) "=" (MName (parts_of y)))
  | on_and a b f g : on_says a f -> on_says b g -> on_says (lk_and_on a b) (FAnd f g)
  | on_or a b f g : on_says a f -> on_says b g -> on_says (lk_or_on a b) (FOr f g).

  (* A join condition given as text (C32 says how it is written). *)
  Definition equality_formula (e : JoinSpec.equality) : formula :=
    FCmp (MName (parts_of (JoinSpec.eq_left e))) "=" (MName (parts_of (JoinSpec.eq_right e))).
  Definition chain_formula (e : JoinSpec.equality) (rest : list (JoinSpec.conn * JoinSpec.equality))
    : formula :=
    fold_left (fun f oe => match fst oe with
                           | JoinSpec.AndC => FAnd f (equality_formula (snd oe))
                           | JoinSpec.OrC => FOr f (equality_formula (snd oe))
                           end) rest (equality_formula e).
  Definition plain_equality (e : JoinSpec.equality) : bool :=
    plain_name (JoinSpec.eq_left e) && plain_name (JoinSpec.eq_right e).

  (* The comparisons that Call has. *)
  Definition call_methods : list cmp := [OpEqual; OpGreaterThan; OpLessThan; OpLike; OpILike; OpOverlap].

  Inductive says : expr -> formula -> Prop :=
  (* Condition(x).Equal(v), ... *)
  | says_cmp x o v a e : plain_name x = true -> operand_says o v a ->
      cmp_expr (lk_condition (GStr x)) o v = Ok e ->
      says e (FCmp (MName (parts_of x)) (sql_op o) a)
  (* Condition(x).IsNull(v) *)
  | says_is_null x v e : plain_name x = true -> is_null (lk_condition (GStr x)) v = Ok e ->
      says e (FCmp (MName (parts_of x)) (if v then "IS" else "IS NOT") MNull)
  (* Value(u).Equal(v), ... *)
  | says_value u a0 o v a e : shown u = Some a0 -> operand_says o v a ->
      cmp_expr (lk_value u) o v = Ok e -> says e (FCmp a0 (sql_op o) a)
  (* Condition(x).In(vs...) and NotIn *)
  | says_in x vs l e : plain_name x = true -> vs <> [] -> vs <> [GNil] -> forallb plain_value vs = true ->
      Forall2 (fun v a => shown v = Some a) vs l ->
      expr_in (lk_condition (GStr x)) vs = Ok e -> says e (FIn false (MName (parts_of x)) l)
  | says_not_in x vs l e : plain_name x = true -> vs <> [] -> vs <> [GNil] -> forallb plain_value vs = true ->
      Forall2 (fun v a => shown v = Some a) vs l ->
      expr_not_in (lk_condition (GStr x)) vs = Ok e -> says e (FIn true (MName (parts_of x)) l)
  | says_in_sub x g s b e : plain_name x = true -> sub_arg s g -> sel_says s b -> finished s b ->
      expr_in (lk_condition (GStr x)) [g] = Ok e -> says e (FInSub false (MName (parts_of x)) (Query b))
  | says_not_in_sub x g s b e : plain_name x = true -> sub_arg s g -> sel_says s b -> finished s b ->
      expr_not_in (lk_condition (GStr x)) [g] = Ok e -> says e (FInSub true (MName (parts_of x)) (Query b))
  (* Condition(x).Between(a, b) and NotBetween *)
  | says_between x u v a b e : plain_name x = true -> value_says u a -> value_says v b ->
      ident_between (GStr x) u v = Ok e -> says e (FBetween false (MName (parts_of x)) a b)
  | says_not_between x u v a b e : plain_name x = true -> value_says u a -> value_says v b ->
      ident_not_between (GStr x) u v = Ok e -> says e (FBetween true (MName (parts_of x)) a b)
  (* Exists(subquery) and NotExists *)
  | says_exists g s b e : sub_arg s g -> sel_says s b -> finished s b ->
      lk_exists g = Ok e -> says e (FExists false (Query b))
  | says_not_exists g s b e : sub_arg s g -> sel_says s b -> finished s b ->
      lk_not_exists g = Ok e -> says e (FExists true (Query b))
  (* And(l, r), Or(l, r), l.And(r), l.Or(r) *)
  | says_and l r f g : says l f -> says r g -> says (lk_and l r) (FAnd f g)
  | says_or l r f g : says l f -> says r g -> says (lk_or l r) (FOr f g)
  | says_infix_and l r f g : says l f -> says r g -> says (infix_and l r) (FAnd f g)
  | says_infix_or l r f g : says l f -> says r g -> says (infix_or l r) (FOr f g)
  (* On(x, y), AndOn, OrOn *)
  | says_on e f : on_says e f -> says e f
  (* NewCall(f, ...).Equal(v), ..., NewCall(f, ...).In(vs...) *)
  | says_call c t o v a e : call_says c t -> In o call_methods -> operand_says o v a ->
      cmp_expr c o v = Ok e -> says e (FCmp t (sql_op o) a)
  | says_call_in c t vs l e : call_says c t -> vs <> [] -> vs <> [GNil] -> forallb plain_value vs = true ->
      Forall2 (fun v a => shown v = Some a) vs l -> expr_in c vs = Ok e -> says e (FIn false t l)
  | says_call_in_sub c t g s b e : call_says c t -> sub_arg s g -> sel_says s b -> finished s b ->
      expr_in c [g] = Ok e -> says e (FInSub false t (Query b))

  (* The right operand of a comparison. *)
  with operand_says : cmp -> gval -> term -> Prop :=
  | operand_value o v a : value_says v a -> operand_says o v a
  (* Condition(x), a column *)
  | operand_column o x : plain_name x = true -> operand_says o (GExpr (lk_condition (GStr x))) (MName (parts_of x))
  | operand_sub o g s b : takes_subquery o = true -> sub_arg s g -> sel_says s b -> finished s b ->
      operand_says o g (MSub (Query b))

  (* Items one by one: "a, b", Column("a").As("b"), Count("x"), Raw("COUNT(x)"), Exists(subquery). *)
  with items_say : list gval -> list item -> Prop :=
  | items_none : items_say [] []
  | items_string x items rest l : comma_items x items ->
      Forall (fun i => plain_name (trim_space i) = true) items -> items_say rest l ->
      items_say (GStr x :: rest) (map (fun i => ItName (parts_of (trim_space i)) []) items ++ l)%list
  | items_column c n a rest l : column_says c n a -> items_say rest l ->
      items_say (GColumn c :: rest) (ItName n a :: l)
  | items_agg e f d x a rest l : aggregate_says e f d x a -> items_say rest l ->
      items_say (GSel e :: rest) (ItAgg f d x a :: l)
  | items_raw s f d x a rest l : raw_item s f d x a -> items_say rest l ->
      items_say (GExpr (ERaw s) :: rest) (ItAgg f d x a :: l)
  | items_exists g s b e rest l : sub_arg s g -> sel_says s b -> finished s b -> lk_exists g = Ok e ->
      items_say rest l -> items_say (GExpr e :: rest) (ItExists false (Query b) :: l)
  | items_not_exists g s b e rest l : sub_arg s g -> sel_says s b -> finished s b ->
      lk_not_exists g = Ok e ->
      items_say rest l -> items_say (GExpr e :: rest) (ItExists true (Query b) :: l)

  (* The arguments of Select, Columns and Returning: items, or one slice: []Column, []string,
     []SelectExpression. The strings of a slice are names: they are not split at commas. *)
  with args_say : list gval -> list item -> Prop :=
  | args_items args l : items_say args l -> args_say args l
  | args_columns cs l : Forall2 column_item_says cs l -> args_say [GColumns cs] l
  | args_strings xs : forallb plain_name xs = true ->
      args_say [GStrs xs] (map (fun x => ItName (parts_of x) []) xs)
  | args_exprs es l : Forall2 expr_item_says es l -> args_say [GSels es] l

  (* The arguments of With. *)
  with withs_say : list withq -> list (string * squery) -> Prop :=
  | withs_none : withs_say [] []
  | withs_some x g s b w rest l : bare x = true -> sub_arg s g -> sel_says s b -> finished s b ->
      lk_with x g = Ok w -> withs_say rest l -> withs_say (w :: rest) ((x, Query b) :: l)

  (* A Select builder. *)
  with sel_says : select -> body -> Prop :=
  | sel_new : sel_says new_select empty_body
  | sel_columns s b args l s' : sel_says s b -> args <> [] -> args_say args l ->
      sel_step s (SelColumns args) = Ok s' -> sel_says s' (set_items l b)
  | sel_distinct s b s' : sel_says s b -> sel_step s SelDistinct = Ok s' -> sel_says s' (set_distinct true b)
  | sel_distinct_on s b args ns s' : sel_says s b -> columns_args args ns ->
      sel_step s (SelDistinctOn args) = Ok s' -> sel_says s' (set_distinct_on ns b)
  | sel_from s b args ts s' : sel_says s b -> Forall2 table_says args ts ->
      sel_step s (SelFrom args) = Ok s' -> sel_says s' (set_from ts b)
  (* Join(table, on) and Join(table, on, type) *)
  | sel_join_on s b g t c f s' : sel_says s b -> table_says g t -> on_says c f ->
      sel_step s (SelJoin [g; GExpr c]) = Ok s' ->
      sel_says s' (set_joins (q_joins b ++ [(["INNER"; "JOIN"], t, f)])%list b)
  | sel_join_type s b g t c f kw s' : sel_says s b -> table_says g t -> on_says c f -> In kw join_types ->
      sel_step s (SelJoin [g; GExpr c; GJoinType (spaced kw)]) = Ok s' ->
      sel_says s' (set_joins (q_joins b ++ [(kw, t, f)])%list b)
  (* Join("LEFT JOIN t ON a = b AND ...") *)
  | sel_join_text s b ls txt kw t e rest s' : sel_says s b -> In kw join_types ->
      JoinSpec.writes_join ls (spaced kw) t e rest -> Scan.layout false ls txt ->
      plain_name t = true -> forallb plain_equality (e :: map snd rest) = true ->
      sel_step s (SelJoin [GStr txt]) = Ok s' ->
      sel_says s' (set_joins (q_joins b ++
        [(kw, {| tb_only := false; tb_name := parts_of t; tb_alias := [] |}, chain_formula e rest)])%list b)
  | sel_with s b ws l s' : sel_says s b -> withs_say ws l ->
      sel_step s (SelWith ws) = Ok s' -> sel_says s' (set_with (q_with b ++ l)%list b)
  | sel_where s b e f s' : sel_says s b -> says e f -> sel_step s (SelWhere e) = Ok s' ->
      sel_says s' (set_where (opt_and f (q_where b)) b)
  | sel_and s b e f g s' : sel_says s b -> says e f -> q_where b = Some g ->
      sel_step s (SelAnd e) = Ok s' -> sel_says s' (set_where (Some (FAnd g f)) b)
  | sel_or s b e f g s' : sel_says s b -> says e f -> q_where b = Some g ->
      sel_step s (SelOr e) = Ok s' -> sel_says s' (set_where (Some (FOr g f)) b)
  | sel_group_by s b args ns s' : sel_says s b -> columns_args args ns ->
      sel_step s (SelGroupBy args) = Ok s' -> sel_says s' (set_group_by ns b)
  | sel_having s b e f s' : sel_says s b -> says e f -> sel_step s (SelHaving e) = Ok s' ->
      sel_says s' (set_having (Some f) b)
  | sel_order_by s b os l s' : sel_says s b -> Forall2 order_says os l ->
      sel_step s (SelOrderBy os) = Ok s' ->
      sel_says s' (set_order_by (q_order_by b ++ l)%list b)
  | sel_limit s b g z s' : sel_says s b -> typed g -> (forall l, g <> GLimit l) -> int_value g = Some z ->
      sel_step s (SelLimit g) = Ok s' -> sel_says s' (set_limit (nonzero z) b)
  | sel_offset s b g z s' : sel_says s b -> typed g -> (forall l, g <> GOffset l) -> int_value g = Some z ->
      sel_step s (SelOffset g) = Ok s' -> sel_says s' (set_offset (nonzero z) b)
  | sel_suffix s b ws s' : sel_says s b -> forallb bare ws = true -> existsb (String.eqb (hd "" ws)) reserved = false ->
      sel_step s (SelSuffix (GStr (spaced ws))) = Ok s' -> sel_says s' (set_suffix ws b)
  | sel_prefix s b ws s' : sel_says s b -> forallb bare ws = true ->
      forallb (fun w => negb (String.eqb w "WITH" || String.eqb w "SELECT")) ws = true ->
      sel_step s (SelPrefix (GStr (spaced ws))) = Ok s' -> sel_says s' (set_prefix ws b)
  (* a comment without line breaks is not part of the query *)
  | sel_comment s b c s' : sel_says s b -> forallb (fun a => negb (newline a)) (list_ascii_of_string c) = true ->
      sel_step s (SelComment c) = Ok s' -> sel_says s' b.
End Says.

Scheme says_min := Minimality for says Sort Prop
  with operand_says_min := Minimality for operand_says Sort Prop
  with items_say_min := Minimality for items_say Sort Prop
  with args_say_min := Minimality for args_say Sort Prop
  with withs_say_min := Minimality for withs_say Sort Prop
  with sel_says_min := Minimality for sel_says Sort Prop.
Combined Scheme says_mutind from says_min, operand_says_min, items_say_min, args_say_min, withs_say_min, sel_says_min.
