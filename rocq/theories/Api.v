(* Constructors of expressions: NewExpression, arrays, comparison methods, loukoum.go. *)
From Verif Require Export Write.

(* stmt/expression.go:19-54 NewExpression. An interface{} holding a nil Expression is nil. *)
Definition new_expression (g : gval) : res expr :=
  match g with
  | GNil | GExpr ENil => Ok (EValue GNil)
  | GExpr e => Ok e
  | GStr _ | GBool _ | GInt _ _ | GFloat _ _ | GBytes _ | GValuer _ | GNilValuer | GValuerErr
  | GInts KInt64 _ | GStrs _ | GBindable _ _ | GMapStr _ | GMapAny _ => Ok (EValue g)
  | GTime _ => Ok (EValue g)
  | GTimePtr (Some t) => Ok (EValue (GTime t))
  | GTimePtr None => Panic PNilDeref
  | GStmtEnc (Some ENil) | GStmtEnc None => Panic (PCannotUse "loukoum Expression")
  | GStmtEnc (Some e) => Ok e
  | GInt64Enc z => Ok (EValue (GInt KInt64 z))
  | GBoolEnc b => Ok (EValue (GBool b))
  | GTimeEnc t => Ok (EValue (GTime t))
  | GStringEnc s => Ok (EValue (GStr s))
  | GJoinType s => Ok (EValue (GStr s))    (* types.JoinType has a String method *)
  | _ => Panic (PCannotUse "loukoum Expression")
  end.

(* stmt/expression.go:549-566 NewWrapper *)
Definition new_wrapper (e : expr) : expr :=
  match e with
  | ESelect _ | EExists _ | ENotExists _ => EWrap e
  | _ => e
  end.

(* stmt/expression.go:402-477 toArray: the elements of a slice as interface{} values, and
   None when the argument is not one of the listed slice types. *)
Definition slice_elems (g : gval) : option (list gval) :=
  match g with
  | GStrs l => Some (map GStr l)
  | GInts KUint8 _ => None
  | GInts k l => Some (map (GInt k) l)
  | GBools l => Some (map GBool l)
  | GFloats k l => Some (map (GFloat k) l)
  | GBytess l => Some (map GBytes l)
  | GExprs l => Some (map GExpr l)
  | GAnys l => Some l
  | _ => None
  end.

(* stmt/expression.go:402-477 toArray *)
Definition to_array (g : gval) : res (list expr) :=
  match g with
  | GNil | GExpr ENil => Ok []
  | _ => match slice_elems g with
         | Some l => map_res new_expression l
         | None => map_res new_expression [g]
         end
  end.

(* stmt/expression.go:388-398 NewArrayExpression *)
Definition new_array (values : list gval) : res expr :=
  do l <- match values with
          | [v] => to_array v
          | _ => map_res new_expression values
          end;
  Ok (EArray l).

(* stmt/expression.go:307-358 toArrayList: the rows of a slice of slices. *)
Definition row_elems (g : gval) : list (list gval) :=
  match g with
  | GAnyss rows => rows
  | GStrss rows => map (map GStr) rows
  | GIntss KInt rows => map (map (GInt KInt)) rows
  | GIntss KInt64 rows => map (map (GInt KInt64)) rows
  | GBoolss rows => map (map GBool) rows
  | GExprss rows => map (map GExpr) rows
  | _ => []
  end.

Definition to_array_list (g : gval) : res (list expr) := map_res new_array (row_elems g).

(* stmt/expression.go:297-305 NewArrayListExpression: values[0] on an empty slice panics. *)
Definition new_array_list (values : list gval) : res expr :=
  match values with
  | [] => Panic PIndex
  | v :: _ =>
    do l <- to_array_list v;
    if nonempty l then Ok (EArrayList l)
    else do a <- new_array values; Ok (EArrayList [a])
  end.

(* ------------------------------------------------------------------------- *)
(* Comparison methods                                                         *)
(* ------------------------------------------------------------------------- *)

(* NewInfixExpression(left, NewComparisonOperator(op), NewWrapper(NewExpression(v))) *)
Definition infix_wrapped (left : expr) (o : string) (v : gval) : res expr :=
  do e <- new_expression v; Ok (EInfix left (Some o) (new_wrapper e)).
(* NewInfixExpression(left, NewComparisonOperator(op), NewExpression(v)) *)
Definition infix_plain (left : expr) (o : string) (v : gval) : res expr :=
  do e <- new_expression v; Ok (EInfix left (Some o) e).

(* types/operator.go:25-47 ComparisonOperator *)
Inductive cmp :=
| OpEqual | OpNotEqual | OpIs | OpIsNot | OpGreaterThan | OpGreaterThanOrEqual | OpLessThan
| OpLessThanOrEqual | OpLike | OpNotLike | OpILike | OpNotILike | OpIsDistinctFrom
| OpIsNotDistinctFrom | OpContains | OpIsContainedBy | OpOverlap.

(* types/operator.go:25-47 *)
Definition cmp_text (c : cmp) : string :=
  match c with
  | OpEqual => "="
  | OpNotEqual => "!="
  | OpIs => "IS"
  | OpIsNot => "IS NOT"
  | OpGreaterThan => ">"
  | OpGreaterThanOrEqual => ">="
  | OpLessThan => "<"
  | OpLessThanOrEqual => "<="
  | OpLike => "LIKE"
  | OpNotLike => "NOT LIKE"
  | OpILike => "ILIKE"
  | OpNotILike => "NOT ILIKE"
  | OpIsDistinctFrom => "IS DISTINCT FROM"
  | OpIsNotDistinctFrom => "IS NOT DISTINCT FROM"
  | OpContains => "@>"
  | OpIsContainedBy => "<@"
  | OpOverlap => "&&"
  end.

(* Whether the method passes its operand through NewWrapper. *)
Definition cmp_wraps (c : cmp) : bool :=
  match c with
  | OpIs | OpIsNot | OpLike | OpNotLike | OpILike | OpNotILike
  | OpIsDistinctFrom | OpIsNotDistinctFrom => false
  | _ => true
  end.

(* stmt/expression.go:90-129, 140-161, 174-195, 208-217 (Identifier), 250-277 (Value: Overlap,
   Equal, NotEqual, Contains, IsContainedBy) and 619-657 (Call: Equal, GreaterThan, LessThan,
   Like, ILike, Overlap): the comparison methods, by operator. *)
Definition cmp_expr (left : expr) (c : cmp) (v : gval) : res expr :=
  if cmp_wraps c then infix_wrapped left (cmp_text c) v else infix_plain left (cmp_text c) v.

(* stmt/expression.go:132-137 IsNull *)
Definition is_null (left : expr) (value : bool) : res expr :=
  if value then cmp_expr left OpIs GNil else cmp_expr left OpIsNot GNil.

(* stmt/expression.go:164-166, 649-651, stmt/in.go:15-21 *)
Definition expr_in (left : expr) (values : list gval) : res expr :=
  do a <- new_array values; Ok (EIn left "IN" a).
(* stmt/expression.go:169-171, stmt/in.go:24-30 *)
Definition expr_not_in (left : expr) (values : list gval) : res expr :=
  do a <- new_array values; Ok (EIn left "NOT IN" a).
(* stmt/expression.go:198-200, stmt/between.go:17-25 *)
Definition ident_between (id from to : gval) : res expr :=
  do f <- new_expression from; do t <- new_expression to; Ok (EBetween id "BETWEEN" f "AND" t).
(* stmt/expression.go:203-205, stmt/between.go:28-36 *)
Definition ident_not_between (id from to : gval) : res expr :=
  do f <- new_expression from; do t <- new_expression to; Ok (EBetween id "NOT BETWEEN" f "AND" t).

(* stmt/infix.go:48-57 InfixExpression.And / Or *)
Definition infix_and (l r : expr) : expr := EInfix l (Some "AND") (new_wrapper r).
Definition infix_or (l r : expr) : expr := EInfix l (Some "OR") (new_wrapper r).
(* stmt/in.go:57-66 In.And / Or; loukoum.go:94-101 And / Or *)
Definition lk_and (l r : expr) : expr := EInfix l (Some "AND") r.
Definition lk_or (l r : expr) : expr := EInfix l (Some "OR") r.

(* ------------------------------------------------------------------------- *)
(* loukoum.go                                                                 *)
(* ------------------------------------------------------------------------- *)

(* loukoum.go:35-37 Value *)
Definition lk_value (g : gval) : expr := EValue g.
(* loukoum.go:45-47 Column, stmt/column.go:15-25 *)
Definition lk_column (name : string) : column := {| c_name := name; c_alias := "" |}.
(* stmt/column.go:28-31 As *)
Definition column_as (c : column) (alias : string) : column := {| c_name := c_name c; c_alias := alias |}.
(* loukoum.go:50-52 Table, stmt/table.go:16-32 *)
Definition lk_table (name : string) : table := {| t_name := name; t_alias := ""; t_only := false |}.
(* stmt/table.go:35-38 As *)
Definition table_as (t : table) (alias : string) : table :=
  {| t_name := t_name t; t_alias := alias; t_only := t_only t |}.
(* stmt/table.go:21-24 Only *)
Definition table_only (t : table) : table :=
  {| t_name := t_name t; t_alias := t_alias t; t_only := true |}.
(* loukoum.go:55-57 On *)
Definition lk_on (left right : string) : expr := EOn (lk_column left) (lk_column right).
(* loukoum.go:60-67 AndOn / OrOn; stmt/on.go:34-43, 104-113 And / Or *)
Definition lk_and_on (l r : expr) : expr := EInfixOn l "AND" r.
Definition lk_or_on (l r : expr) : expr := EInfixOn l "OR" r.
(* loukoum.go:70-72 Condition *)
Definition lk_condition (g : gval) : expr := EIdent g.
(* loukoum.go:75-81 Order: types.Asc unless an option is given *)
Definition lk_order (column : string) (option : list string) : order :=
  {| o_expr := column; o_type := match option with [] => "ASC" | t :: _ => t end |}.
(* stmt/column.go:34-51 Asc / Desc *)
Definition column_order (c : column) (t : string) : order :=
  {| o_expr := if no_str (c_alias c) then c_name c else c_alias c; o_type := t |}.
(* loukoum.go:104-106 Raw *)
Definition lk_raw (s : string) : expr := ERaw s.
(* loukoum.go:109-116 Exists / NotExists, stmt/subquery.go:14-18, 46-50 *)
Definition lk_exists (g : gval) : res expr := do e <- new_expression g; Ok (EExists e).
Definition lk_not_exists (g : gval) : res expr := do e <- new_expression g; Ok (ENotExists e).
(* loukoum.go:119-136 Count / Max / Min / Sum *)
Definition lk_count (v : string) : selexpr := SAgg "COUNT" v false "".
Definition lk_max (v : string) : selexpr := SAgg "MAX" v false "".
Definition lk_min (v : string) : selexpr := SAgg "MIN" v false "".
Definition lk_sum (v : string) : selexpr := SAgg "SUM" v false "".
(* stmt/aggregate.go:23-26, 76-79, 119-122, 162-165 As; 29-32 Distinct *)
Definition agg_as (s : selexpr) (alias : string) : selexpr :=
  match s with SAgg f v d _ => SAgg f v d alias | _ => s end.
Definition agg_distinct (s : selexpr) (b : bool) : selexpr :=
  match s with SAgg f v _ a => SAgg f v b a | _ => s end.
(* loukoum.go:139-141 With, stmt/with.go:65-70 *)
Definition lk_with (name : string) (g : gval) : res withq :=
  do e <- new_expression g; Ok {| wq_name := name; wq_sub := e |}.
(* stmt.NewCall: stmt/expression.go:596-601 *)
Definition new_call (f : string) (args : list expr) : expr := ECall f args.
