(* Conversions of builder/builder.go and the four builders.

   A builder method has a value receiver: a call is a function from the statement held by
   the receiver to the statement held by the result. Sharing between the two (slices, maps)
   is not visible here; Forks.v and Race.v model it. *)
From Verif Require Export Parser.

(* panic("loukoum: given column is undefined") *)
Definition undefined (what : string) : panic := PMsg ("loukoum: given " ++ what ++ " is undefined").

(* builder/builder.go:54-70 ToColumn *)
Definition to_column (g : gval) : res column :=
  do c <- match g with
          | GStr s => Ok (lk_column (trim_space s))
          | GColumn c => Ok c
          | _ => Panic (PCannotUse "column")
          end;
  if no_str (c_name c) then Panic (undefined "column") else Ok c.

(* if column.IsEmpty() { panic } *)
Definition check_column (c : column) : res column :=
  if no_str (c_name c) then Panic (undefined "column") else Ok c.

(* strings.Split(value, ",") then NewColumn(TrimSpace(item)), builder/builder.go:99-105 *)
Definition split_columns (s : string) : res (list column) :=
  map_res (fun item => check_column (lk_column (trim_space item))) (split_on "," s).

(* builder/builder.go:96-115 *)
Definition to_columns1 (g : gval) : res (list column) :=
  match g with
  | GStr s => split_columns s
  | GColumn c => do c <- check_column c; Ok [c]
  | _ => Panic (PCannotUse "column")
  end.

Definition concat_res {A} (l : list (res (list A))) : res (list A) :=
  do ls <- map_res (fun x => x) l; Ok (concat ls).

(* builder/builder.go:74-117 ToColumns *)
Definition to_columns (values : list gval) : res (list column) :=
  match values with
  | [GColumns l] => map_res check_column l
  | [GStrs l] => concat_res (map (fun s => to_columns1 (GStr s)) l)
  | _ => concat_res (map to_columns1 values)
  end.

(* IsEmpty of a SelectExpression: column.go:65, expression.go:529, aggregate.go:53-55, 96-98,
   139-141, 182-184, subquery.go:31, 65 *)
Definition selexpr_empty (s : selexpr) : bool :=
  match s with
  | SColumn c => no_str (c_name c)
  | SRaw s => no_str s
  | SAgg _ v _ _ => no_str v
  | _ => false
  end.

(* The values that implement stmt.SelectExpression. *)
Definition as_selexpr (g : gval) : option selexpr :=
  match g with
  | GColumn c => Some (SColumn c)
  | GExpr (ERaw s) => Some (SRaw s)
  | GExpr (EExists e) => Some (SExists e)
  | GExpr (ENotExists e) => Some (SNotExists e)
  | GSel SNil => None
  | GSel s => Some s
  | _ => None
  end.

(* builder/builder.go:147-165 *)
Definition to_selexprs1 (g : gval) : res (list selexpr) :=
  match as_selexpr g with
  | Some s => if selexpr_empty s then Panic (undefined "column") else Ok [s]
  | None =>
    match g with
    | GStr s => do l <- split_columns s; Ok (map SColumn l)
    | _ => Panic (PCannotUse "column")
    end
  end.

(* builder/builder.go:121-168 ToSelectExpressions *)
Definition to_selexprs (values : list gval) : res (list selexpr) :=
  match values with
  | [GSels l] => Ok l
  | [GColumns l] => do l <- map_res check_column l; Ok (map SColumn l)
  | [GStrs l] => Ok (map (fun s => SColumn (lk_column s)) l)
  | _ => concat_res (map to_selexprs1 values)
  end.

(* builder/builder.go:172-188 ToTable *)
Definition to_table (g : gval) : res table :=
  do t <- match g with
          | GStr s => Ok (lk_table s)
          | GTable t => Ok t
          | _ => Panic (PCannotUse "table")
          end;
  if no_str (t_name t) then Panic (undefined "table") else Ok t.

(* builder/builder.go:192-200 ToTables *)
Definition to_tables (l : list gval) : res (list table) := map_res to_table l.

(* builder/builder.go:203-227 ToFrom: an stmt.From argument is stored in a variable that is
   overwritten, and leaves a nil element. *)
Definition to_fromitem (g : gval) : res fromitem :=
  match g with
  | GStr s => Ok (FTable (lk_table s))
  | GFrom _ => Ok FNil
  | GTable t => Ok (FTable t)
  | GExpr (ERaw s) => Ok (FRaw s)
  | _ => Panic (PCannotUse "from clause")
  end.

Definition to_from (args : list gval) : res (list fromitem) :=
  do l <- map_res to_fromitem args;
  if nonempty l then Ok l else Panic (undefined "from clause").

(* builder/builder.go:231-249 ToInto *)
Definition to_into (g : gval) : res table :=
  do t <- match g with
          | GStr s => Ok (lk_table s)
          | GInto t => Ok t
          | GTable t => Ok t
          | _ => Panic (PCannotUse "into clause")
          end;
  if no_str (t_name t) then Panic (undefined "into clause") else Ok t.

(* builder/builder.go:253-269 ToSuffix *)
Definition to_suffix (g : gval) : res string :=
  do s <- match g with
          | GStr s => Ok s
          | GSuffix s => Ok s
          | _ => Panic (PCannotUse "suffix")
          end;
  if no_str s then Panic (undefined "suffix") else Ok s.

(* builder/builder.go:273-289 ToPrefix *)
Definition to_prefix (g : gval) : res string :=
  do s <- match g with
          | GStr s => Ok s
          | GPrefix s => Ok s
          | _ => Panic (PCannotUse "prefix")
          end;
  if no_str s then Panic (undefined "prefix") else Ok s.

(* The Go conversion int64(x): the value modulo 2^64, in two's complement. *)
Definition conv_int64 (z : Z) : Z :=
  ((z + 9223372036854775808) mod 18446744073709551616 - 9223372036854775808)%Z.

(* builder/builder.go:293-321 ToInt64; there is no case for uint. *)
Definition to_int64 (g : gval) : option Z :=
  match g with
  | GInt KUint _ => None
  | GInt KUint64 z => if (z <=? 9223372036854775807)%Z then Some (conv_int64 z) else None
  | GInt _ z => Some (conv_int64 z)
  | GStr s => parse_int s
  | _ => None
  end.

(* builder/builder.go:359-372 ToLimit *)
Definition to_limit (g : gval) : res Z :=
  match g with
  | GLimit z => Ok z
  | _ => match to_int64 g with
         | None => Panic (PCannotUse "limit")
         | Some z => if (z <=? 0)%Z then Panic (PMsg "loukoum: limit must be a positive integer")
                     else Ok z
         end
  end.

(* builder/builder.go:376-389 ToOffset *)
Definition to_offset (g : gval) : res Z :=
  match g with
  | GOffset z => Ok z
  | _ => match to_int64 g with
         | None => Panic (PCannotUse "offset")
         | Some z => if (z <? 0)%Z then Panic (PMsg "loukoum: offset must be a non-negative integer")
                     else Ok z
         end
  end.

(* ------------------------------------------------------------------------- *)
(* SET                                                                        *)
(* ------------------------------------------------------------------------- *)

(* stmt/set.go:58-65 NewPairContainer *)
Definition empty_pairs : pairs := {| p_mode := PUnknown; p_map := []; p_cols := []; p_exprs := [] |}.

Definition mix_panic : panic := PMsg "loukoum: you can only use pairs in key-value or column-list syntax".

(* pairs.Map[column] = expression *)
Fixpoint pm_set (c : column) (e : expr) (m : list (column * expr)) : list (column * expr) :=
  match m with
  | [] => [(c, e)]
  | (c', e') :: m' => if col_eqb c c' then (c, e) :: m' else (c', e') :: pm_set c e m'
  end.

(* stmt/set.go:74-88 Add *)
Definition pairs_add (p : pairs) (c : column) (e : expr) : res pairs :=
  let mode := match p_mode p with PUnknown => PAssoc | m => m end in
  match mode with
  | PAssoc =>
    let cols := match pm_get c (p_map p) with
                | Some _ => p_cols p
                | None => (p_cols p ++ [c])%list
                end in
    Ok {| p_mode := mode; p_map := pm_set c e (p_map p); p_cols := cols; p_exprs := p_exprs p |}
  | _ => Panic mix_panic
  end.

(* stmt/set.go:98-107 Set *)
Definition pairs_set (p : pairs) (c : column) : res pairs :=
  let mode := match p_mode p with PUnknown => PArray | m => m end in
  match mode with
  | PArray =>
    Ok {| p_mode := mode; p_map := p_map p; p_cols := (p_cols p ++ [c])%list; p_exprs := p_exprs p |}
  | _ => Panic mix_panic
  end.

(* stmt/set.go:117-123 Use *)
Definition pairs_use (p : pairs) (e : expr) : res pairs :=
  match p_mode p with
  | PArray =>
    Ok {| p_mode := p_mode p; p_map := p_map p; p_cols := p_cols p; p_exprs := (p_exprs p ++ [e])%list |}
  | _ => Panic (PMsg "loukoum: you have to define pairs columns first")
  end.

Fixpoint fold_res {A B} (f : A -> B -> res A) (l : list B) (a : A) : res A :=
  match l with
  | [] => Ok a
  | x :: xs => do a' <- f a x; fold_res f xs a'
  end.

(* set.Pairs.Add(ToColumn(k), NewWrapper(NewExpression(v))), builder/builder.go:335, 339, 342 *)
Definition merge_pair (p : pairs) (kv : gval * gval) : res pairs :=
  do c <- to_column (fst kv); do e <- new_expression (snd kv); pairs_add p c (new_wrapper e).

(* builder/builder.go:325-347 MergeSet, one argument. Maps are visited in the order in which
   the model lists their entries; theorems quantify over that order. *)
Definition merge_arg (p : pairs) (g : gval) : res pairs :=
  match g with
  | GStr _ | GColumn _ => do cols <- to_columns [g]; fold_res pairs_set cols p
  | GMapAny l => fold_res merge_pair (map (fun kv => (GStr (fst kv), snd kv)) l) p
  | GMap l => fold_res merge_pair l p
  | GPair k v => merge_pair p (k, v)
  | _ => Panic (PCannotUse "pair")
  end.

Definition merge_set (p : pairs) (args : list gval) : res pairs := fold_res merge_arg args p.

(* builder/builder.go:351-355 ToSet *)
Definition to_set (args : list gval) : res pairs :=
  merge_set {| p_mode := PAssoc; p_map := []; p_cols := []; p_exprs := [] |} args.

(* ------------------------------------------------------------------------- *)
(* SELECT builder                                                             *)
(* ------------------------------------------------------------------------- *)

(* builder/select.go:17-19 NewSelect *)
Definition new_select : select := {|
  s_prefix := ""; s_with := []; s_distinct := false; s_distinct_on := []; s_exprs := [];
  s_from := []; s_joins := []; s_where := ENil; s_group_by := []; s_having := ENil;
  s_order_by := []; s_limit := 0; s_offset := 0; s_suffix := ""; s_comment := "" |}.

(* Field updates b.query.X = v *)
Definition with_prefix (q : select) v : select := {| s_prefix := v; s_with := s_with q; s_distinct := s_distinct q; s_distinct_on := s_distinct_on q; s_exprs := s_exprs q; s_from := s_from q; s_joins := s_joins q; s_where := s_where q; s_group_by := s_group_by q; s_having := s_having q; s_order_by := s_order_by q; s_limit := s_limit q; s_offset := s_offset q; s_suffix := s_suffix q; s_comment := s_comment q |}.
Definition with_with (q : select) v : select := {| s_prefix := s_prefix q; s_with := v; s_distinct := s_distinct q; s_distinct_on := s_distinct_on q; s_exprs := s_exprs q; s_from := s_from q; s_joins := s_joins q; s_where := s_where q; s_group_by := s_group_by q; s_having := s_having q; s_order_by := s_order_by q; s_limit := s_limit q; s_offset := s_offset q; s_suffix := s_suffix q; s_comment := s_comment q |}.
Definition with_distinct (q : select) v : select := {| s_prefix := s_prefix q; s_with := s_with q; s_distinct := v; s_distinct_on := s_distinct_on q; s_exprs := s_exprs q; s_from := s_from q; s_joins := s_joins q; s_where := s_where q; s_group_by := s_group_by q; s_having := s_having q; s_order_by := s_order_by q; s_limit := s_limit q; s_offset := s_offset q; s_suffix := s_suffix q; s_comment := s_comment q |}.
Definition with_distinct_on (q : select) v : select := {| s_prefix := s_prefix q; s_with := s_with q; s_distinct := s_distinct q; s_distinct_on := v; s_exprs := s_exprs q; s_from := s_from q; s_joins := s_joins q; s_where := s_where q; s_group_by := s_group_by q; s_having := s_having q; s_order_by := s_order_by q; s_limit := s_limit q; s_offset := s_offset q; s_suffix := s_suffix q; s_comment := s_comment q |}.
Definition with_exprs (q : select) v : select := {| s_prefix := s_prefix q; s_with := s_with q; s_distinct := s_distinct q; s_distinct_on := s_distinct_on q; s_exprs := v; s_from := s_from q; s_joins := s_joins q; s_where := s_where q; s_group_by := s_group_by q; s_having := s_having q; s_order_by := s_order_by q; s_limit := s_limit q; s_offset := s_offset q; s_suffix := s_suffix q; s_comment := s_comment q |}.
Definition with_from (q : select) v : select := {| s_prefix := s_prefix q; s_with := s_with q; s_distinct := s_distinct q; s_distinct_on := s_distinct_on q; s_exprs := s_exprs q; s_from := v; s_joins := s_joins q; s_where := s_where q; s_group_by := s_group_by q; s_having := s_having q; s_order_by := s_order_by q; s_limit := s_limit q; s_offset := s_offset q; s_suffix := s_suffix q; s_comment := s_comment q |}.
Definition with_joins (q : select) v : select := {| s_prefix := s_prefix q; s_with := s_with q; s_distinct := s_distinct q; s_distinct_on := s_distinct_on q; s_exprs := s_exprs q; s_from := s_from q; s_joins := v; s_where := s_where q; s_group_by := s_group_by q; s_having := s_having q; s_order_by := s_order_by q; s_limit := s_limit q; s_offset := s_offset q; s_suffix := s_suffix q; s_comment := s_comment q |}.
Definition with_where (q : select) v : select := {| s_prefix := s_prefix q; s_with := s_with q; s_distinct := s_distinct q; s_distinct_on := s_distinct_on q; s_exprs := s_exprs q; s_from := s_from q; s_joins := s_joins q; s_where := v; s_group_by := s_group_by q; s_having := s_having q; s_order_by := s_order_by q; s_limit := s_limit q; s_offset := s_offset q; s_suffix := s_suffix q; s_comment := s_comment q |}.
Definition with_group_by (q : select) v : select := {| s_prefix := s_prefix q; s_with := s_with q; s_distinct := s_distinct q; s_distinct_on := s_distinct_on q; s_exprs := s_exprs q; s_from := s_from q; s_joins := s_joins q; s_where := s_where q; s_group_by := v; s_having := s_having q; s_order_by := s_order_by q; s_limit := s_limit q; s_offset := s_offset q; s_suffix := s_suffix q; s_comment := s_comment q |}.
Definition with_having (q : select) v : select := {| s_prefix := s_prefix q; s_with := s_with q; s_distinct := s_distinct q; s_distinct_on := s_distinct_on q; s_exprs := s_exprs q; s_from := s_from q; s_joins := s_joins q; s_where := s_where q; s_group_by := s_group_by q; s_having := v; s_order_by := s_order_by q; s_limit := s_limit q; s_offset := s_offset q; s_suffix := s_suffix q; s_comment := s_comment q |}.
Definition with_order_by (q : select) v : select := {| s_prefix := s_prefix q; s_with := s_with q; s_distinct := s_distinct q; s_distinct_on := s_distinct_on q; s_exprs := s_exprs q; s_from := s_from q; s_joins := s_joins q; s_where := s_where q; s_group_by := s_group_by q; s_having := s_having q; s_order_by := v; s_limit := s_limit q; s_offset := s_offset q; s_suffix := s_suffix q; s_comment := s_comment q |}.
Definition with_limit (q : select) v : select := {| s_prefix := s_prefix q; s_with := s_with q; s_distinct := s_distinct q; s_distinct_on := s_distinct_on q; s_exprs := s_exprs q; s_from := s_from q; s_joins := s_joins q; s_where := s_where q; s_group_by := s_group_by q; s_having := s_having q; s_order_by := s_order_by q; s_limit := v; s_offset := s_offset q; s_suffix := s_suffix q; s_comment := s_comment q |}.
Definition with_offset (q : select) v : select := {| s_prefix := s_prefix q; s_with := s_with q; s_distinct := s_distinct q; s_distinct_on := s_distinct_on q; s_exprs := s_exprs q; s_from := s_from q; s_joins := s_joins q; s_where := s_where q; s_group_by := s_group_by q; s_having := s_having q; s_order_by := s_order_by q; s_limit := s_limit q; s_offset := v; s_suffix := s_suffix q; s_comment := s_comment q |}.
Definition with_suffix (q : select) v : select := {| s_prefix := s_prefix q; s_with := s_with q; s_distinct := s_distinct q; s_distinct_on := s_distinct_on q; s_exprs := s_exprs q; s_from := s_from q; s_joins := s_joins q; s_where := s_where q; s_group_by := s_group_by q; s_having := s_having q; s_order_by := s_order_by q; s_limit := s_limit q; s_offset := s_offset q; s_suffix := v; s_comment := s_comment q |}.
Definition with_comment (q : select) v : select := {| s_prefix := s_prefix q; s_with := s_with q; s_distinct := s_distinct q; s_distinct_on := s_distinct_on q; s_exprs := s_exprs q; s_from := s_from q; s_joins := s_joins q; s_where := s_where q; s_group_by := s_group_by q; s_having := s_having q; s_order_by := s_order_by q; s_limit := s_limit q; s_offset := s_offset q; s_suffix := s_suffix q; s_comment := v |}.

(* A method call on a Select builder. *)
Inductive sel_call :=
| SelDistinctOn (args : list gval)
| SelDistinct
| SelColumns (args : list gval)
| SelFrom (args : list gval)
| SelJoin (args : list gval)
| SelWith (args : list withq)
| SelWhere (c : expr)
| SelAnd (c : expr)
| SelOr (c : expr)
| SelGroupBy (args : list gval)
| SelHaving (c : expr)
| SelOrderBy (orders : list order)
| SelLimit (v : gval)
| SelOffset (v : gval)
| SelSuffix (v : gval)
| SelPrefix (v : gval)
| SelComment (c : string).

Definition already (what : string) : panic := PMsg ("loukoum: " ++ what ++ " already defined").

(* stmt/where.go:14-18 NewWhere *)
Definition new_where (e : expr) : expr := new_wrapper e.

(* stmt/where.go:37-46 And *)
Definition where_and (wh c : expr) : res expr :=
  do b <- cond_empty wh;
  if b then Panic (PMsg "loukoum: two conditions are required for AND statement")
  else Ok (EInfix wh (Some "AND") (new_wrapper c)).
(* stmt/where.go:49-58 Or *)
Definition where_or (wh c : expr) : res expr :=
  do b <- cond_empty wh;
  if b then Panic (PMsg "loukoum: two conditions are required for OR statement")
  else Ok (EInfix wh (Some "OR") (new_wrapper c)).
(* builder/update.go:66-73, delete.go:42-49 Where *)
Definition where_where (wh c : expr) : res expr :=
  do b <- cond_empty wh;
  if b then Ok (new_where c) else where_and wh c.

(* stmt/join.go:51-53 IsEmpty *)
Definition join_empty (j : join) : res bool :=
  if no_str (j_type j) || no_str (t_name (j_table j)) then Ok true else is_empty (j_cond j).

Definition add_join (q : select) (j : join) : res select :=
  do b <- join_empty j;
  if b then Panic (undefined "join clause") else Ok (with_joins q (s_joins q ++ [j])%list).

(* builder/select.go:282-309 handleSelectJoin *)
Definition handle_join (a0 a1 : gval) : res join :=
  do t <- match a0 with
          | GStr s => Ok (lk_table s)
          | GTable t => Ok t
          | _ => Panic (PCannotUse "table argument for join clause")
          end;
  do j <- match a1 with
          | GStr s => must_parse_join s
          | GExpr (EOn l r) => Ok {| j_type := "INNER JOIN"; j_table := t; j_cond := EOn l r |}
          | GExpr (EInfixOn l o r) =>
            Ok {| j_type := "INNER JOIN"; j_table := t; j_cond := EInfixOn l o r |}
          | _ => Panic (PCannotUse "condition for join clause")
          end;
  Ok (set_table j t).

(* builder/select.go:67-129 Join, join1, join2, join3 *)
Definition sel_join (q : select) (args : list gval) : res select :=
  match args with
  | [a0] =>
    do j <- match a0 with
            | GStr s => must_parse_join s
            | GJoin j => Ok j
            | _ => Panic (PCannotUse "join clause")
            end;
    add_join q j
  | [a0; a1] => do j <- handle_join a0 a1; add_join q j
  | [a0; a1; a2] =>
    do j <- handle_join a0 a1;
    match a2 with
    | GJoinType t => add_join q (set_type j t)
    | _ => Panic (PCannotUse "join clause")
    end
  | _ => Panic (PMsg "loukoum: given join clause is invalid")
  end.

(* builder/select.go:22-251 *)
Definition sel_step (q : select) (c : sel_call) : res select :=
  match c with
  (* 22-36: the guard tests GroupBy *)
  | SelDistinctOn args =>
    if nonempty (s_group_by q) then Panic (already "select builder has distinct on clause")
    else do cols <- to_columns args;
         if nonempty cols then Ok (with_distinct_on q cols)
         else Panic (undefined "distinct on clause")
  (* 39-42 *)
  | SelDistinct => Ok (with_distinct q true)
  (* 45-53 *)
  | SelColumns args =>
    do es <- to_selexprs (match args with [] => [GStr "*"] | _ => args end);
    Ok (with_exprs q es)
  (* 56-64 *)
  | SelFrom args =>
    if nonempty (s_from q) then Panic (already "select builder has from clause")
    else do f <- to_from args; Ok (with_from q f)
  | SelJoin args => sel_join q args
  (* 132-140 *)
  | SelWith args =>
    Ok (with_with q (if nonempty (s_with q) then s_with q ++ args else args)%list)
  (* 143-153 *)
  | SelWhere c =>
    if is_nil c then Panic (PMsg "loukoum: condition must be not nil")
    else do wh <- where_where (s_where q) c; Ok (with_where q wh)
  (* 156-162 *)
  | SelAnd c =>
    if is_nil c then Panic (PMsg "loukoum: condition must be not nil")
    else do wh <- where_and (s_where q) c; Ok (with_where q wh)
  (* 165-168 *)
  | SelOr c => do wh <- where_or (s_where q) c; Ok (with_where q wh)
  (* 171-185 *)
  | SelGroupBy args =>
    if nonempty (s_group_by q) then Panic (already "select builder has group by clause")
    else do cols <- to_columns args;
         if nonempty cols then Ok (with_group_by q cols) else Panic (undefined "join clause")
  (* 188-196; stmt/having.go:15-19 *)
  | SelHaving c =>
    do b <- cond_empty (s_having q);
    if b then Ok (with_having q c) else Panic (already "select builder has having clause")
  (* 199-202 *)
  | SelOrderBy orders => Ok (with_order_by q (s_order_by q ++ orders)%list)
  (* 205-212 *)
  | SelLimit v =>
    if (s_limit q =? 0)%Z then do z <- to_limit v; Ok (with_limit q z)
    else Panic (already "select builder has limit clause")
  (* 215-222 *)
  | SelOffset v =>
    if (s_offset q =? 0)%Z then do z <- to_offset v; Ok (with_offset q z)
    else Panic (already "select builder has offset clause")
  (* 225-233: the guard tests Offset *)
  | SelSuffix v =>
    if (s_offset q =? 0)%Z then do s <- to_suffix v; Ok (with_suffix q s)
    else Panic (already "select builder has suffixes clauses")
  (* 236-244: the guard tests Offset *)
  | SelPrefix v =>
    if (s_offset q =? 0)%Z then do s <- to_prefix v; Ok (with_prefix q s)
    else Panic (already "select builder has prefixes clauses")
  (* 247-251 *)
  | SelComment c => Ok (with_comment q c)
  end.

(* A chain of method calls. *)
Definition sel_run (q : select) (cs : list sel_call) : res select := fold_res sel_step cs q.

(* loukoum.go:40-42 Select *)
Definition lk_select (columns : list gval) : res select := sel_step new_select (SelColumns columns).

(* ------------------------------------------------------------------------- *)
(* INSERT builder                                                             *)
(* ------------------------------------------------------------------------- *)

(* builder/insert.go:16-20 NewInsert *)
Definition new_insert : insert := {|
  i_into := zero_table; i_columns := []; i_values := ENil; i_conflict_target := [];
  i_conflict_action := None; i_returning := []; i_comment := "" |}.

Inductive ins_call :=
| InsInto (g : gval)
| InsColumns (args : list gval)
| InsValues (args : list gval)
| InsReturning (args : list gval)
| InsComment (c : string)
| InsOnConflict (args : list gval)
| InsSet (args : list gval).

(* Field updates *)
Definition ins_with_into (i : insert) v := {| i_into := v; i_columns := i_columns i; i_values := i_values i; i_conflict_target := i_conflict_target i; i_conflict_action := i_conflict_action i; i_returning := i_returning i; i_comment := i_comment i |}.
Definition ins_with_columns (i : insert) v := {| i_into := i_into i; i_columns := v; i_values := i_values i; i_conflict_target := i_conflict_target i; i_conflict_action := i_conflict_action i; i_returning := i_returning i; i_comment := i_comment i |}.
Definition ins_with_values (i : insert) v := {| i_into := i_into i; i_columns := i_columns i; i_values := v; i_conflict_target := i_conflict_target i; i_conflict_action := i_conflict_action i; i_returning := i_returning i; i_comment := i_comment i |}.
Definition ins_with_conflict (i : insert) l a := {| i_into := i_into i; i_columns := i_columns i; i_values := i_values i; i_conflict_target := l; i_conflict_action := a; i_returning := i_returning i; i_comment := i_comment i |}.
Definition ins_with_returning (i : insert) v := {| i_into := i_into i; i_columns := i_columns i; i_values := i_values i; i_conflict_target := i_conflict_target i; i_conflict_action := i_conflict_action i; i_returning := v; i_comment := i_comment i |}.
Definition ins_with_comment (i : insert) v := {| i_into := i_into i; i_columns := i_columns i; i_values := i_values i; i_conflict_target := i_conflict_target i; i_conflict_action := i_conflict_action i; i_returning := i_returning i; i_comment := v |}.

(* builder/insert.go:86-104: the loop over the arguments *)
Fixpoint on_conflict_loop (args : list gval) (target : list column)
  : res (list column * conflict_action) :=
  match args with
  | [] => Panic (PMsg "loukoum: on conflict clause requires an action")
  | g :: rest =>
    match g with
    | GStr _ | GColumn _ => do c <- to_column g; on_conflict_loop rest (target ++ [c])%list
    | GConflictNo => Ok (target, ActNothing)
    | GConflictUpdate p =>
      if nonempty target then Ok (target, ActUpdate p)
      else Panic (PMsg "loukoum: on conflict update clause requires at least one target")
    | _ => Panic (PCannotUse "on conflict clause")
    end
  end.

Section InsertBuilder.
  Context {O : Oracle}.

  (* builder/insert.go:23-126 *)
  Definition ins_step (i : insert) (c : ins_call) : res insert :=
    match c with
    (* 23-31 *)
    | InsInto g =>
      if no_str (t_name (i_into i)) then do t <- to_into g; Ok (ins_with_into i t)
      else Panic (already "insert builder has into clause")
    (* 34-45 *)
    | InsColumns [] => Ok i
    | InsColumns args =>
      if nonempty (i_columns i) then Panic (already "insert builder has columns clause")
      else do cols <- to_columns args; Ok (ins_with_columns i cols)
    (* 48-56 *)
    | InsValues args =>
      do b <- cond_empty (i_values i);
      if b then do e <- new_array_list args; Ok (ins_with_values i e)
      else Panic (already "insert builder has values clause")
    (* 59-67 *)
    | InsReturning args =>
      if nonempty (i_returning i) then Panic (already "insert builder has returning clause")
      else do l <- to_selexprs args; Ok (ins_with_returning i l)
    (* 70-74 *)
    | InsComment c => Ok (ins_with_comment i c)
    (* 77-105 *)
    | InsOnConflict args =>
      if conflict_empty (i_conflict_action i) then
        match args with
        | [] => Panic (PMsg "loukoum: on conflict clause requires arguments")
        | _ => do ta <- on_conflict_loop args (i_conflict_target i);
               Ok (ins_with_conflict i (fst ta) (Some (snd ta)))
        end
      else Panic (already "insert builder has on conflict clause")
    (* 108-126 *)
    | InsSet args =>
      if nonempty (i_columns i) then Panic (already "insert builder has columns clause")
      else
        do b <- cond_empty (i_values i);
        if b then
          do p <- to_set args;
          do ce <- pairs_values p;
          do e <- new_array_list [GExprs (snd ce)];
          Ok (ins_with_values (ins_with_columns i (fst ce)) e)
        else Panic (already "insert builder has values clause")
    end.

  Definition ins_run (i : insert) (cs : list ins_call) : res insert := fold_res ins_step cs i.

  (* loukoum.go:144-146 Insert *)
  Definition lk_insert (g : gval) : res insert := ins_step new_insert (InsInto g).
End InsertBuilder.

(* loukoum.go:159-161 DoNothing, 164-166 DoUpdate *)
Definition lk_do_nothing : gval := GConflictNo.
Definition lk_do_update (args : list gval) : res gval := do p <- to_set args; Ok (GConflictUpdate p).

(* ------------------------------------------------------------------------- *)
(* UPDATE builder                                                             *)
(* ------------------------------------------------------------------------- *)

(* loukoum.go:154-156 Update, builder/update.go:14-18, stmt/update.go:21-26 *)
Definition lk_update (g : gval) : res update :=
  do t <- to_table g;
  Ok {| u_with := []; u_table := t; u_only := false; u_from := []; u_set := empty_pairs;
        u_where := ENil; u_returning := []; u_comment := "" |}.

Inductive upd_call :=
| UpdOnly
| UpdSet (args : list gval)
| UpdUsing (args : list gval)
| UpdWith (args : list withq)
| UpdWhere (c : expr)
| UpdAnd (c : expr)
| UpdOr (c : expr)
| UpdFrom (g : gval)
| UpdReturning (args : list gval)
| UpdComment (c : string).

(* Field updates *)
Definition upd_with_with (u : update) v := {| u_with := v; u_table := u_table u; u_only := u_only u; u_from := u_from u; u_set := u_set u; u_where := u_where u; u_returning := u_returning u; u_comment := u_comment u |}.
Definition upd_with_only (u : update) v := {| u_with := u_with u; u_table := u_table u; u_only := v; u_from := u_from u; u_set := u_set u; u_where := u_where u; u_returning := u_returning u; u_comment := u_comment u |}.
Definition upd_with_from (u : update) v := {| u_with := u_with u; u_table := u_table u; u_only := u_only u; u_from := v; u_set := u_set u; u_where := u_where u; u_returning := u_returning u; u_comment := u_comment u |}.
Definition upd_with_set (u : update) v := {| u_with := u_with u; u_table := u_table u; u_only := u_only u; u_from := u_from u; u_set := v; u_where := u_where u; u_returning := u_returning u; u_comment := u_comment u |}.
Definition upd_with_where (u : update) v := {| u_with := u_with u; u_table := u_table u; u_only := u_only u; u_from := u_from u; u_set := u_set u; u_where := v; u_returning := u_returning u; u_comment := u_comment u |}.
Definition upd_with_returning (u : update) v := {| u_with := u_with u; u_table := u_table u; u_only := u_only u; u_from := u_from u; u_set := u_set u; u_where := u_where u; u_returning := v; u_comment := u_comment u |}.
Definition upd_with_comment (u : update) v := {| u_with := u_with u; u_table := u_table u; u_only := u_only u; u_from := u_from u; u_set := u_set u; u_where := u_where u; u_returning := u_returning u; u_comment := v |}.

(* builder/update.go:21-114 *)
Definition upd_step (u : update) (c : upd_call) : res update :=
  match c with
  | UpdOnly => Ok (upd_with_only u true)
  (* 27-34 *)
  | UpdSet [] => Panic (PMsg "loukoum: update set clause requires at least one argument")
  | UpdSet args => do p <- merge_set (u_set u) args; Ok (upd_with_set u p)
  (* 38-52 *)
  | UpdUsing args =>
    match p_mode (u_set u) with
    | PArray =>
      match args with
      | [] => Panic (PMsg "loukoum: using clause requires a column or an expression")
      | _ => do p <- fold_res (fun p g => do e <- new_expression g; pairs_use p e) args (u_set u);
             Ok (upd_with_set u p)
      end
    | _ => Panic (PMsg "loukoum: you can only use Using with column-list syntax")
    end
  (* 55-63 *)
  | UpdWith args =>
    Ok (upd_with_with u (if nonempty (u_with u) then u_with u ++ args else args)%list)
  (* 66-85 *)
  | UpdWhere c => do wh <- where_where (u_where u) c; Ok (upd_with_where u wh)
  | UpdAnd c => do wh <- where_and (u_where u) c; Ok (upd_with_where u wh)
  | UpdOr c => do wh <- where_or (u_where u) c; Ok (upd_with_where u wh)
  (* 88-96 *)
  | UpdFrom g =>
    if nonempty (u_from u) then Panic (already "update builder has from clause")
    else do f <- to_from [g]; Ok (upd_with_from u f)
  (* 99-107 *)
  | UpdReturning args =>
    if nonempty (u_returning u) then Panic (already "update builder has returning clause")
    else do l <- to_selexprs args; Ok (upd_with_returning u l)
  (* 110-114 *)
  | UpdComment c => Ok (upd_with_comment u c)
  end.

Definition upd_run (u : update) (cs : list upd_call) : res update := fold_res upd_step cs u.

(* ------------------------------------------------------------------------- *)
(* DELETE builder                                                             *)
(* ------------------------------------------------------------------------- *)

(* builder/delete.go:14-16 NewDelete *)
Definition new_delete : delete :=
  {| d_from := []; d_using := []; d_where := ENil; d_returning := []; d_comment := "" |}.

Inductive del_call :=
| DelFrom (args : list gval)
| DelUsing (args : list gval)
| DelWhere (c : expr)
| DelAnd (c : expr)
| DelOr (c : expr)
| DelReturning (args : list gval)
| DelComment (c : string).

(* Field updates *)
Definition del_with_from (d : delete) v := {| d_from := v; d_using := d_using d; d_where := d_where d; d_returning := d_returning d; d_comment := d_comment d |}.
Definition del_with_using (d : delete) v := {| d_from := d_from d; d_using := v; d_where := d_where d; d_returning := d_returning d; d_comment := d_comment d |}.
Definition del_with_where (d : delete) v := {| d_from := d_from d; d_using := d_using d; d_where := v; d_returning := d_returning d; d_comment := d_comment d |}.
Definition del_with_returning (d : delete) v := {| d_from := d_from d; d_using := d_using d; d_where := d_where d; d_returning := v; d_comment := d_comment d |}.
Definition del_with_comment (d : delete) v := {| d_from := d_from d; d_using := d_using d; d_where := d_where d; d_returning := d_returning d; d_comment := v |}.

(* builder/delete.go:19-79 *)
Definition del_step (d : delete) (c : del_call) : res delete :=
  match c with
  (* 19-27 *)
  | DelFrom args =>
    if nonempty (d_from d) then Panic (already "delete builder has from clause")
    else do f <- to_from args; Ok (del_with_from d f)
  (* 30-39 *)
  | DelUsing args =>
    if nonempty (d_using d) then Panic (already "delete builder has using clause")
    else do l <- to_tables args; Ok (del_with_using d l)
  (* 42-61 *)
  | DelWhere c => do wh <- where_where (d_where d) c; Ok (del_with_where d wh)
  | DelAnd c => do wh <- where_and (d_where d) c; Ok (del_with_where d wh)
  | DelOr c => do wh <- where_or (d_where d) c; Ok (del_with_where d wh)
  (* 64-72 *)
  | DelReturning args =>
    if nonempty (d_returning d) then Panic (already "delete builder has returning clause")
    else do l <- to_selexprs args; Ok (del_with_returning d l)
  (* 75-79 *)
  | DelComment c => Ok (del_with_comment d c)
  end.

Definition del_run (d : delete) (cs : list del_call) : res delete := fold_res del_step cs d.

(* loukoum.go:149-151 Delete *)
Definition lk_delete (g : gval) : res delete := del_step new_delete (DelFrom [g]).

(* ------------------------------------------------------------------------- *)
(* Builders as values                                                         *)
(* ------------------------------------------------------------------------- *)

(* A Select builder passed as interface{}: it has a Statement method (stmt/encoder.go:8-10)
   that returns its query, an Expression. *)
Definition g_select (q : select) : gval := GStmtEnc (Some (ESelect q)).

(* The other builders: their statements are not Expressions. *)
Definition g_builder : gval := GStmtEnc None.
