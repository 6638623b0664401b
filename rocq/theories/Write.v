(* IsEmpty and Write of every statement in package stmt.

   Consecutive ctx.Write calls with constant text are merged into one: a context only
   concatenates them. A panic while writing discards the partial output, as it does in Go,
   where no rendering method returns. *)
From Verif Require Export Ctx.

Notation tr := (res trace).

Definition eps : tr := Ok [].
Definition w (s : string) : tr := Ok [W s].

(* Sequential composition: the second part runs only if the first does not panic. *)
Definition cat (a b : tr) : tr := do x <- a; do y <- b; Ok (x ++ y)%list.
Infix "+++" := cat (at level 61, left associativity).

(* if cond { t } *)
Definition when (c : bool) (t : tr) : tr := if c then t else eps.
(* if !empty { t }, where the test may panic *)
Definition unless (e : res bool) (t : tr) : tr := do b <- e; if b then eps else t.

(* for i, x := range l { if i > 0 { ctx.Write(sep) }; x.Write(ctx) } *)
Fixpoint sep_by (sep : string) (l : list tr) : tr :=
  match l with
  | [] => eps
  | [x] => x
  | x :: xs => x +++ w sep +++ sep_by sep xs
  end.

Definition nonempty {A} (l : list A) : bool := match l with [] => false | _ => true end.
Definition no_str (s : string) : bool := String.eqb s "".

(* ------------------------------------------------------------------------- *)
(* IsEmpty                                                                    *)
(* ------------------------------------------------------------------------- *)

Fixpoint is_empty (e : expr) : res bool :=
  match e with
  | ENil => Panic PNilDeref
  (* stmt/expression.go:86-88: comparison of an interface with the untyped constant "" *)
  | EIdent g => Ok (match g with GStr s => no_str s | _ => false end)
  | EValue _ => Ok false                                 (* stmt/expression.go:280-282 *)
  | EArrayList l => Ok (negb (nonempty l))               (* stmt/expression.go:375-377 *)
  | EArray l => Ok (negb (nonempty l))                   (* stmt/expression.go:492-494 *)
  | ERaw s => Ok (no_str s)                              (* stmt/expression.go:529-531 *)
  | EWrap e => is_empty e                                (* stmt/expression.go:578-580 *)
  | ECall _ _ => Ok false                                (* stmt/expression.go:660-662 *)
  (* stmt/infix.go:42-45 *)
  | EInfix l o r =>
    if is_nil l || match o with None => true | _ => false end || is_nil r then Ok true
    else or_res (is_empty l)
           (or_res (Ok (match o with Some s => no_str s | None => true end)) (is_empty r))
  (* stmt/in.go:52-54 *)
  | EIn e o v => or_res (is_empty e) (or_res (Ok (no_str o)) (Ok (is_nil v)))
  (* stmt/between.go:60-63 *)
  | EBetween g o f a t =>
    if match g with GStr s => no_str s | _ => false end || no_str o || no_str a
       || is_nil f || is_nil t then Ok true
    else or_res (is_empty f) (is_empty t)
  | EExists _ => Ok false                                (* stmt/subquery.go:31-33 *)
  | ENotExists _ => Ok false                             (* stmt/subquery.go:65-67 *)
  | ESelect s => Ok (negb (nonempty (s_exprs s)))        (* stmt/select.go:138-140 *)
  (* stmt/on.go:55-57, column.go:65-67 *)
  | EOn l r => Ok (no_str (c_name l) || no_str (c_name r))
  (* stmt/on.go:98-101 *)
  | EInfixOn l o r =>
    if is_nil l || is_nil r then Ok true
    else or_res (is_empty l) (or_res (Ok (no_str o)) (is_empty r))
  end.

(* stmt/where.go:32-34 and stmt/having.go:33-35: condition == nil || condition.IsEmpty();
   also stmt/values.go:32-34 *)
Definition cond_empty (e : expr) : res bool := if is_nil e then Ok true else is_empty e.

(* ------------------------------------------------------------------------- *)
(* Write                                                                      *)
(* ------------------------------------------------------------------------- *)

Section Write.
  Context {O : Oracle}.

  (* the optional alias of columns and tables: token.As is AS *)
  Definition write_alias (a : string) : tr := when (negb (no_str a)) (w (" AS " ++ a)).

  (* stmt/column.go:54-62 *)
  Definition write_column (c : column) : tr :=
    w (quote (c_name c)) +++ when (negb (no_str (c_alias c))) (w (" AS " ++ quote (c_alias c))).

  (* stmt/table.go:41-53 *)
  Definition write_table (t : table) : tr :=
    when (t_only t) (w "ONLY ") +++ w (quote (t_name t))
    +++ when (negb (no_str (t_alias t))) (w (" AS " ++ quote (t_alias t))).

  Definition write_columns (l : list column) : tr := sep_by ", " (map write_column l).

  (* an element of stmt.From.Tables *)
  Definition write_fromitem (f : fromitem) : tr :=
    match f with
    | FNil => Panic PNilDeref
    | FTable t => write_table t
    | FRaw s => w s
    end.

  (* stmt/from.go:21-32 *)
  Definition write_from (l : list fromitem) : tr :=
    w "FROM " +++ sep_by ", " (map write_fromitem l).

  (* stmt/order.go:22-29 *)
  Definition write_order (o : order) : tr :=
    when (negb (no_str (o_expr o))) (w (o_expr o ++ " " ++ o_type o)).

  (* stmt/orderby.go:21-35 *)
  Definition write_order_by (l : list order) : tr :=
    when (nonempty l) (w "ORDER BY " +++ sep_by ", " (map write_order l)).

  (* stmt/limit.go:23-30 *)
  Definition write_limit (z : Z) : tr := when (negb (z =? 0)%Z) (w ("LIMIT " ++ string_of_Z z)).
  (* stmt/offset.go:23-30 *)
  Definition write_offset (z : Z) : tr := when (negb (z =? 0)%Z) (w ("OFFSET " ++ string_of_Z z)).

  (* stmt/comment.go:21-28, with the token.Semicolon and space that every caller writes
     before it, e.g. stmt/select.go:130-134 *)
  Definition write_comment (c : string) : tr := when (negb (no_str c)) (w ("; -- " ++ c)).

  (* stmt/groupby.go:21-32 *)
  Definition write_group_by (l : list column) : tr := w "GROUP BY " +++ write_columns l.

  (* stmt/distinct_on.go:21-34 *)
  Definition write_distinct_on (l : list column) : tr :=
    when (nonempty l) (w "DISTINCT ON (" +++ write_columns l +++ w ")").

  (* stmt/using.go:21-35 *)
  Definition write_using (l : list table) : tr :=
    when (nonempty l) (w "USING " +++ sep_by ", " (map write_table l)).

  (* stmt/expression.go:75-82 *)
  Definition write_ident (g : gval) : tr :=
    match g with
    | GStr s => w (quote s)
    | GExpr (ERaw s) => w s
    | _ => eps
    end.

  (* stmt/expression.go:241-247 *)
  Definition write_value (g : gval) : tr :=
    match g with GNil => w "NULL" | _ => Ok [B g] end.

  Section Sub.
    (* Write of a nested expression *)
    Context (wE : expr -> tr).

    (* stmt/select.go:9-12 implementations *)
    Definition write_selexpr (s : selexpr) : tr :=
      match s with
      | SNil => Panic PNilDeref
      | SColumn c => write_column c
      | SRaw r => w r
      (* stmt/aggregate.go:35-50, 82-93, 125-136, 168-179 *)
      | SAgg f v d a =>
        w (f ++ "(") +++ when d (w "DISTINCT ") +++ w v +++ w ")" +++ write_alias a
      | SExists e => w "EXISTS (" +++ wE e +++ w ")"             (* stmt/subquery.go:23-28 *)
      | SNotExists e => w "NOT EXISTS (" +++ wE e +++ w ")"      (* stmt/subquery.go:55-62 *)
      end.

    (* stmt/with.go:47-62 *)
    Definition withq_empty (q : withq) : res bool :=
      if no_str (wq_name q) || is_nil (wq_sub q) then Ok true else is_empty (wq_sub q).

    Definition write_withq (q : withq) : tr :=
      unless (withq_empty q) (w (wq_name q ++ " AS (") +++ wE (wq_sub q) +++ w ")").

    (* stmt/with.go:21-33 *)
    Definition write_with (l : list withq) : tr :=
      when (nonempty l) (w "WITH " +++ sep_by ", " (map write_withq l)).

    (* stmt/join.go:40-48 *)
    Definition write_join (j : join) : tr :=
      w (j_type j ++ " ") +++ write_table (j_table j) +++ w " ON " +++ wE (j_cond j).

    Fixpoint write_joins (l : list join) : tr :=
      match l with
      | [] => eps
      | j :: js => w " " +++ write_join j +++ write_joins js
      end.

    (* stmt/where.go:21-29 *)
    Definition write_where (e : expr) : tr :=
      do b <- cond_empty e;
      if b then Panic (PMsg "loukoum: a where clause expects at least one condition")
      else w "WHERE " +++ wE e.

    (* stmt/having.go:22-30 *)
    Definition write_having (e : expr) : tr :=
      do b <- cond_empty e;
      if b then Panic (PMsg "loukoum: a having clause expects at least one condition")
      else w "HAVING " +++ wE e.

    (* stmt/select.go:49-85 writeHead *)
    Definition write_head (s : select) : tr :=
      when (negb (no_str (s_prefix s))) (w (s_prefix s) +++ w " ")
      +++ when (nonempty (s_with s)) (write_with (s_with s) +++ w " ")
      +++ w "SELECT"
      +++ when (nonempty (s_distinct_on s)) (w " " +++ write_distinct_on (s_distinct_on s))
      +++ when (s_distinct s) (w " DISTINCT")
      +++ when (nonempty (s_exprs s)) (w " ")
      +++ sep_by ", " (map write_selexpr (s_exprs s))
      +++ when (nonempty (s_from s)) (w " " +++ write_from (s_from s)).

    (* stmt/select.go:87-107 writeMiddle *)
    Definition write_middle (s : select) : tr :=
      write_joins (s_joins s)
      +++ unless (cond_empty (s_where s)) (w " " +++ write_where (s_where s))
      +++ when (nonempty (s_group_by s)) (w " " +++ write_group_by (s_group_by s))
      +++ unless (cond_empty (s_having s)) (w " " +++ write_having (s_having s)).

    (* stmt/select.go:109-135 writeTail *)
    Definition write_tail (s : select) : tr :=
      when (nonempty (s_order_by s)) (w " " +++ write_order_by (s_order_by s))
      +++ when (negb (s_limit s =? 0)%Z) (w " " +++ write_limit (s_limit s))
      +++ when (negb (s_offset s =? 0)%Z) (w " " +++ write_offset (s_offset s))
      +++ when (negb (no_str (s_suffix s))) (w " " +++ w (s_suffix s))
      +++ write_comment (s_comment s).

    (* stmt/select.go:39-47 *)
    Definition write_select_with (s : select) : tr :=
      if nonempty (s_exprs s) then write_head s +++ write_middle s +++ write_tail s
      else Panic (PMsg "loukoum: select statements must have at least one column").
  End Sub.

  (* panic("loukoum: expression is undefined") when IsEmpty() *)
  Definition defined (e : expr) (t : tr) : tr :=
    do b <- is_empty e; if b then Panic (PMsg "loukoum: expression is undefined") else t.

  (* Write of every stmt.Expression *)
  Fixpoint write_expr (e : expr) : tr :=
    match e with
    | ENil => Panic PNilDeref
    | EIdent g => write_ident g
    | EValue g => write_value g
    (* stmt/expression.go:363-372 *)
    | EArrayList l => sep_by ", " (map (fun x => w "(" +++ write_expr x +++ w ")") l)
    (* stmt/expression.go:482-489 *)
    | EArray l => sep_by ", " (map write_expr l)
    (* stmt/expression.go:524-526 *)
    | ERaw s => w s
    (* stmt/expression.go:571-575 *)
    | EWrap x => w "(" +++ write_expr x +++ w ")"
    (* stmt/expression.go:606-616 *)
    | ECall f args => w (f ++ "(") +++ sep_by ", " (map write_expr args) +++ w ")"
    (* stmt/infix.go:27-39 *)
    | EInfix l o r =>
      defined e (w "(" +++ write_expr l
                 +++ w (" " ++ match o with Some s => s | None => "" end ++ " ")
                 +++ write_expr r +++ w ")")
    (* stmt/in.go:35-49 *)
    | EIn x o v =>
      defined e (w "(" +++ write_expr x +++ w (" " ++ o ++ " (")
                 +++ unless (is_empty v) (write_expr v) +++ w "))")
    (* stmt/between.go:41-57 *)
    | EBetween g o f a t =>
      defined e (w "(" +++ write_ident g +++ w (" " ++ o ++ " ") +++ write_expr f
                 +++ w (" " ++ a ++ " ") +++ write_expr t +++ w ")")
    (* stmt/subquery.go:23-28 *)
    | EExists x => w "EXISTS (" +++ write_expr x +++ w ")"
    (* stmt/subquery.go:55-62 *)
    | ENotExists x => w "NOT EXISTS (" +++ write_expr x +++ w ")"
    (* stmt/select.go:39-47 *)
    | ESelect s => write_select_with write_expr s
    (* stmt/on.go:46-52 *)
    | EOn l r => write_column l +++ w " = " +++ write_column r
    (* stmt/on.go:83-95 *)
    | EInfixOn l o r =>
      defined e (w "(" +++ write_expr l +++ w (" " ++ o ++ " ") +++ write_expr r +++ w ")")
    end.

  Definition write_select (s : select) : tr := write_select_with write_expr s.

  (* -- SET ---------------------------------------------------------------- *)

  Definition col_eqb (a b : column) : bool :=
    String.eqb (c_name a) (c_name b) && String.eqb (c_alias a) (c_alias b).

  (* pairs.Map[column] *)
  Fixpoint pm_get (c : column) (m : list (column * expr)) : option expr :=
    match m with
    | [] => None
    | (c', e) :: m' => if col_eqb c c' then Some e else pm_get c m'
    end.

  (* stmt/set.go:126-150 Values. The in-place sort of the shared slice is a pure function
     here; Forks.v and Race.v model its effect. *)
  Definition pairs_values (p : pairs) : res (list column * list expr) :=
    match p_mode p with
    | PAssoc =>
      let cols := o_sort (p_cols p) in
      do es <- map_res (fun c => match pm_get c (p_map p) with
                                 | Some e => Ok e
                                 | None => Panic (PMsg "loukoum: invalid state for stmt.PairContainer")
                                 end) cols;
      Ok (cols, es)
    | _ => Ok (p_cols p, p_exprs p)
    end.

  (* stmt/set.go:204-206 *)
  Definition pairs_empty (p : pairs) : bool :=
    match p_mode p with
    | PUnknown => true
    | _ => negb (nonempty (p_map p)) && negb (nonempty (p_exprs p))
    end.

  (* stmt/set.go:166-178 WriteAssociative. The loop indexes expressions by columns. *)
  Definition write_pair (ce : column * expr) : tr :=
    write_column (fst ce) +++ w " = " +++ write_expr (snd ce).

  (* stmt/set.go:153-201 *)
  Definition write_pairs (p : pairs) : tr :=
    if pairs_empty p then Panic (PMsg "loukoum: values for SET clause are required")
    else match p_mode p with
         | PAssoc =>
           do ce <- pairs_values p;
           sep_by ", " (map write_pair (combine (fst ce) (snd ce)))
         | PArray =>
           w "(" +++ write_columns (p_cols p) +++ w ")" +++ w " = "
           +++ w "(" +++ sep_by ", " (map write_expr (p_exprs p)) +++ w ")"
         | PUnknown => eps
         end.

  (* stmt/set.go:23-27 *)
  Definition write_set (p : pairs) : tr := w "SET " +++ write_pairs p.

  (* -- INSERT ------------------------------------------------------------- *)

  (* stmt/values.go:21-29 *)
  Definition write_values (e : expr) : tr :=
    unless (cond_empty e) (w "VALUES " +++ write_expr e).

  (* stmt/conflict.go:107-110, 129-132 IsEmpty of the actions *)
  Definition action_empty (a : conflict_action) : bool :=
    match a with ActNothing => false | ActUpdate p => pairs_empty p end.

  (* stmt/conflict.go:42-44 *)
  Definition conflict_empty (a : option conflict_action) : bool :=
    match a with None => true | Some a => action_empty a end.

  (* stmt/conflict.go:99-105, 123-127 *)
  Definition write_action (a : conflict_action) : tr :=
    match a with
    | ActNothing => w "DO NOTHING"
    | ActUpdate p => w "DO UPDATE " +++ write_set p
    end.

  (* stmt/conflict.go:59-72 *)
  Definition write_target (l : list column) : tr :=
    when (nonempty l) (w "(" +++ write_columns l +++ w ")").

  (* stmt/conflict.go:23-39 *)
  Definition write_conflict (l : list column) (a : option conflict_action) : tr :=
    match a with
    | None => eps
    | Some act =>
      if action_empty act then eps
      else w "ON CONFLICT " +++ when (nonempty l) (write_target l +++ w " ") +++ write_action act
    end.

  (* stmt/returning.go:21-31 *)
  Definition write_returning (l : list selexpr) : tr :=
    w "RETURNING " +++ sep_by ", " (map (write_selexpr write_expr) l).

  (* stmt/insert.go:24-69, stmt/into.go:21-30 *)
  Definition write_insert (i : insert) : tr :=
    if no_str (t_name (i_into i))
    then Panic (PMsg "loukoum: an insert statement must have at least one column")
    else
      w "INSERT INTO " +++ write_table (i_into i)
      +++ when (nonempty (i_columns i)) (w " (" +++ write_columns (i_columns i) +++ w ")")
      +++ unless (cond_empty (i_values i)) (w " " +++ write_values (i_values i))
      +++ when (negb (conflict_empty (i_conflict_action i)))
            (w " " +++ write_conflict (i_conflict_target i) (i_conflict_action i))
      +++ when (nonempty (i_returning i)) (w " " +++ write_returning (i_returning i))
      +++ write_comment (i_comment i).

  (* -- UPDATE ------------------------------------------------------------- *)

  (* stmt/update.go:29-77 *)
  Definition write_update (u : update) : tr :=
    if no_str (t_name (u_table u)) || pairs_empty (u_set u)
    then Panic (PMsg "loukoum: an update statement must have a table and/or values")
    else
      when (nonempty (u_with u)) (write_with write_expr (u_with u) +++ w " ")
      +++ w "UPDATE"
      +++ when (u_only u) (w " ONLY")
      +++ w " " +++ write_table (u_table u)
      +++ w " " +++ write_set (u_set u)
      +++ when (nonempty (u_from u)) (w " " +++ write_from (u_from u))
      +++ unless (cond_empty (u_where u)) (w " " +++ write_where write_expr (u_where u))
      +++ when (nonempty (u_returning u)) (w " " +++ write_returning (u_returning u))
      +++ write_comment (u_comment u).

  (* -- DELETE ------------------------------------------------------------- *)

  (* stmt/delete.go:23-57 *)
  Definition write_delete (d : delete) : tr :=
    if nonempty (d_from d) then
      w "DELETE " +++ write_from (d_from d)
      +++ when (nonempty (d_using d)) (w " " +++ write_using (d_using d))
      +++ unless (cond_empty (d_where d)) (w " " +++ write_where write_expr (d_where d))
      +++ when (nonempty (d_returning d)) (w " " +++ write_returning (d_returning d))
      +++ write_comment (d_comment d)
    else Panic (PMsg "loukoum: a delete statement must have a table").

  (* -- The three renderings of a builder ---------------------------------- *)

  Definition write_stmt (s : stmt) : tr :=
    match s with
    | StSelect s => write_select s
    | StInsert i => write_insert i
    | StUpdate u => write_update u
    | StDelete d => write_delete d
    end.

  (* Query(): builder/select.go:271-275, insert.go:146-150, update.go:134-138, delete.go:99-103 *)
  Definition query (s : stmt) : res (string * list gval) :=
    do t <- write_stmt s; Ok (run_std t).

  (* NamedQuery(): builder/select.go:264-268, insert.go:139-143, update.go:127-131, delete.go:92-96 *)
  Definition named_query (s : stmt) : res (string * list (string * gval)) :=
    do t <- write_stmt s; Ok (run_named t).

  (* String(): builder/select.go:257-261, insert.go:132-136, update.go:120-124, delete.go:85-89 *)
  Definition to_string (s : stmt) : res string :=
    do t <- write_stmt s; run_raw t.
End Write.
