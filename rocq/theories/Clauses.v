(* Specification: the clauses of the four statements, in the order in which SQL wants them. *)
From Verif Require Export Template.

(* A clause: absent, or present with its SQL. *)
Definition clause := option (res sql).

(* Present clauses separated by one space. *)
Fixpoint present (l : list clause) : res (list sql) :=
  match l with
  | [] => Ok []
  | None :: l' => present l'
  | Some r :: l' => do q <- r; do qs <- present l'; Ok (q :: qs)
  end.
Definition clauses_sql (l : list clause) (comment : string) : res sql :=
  do qs <- present l;
  Ok (sepd " " qs ++ if String.eqb comment "" then [] else lit ("; -- " ++ comment))%list.

Section Clauses.
  Context {O : Oracle}.

  Definition alias_sql (a : string) : sql := if String.eqb a "" then [] else lit (" AS " ++ quote a).
  Definition column_sql (c : column) : sql := (lit (quote (c_name c)) ++ alias_sql (c_alias c))%list.
  Definition table_sql (t : table) : sql :=
    (lit (if t_only t then "ONLY " else "") ++ lit (quote (t_name t)) ++ alias_sql (t_alias t))%list.
  Definition commas (l : list sql) : sql := sepd ", " l.

  (* KEYWORD ++ items separated by commas, when there is one *)
  Definition listed {A} (keyword : string) (item : A -> res sql) (l : list A) (close : string) : clause :=
    match l with
    | [] => None
    | _ => Some (do qs <- map_res item l; Ok (lit keyword ++ commas qs ++ lit close)%list)
    end.
  Definition flag (b : bool) (text : string) : clause := if b then Some (Ok (lit text)) else None.
  Definition text_clause (s : string) : clause := if String.eqb s "" then None else Some (Ok (lit s)).
  Definition number_clause (keyword : string) (z : Z) : clause :=
    if (z =? 0)%Z then None else Some (Ok (lit (keyword ++ string_of_Z z))).

  (* A condition is there unless it is nil or reports IsEmpty(). *)
  Definition cond_clause (keyword : string) (e : expr) : clause :=
    match cond_empty e with
    | Ok true => None
    | Ok false => Some (do q <- expr_sql e; Ok (lit keyword ++ q)%list)
    | Panic p => Some (Panic p)
    end.

  Definition from_item (f : fromitem) : res sql :=
    match f with FNil => Panic PNilDeref | FTable t => Ok (table_sql t) | FRaw s => Ok (lit s) end.

  Definition select_item (x : selexpr) : res sql :=
    match x with
    | SNil => Panic PNilDeref
    | SColumn c => Ok (column_sql c)
    | SRaw s => Ok (lit s)
    | SAgg f v d a =>
      Ok (lit (f ++ "(" ++ (if d then "DISTINCT " else "") ++ v ++ ")"
               ++ if String.eqb a "" then "" else " AS " ++ a))
    | SExists e => do q <- expr_sql e; Ok (lit "EXISTS (" ++ q ++ lit ")")%list
    | SNotExists e => do q <- expr_sql e; Ok (lit "NOT EXISTS (" ++ q ++ lit ")")%list
    end.

  (* A CTE without name or without statement is left out, its comma is not. *)
  Definition with_item (q : withq) : res sql :=
    if String.eqb (wq_name q) "" then Ok []
    else match cond_empty (wq_sub q) with
         | Ok true => Ok []
         | Ok false => do x <- expr_sql (wq_sub q); Ok (lit (wq_name q ++ " AS (") ++ x ++ lit ")")%list
         | Panic p => Panic p
         end.

  Definition join_clause (j : join) : clause :=
    Some (do q <- expr_sql (j_cond j);
          Ok (lit (j_type j ++ " ") ++ table_sql (j_table j) ++ lit " ON " ++ q)%list).

  Definition order_item (o : order) : res sql :=
    Ok (if String.eqb (o_expr o) "" then [] else lit (o_expr o ++ " " ++ o_type o)).
  Definition column_item (c : column) : res sql := Ok (column_sql c).
  Definition table_item (t : table) : res sql := Ok (table_sql t).

  Definition select_clauses (s : select) : list clause :=
    ([text_clause (s_prefix s);
      listed "WITH " with_item (s_with s) "";
      Some (Ok (lit "SELECT"));
      listed "DISTINCT ON (" column_item (s_distinct_on s) ")";
      flag (s_distinct s) "DISTINCT";
      listed "" select_item (s_exprs s) "";
      listed "FROM " from_item (s_from s) ""]
     ++ map join_clause (s_joins s)
     ++ [cond_clause "WHERE " (s_where s);
         listed "GROUP BY " column_item (s_group_by s) "";
         cond_clause "HAVING " (s_having s);
         listed "ORDER BY " order_item (s_order_by s) "";
         number_clause "LIMIT " (s_limit s);
         number_clause "OFFSET " (s_offset s);
         text_clause (s_suffix s)])%list.

  (* col = expr, ... in the order of the sorted columns, or (col, ...) = (expr, ...) *)
  Definition value_of (p : pairs) (c : column) : res expr :=
    match pm_get c (p_map p) with
    | Some e => Ok e
    | None => Panic (PMsg "loukoum: invalid state for stmt.PairContainer")
    end.
  Definition assignment (c : column) (q : sql) : sql := (column_sql c ++ lit " = " ++ q)%list.
  Fixpoint assignments (cols : list column) (qs : list sql) : list sql :=
    match cols, qs with
    | c :: cols', q :: qs' => assignment c q :: assignments cols' qs'
    | _, _ => []
    end.
  Definition set_sql (p : pairs) : res sql :=
    match p_mode p with
    | PArray =>
      do qs <- map_res expr_sql (p_exprs p);
      Ok (lit "SET (" ++ commas (map column_sql (p_cols p)) ++ lit ") = (" ++ commas qs ++ lit ")")%list
    | _ =>
      let cols := o_sort (p_cols p) in
      do es <- map_res (value_of p) cols;
      do qs <- map_res expr_sql es;
      Ok (lit "SET " ++ commas (assignments cols qs))%list
    end.

  Definition conflict_clause (target : list column) (a : option conflict_action) : clause :=
    let on := match target with
              | [] => lit "ON CONFLICT "
              | _ => (lit "ON CONFLICT (" ++ commas (map column_sql target) ++ lit ") ")%list
              end in
    match a with
    | None => None
    | Some ActNothing => Some (Ok (on ++ lit "DO NOTHING")%list)
    | Some (ActUpdate p) =>
      if pairs_empty p then None else Some (do q <- set_sql p; Ok (on ++ lit "DO UPDATE " ++ q)%list)
    end.

  Definition insert_clauses (i : insert) : list clause :=
    [Some (Ok (lit "INSERT INTO " ++ table_sql (i_into i))%list);
     listed "(" column_item (i_columns i) ")";
     cond_clause "VALUES " (i_values i);
     conflict_clause (i_conflict_target i) (i_conflict_action i);
     listed "RETURNING " select_item (i_returning i) ""].

  Definition update_clauses (u : update) : list clause :=
    [listed "WITH " with_item (u_with u) "";
     Some (Ok (lit "UPDATE"));
     flag (u_only u) "ONLY";
     Some (Ok (table_sql (u_table u)));
     Some (set_sql (u_set u));
     listed "FROM " from_item (u_from u) "";
     cond_clause "WHERE " (u_where u);
     listed "RETURNING " select_item (u_returning u) ""].

  Definition delete_clauses (d : delete) : list clause :=
    [Some (Ok (lit "DELETE"));
     listed "FROM " from_item (d_from d) "";
     listed "USING " table_item (d_using d) "";
     cond_clause "WHERE " (d_where d);
     listed "RETURNING " select_item (d_returning d) ""].
End Clauses.
