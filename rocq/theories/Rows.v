(* Specification: the rows of INSERT ... VALUES, and the arguments of ON CONFLICT. *)
From Verif Require Export Clauses Build.

Section Rows.
  Context {O : Oracle}.
  (* (e1, e2, ...) *)
  Definition row_sql (es : list expr) : res sql :=
    do qs <- map_res expr_sql es; Ok (lit "(" ++ commas qs ++ lit ")")%list.
  (* VALUES (...), (...) *)
  Definition values_clause (rows : list (list expr)) : clause :=
    Some (do qs <- map_res row_sql rows; Ok (lit "VALUES " ++ commas qs)%list).
  (* INSERT with a given VALUES clause *)
  Definition insert_values (i : insert) (v : clause) : res sql :=
    clauses_sql
      [Some (Ok (lit "INSERT INTO " ++ table_sql (i_into i))%list);
       listed "(" column_item (i_columns i) ")";
       v;
       conflict_clause (i_conflict_target i) (i_conflict_action i);
       listed "RETURNING " select_item (i_returning i) ""] (i_comment i).
  (* INSERT with a given ON CONFLICT clause *)
  Definition insert_conflict (i : insert) (c : clause) : res sql :=
    clauses_sql
      [Some (Ok (lit "INSERT INTO " ++ table_sql (i_into i))%list);
       listed "(" column_item (i_columns i) ")";
       cond_clause "VALUES " (i_values i);
       c;
       listed "RETURNING " select_item (i_returning i) ""] (i_comment i).
End Rows.

(* The expressions of one row of Go values. *)
Definition row_exprs (row : list gval) : res (list expr) := map_res new_expression row.

(* A row whose only element is nil or a slice is not written as a row of one value. *)
Definition single_exception (row : list gval) : bool :=
  match row with
  | [GNil] | [GExpr ENil] => true
  | [g] => match slice_elems g with Some _ => true | None => false end
  | _ => false
  end.

(* The rows of a slice of slices given to Values. *)
Inductive batch : gval -> list (list gval) -> Prop :=
| batch_any rows : batch (GAnyss rows) rows
| batch_string rows : batch (GStrss rows) (map (map GStr) rows)
| batch_int rows : batch (GIntss KInt rows) (map (map (GInt KInt)) rows)
| batch_int64 rows : batch (GIntss KInt64 rows) (map (map (GInt KInt64)) rows)
| batch_bool rows : batch (GBoolss rows) (map (map GBool) rows)
| batch_expr rows : batch (GExprss rows) (map (map GExpr) rows).

(* The arguments of OnConflict: columns, an action, and whatever follows. *)
Definition is_action (g : gval) : bool := match g with GConflictNo | GConflictUpdate _ => true | _ => false end.
Definition action_of (g : gval) : option conflict_action :=
  match g with GConflictNo => Some ActNothing | GConflictUpdate p => Some (ActUpdate p) | _ => None end.
Definition conflict_args (args : list gval) (targets : list gval) (a : conflict_action) (rest : list gval) : Prop :=
  exists g, args = (targets ++ g :: rest)%list /\ action_of g = Some a
    /\ Forall (fun t => match t with GStr _ | GColumn _ => True | _ => False end) targets.
