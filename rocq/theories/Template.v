(* The template of a statement: what its Write method does, without the chunking into calls. *)
From Verif Require Export Sql ExprInd.

Fixpoint flatten (t : trace) : sql :=
  match t with
  | [] => []
  | W s :: t' => (lit s ++ flatten t')%list
  | B v :: t' => Val v :: flatten t'
  end.

Definition flat (t : tr) : res sql := do x <- t; Ok (flatten x).

Section Template.
  Context {O : Oracle}.

  (* The template written by an expression and by a statement. *)
  Definition expr_sql (e : expr) : res sql := flat (write_expr e).
  Definition template (s : stmt) : res sql := flat (write_stmt s).

  (* ----------------------------------------------------------------------- *)
  (* Specification: the values that a statement binds, in reading order        *)
  (* ----------------------------------------------------------------------- *)

  (* Parts that report IsEmpty() are left out of the SQL. *)
  Definition kept (e : expr) : bool := match cond_empty e with Ok false => true | _ => false end.
  Definition if_kept (e : expr) (l : list gval) : list gval := if kept e then l else [].

  Definition selexpr_values (v : expr -> list gval) (x : selexpr) : list gval :=
    match x with SExists e | SNotExists e => v e | _ => [] end.
  Definition with_values (v : expr -> list gval) (q : withq) : list gval :=
    if no_str (wq_name q) then [] else if_kept (wq_sub q) (v (wq_sub q)).

  Definition select_values (v : expr -> list gval) (s : select) : list gval :=
    (flat_map (with_values v) (s_with s) ++ flat_map (selexpr_values v) (s_exprs s)
     ++ flat_map (fun j => v (j_cond j)) (s_joins s)
     ++ if_kept (s_where s) (v (s_where s)) ++ if_kept (s_having s) (v (s_having s)))%list.

  Fixpoint values_of (e : expr) : list gval :=
    match e with
    | EValue GNil => []
    | EValue g => [g]
    | EArrayList l | EArray l | ECall _ l => flat_map values_of l
    | EWrap x | EExists x | ENotExists x => values_of x
    | EInfix l _ r | EInfixOn l _ r => (values_of l ++ values_of r)%list
    | EIn x _ v => (values_of x ++ if_kept v (values_of v))%list
    | EBetween _ _ a _ b => (values_of a ++ values_of b)%list
    | ESelect s => select_values values_of s
    | ENil | EIdent _ | ERaw _ | EOn _ _ => []
    end.

  (* The assignments of a SET clause in the order in which they are written. *)
  Definition set_values (p : pairs) : list gval :=
    match p_mode p with
    | PAssoc => flat_map (fun c => match pm_get c (p_map p) with
                                   | Some e => values_of e
                                   | None => [] end) (o_sort (p_cols p))
    | _ => flat_map values_of (p_exprs p)
    end.

  Definition stmt_values (s : stmt) : list gval :=
    match s with
    | StSelect q => select_values values_of q
    | StInsert i =>
      (if_kept (i_values i) (values_of (i_values i))
       ++ match i_conflict_action i with
          | Some (ActUpdate p) => if pairs_empty p then [] else set_values p
          | _ => []
          end
       ++ flat_map (selexpr_values values_of) (i_returning i))%list
    | StUpdate u =>
      (flat_map (with_values values_of) (u_with u) ++ set_values (u_set u)
       ++ if_kept (u_where u) (values_of (u_where u))
       ++ flat_map (selexpr_values values_of) (u_returning u))%list
    | StDelete d =>
      (if_kept (d_where d) (values_of (d_where d))
       ++ flat_map (selexpr_values values_of) (d_returning d))%list
    end.

  (* ----------------------------------------------------------------------- *)
  (* Specification: occurrence of an expression in the SQL of a statement       *)
  (* ----------------------------------------------------------------------- *)

  (* The sub-expressions that an expression renders. Parts that report IsEmpty() are not. *)
  Definition keep (e : expr) : list expr := if kept e then [e] else [].
  Definition with_parts (q : withq) : list expr := if no_str (wq_name q) then [] else keep (wq_sub q).

  Definition select_parts (s : select) : list expr :=
    (flat_map with_parts (s_with s) ++ flat_map selexpr_children (s_exprs s) ++ map j_cond (s_joins s)
     ++ keep (s_where s) ++ keep (s_having s))%list.

  Definition parts (e : expr) : list expr :=
    match e with
    | EIn x _ v => (x :: keep v)%list
    | ESelect s => select_parts s
    | _ => children e
    end.

  Definition set_parts (p : pairs) : list expr :=
    match p_mode p with
    | PAssoc => flat_map (fun c => match pm_get c (p_map p) with Some e => [e] | None => [] end)
                         (o_sort (p_cols p))
    | _ => p_exprs p
    end.

  Definition stmt_parts (s : stmt) : list expr :=
    match s with
    | StSelect q => select_parts q
    | StInsert i =>
      (keep (i_values i)
       ++ match i_conflict_action i with
          | Some (ActUpdate p) => if pairs_empty p then [] else set_parts p
          | _ => [] end
       ++ flat_map selexpr_children (i_returning i))%list
    | StUpdate u =>
      (flat_map with_parts (u_with u) ++ set_parts (u_set u) ++ keep (u_where u)
       ++ flat_map selexpr_children (u_returning u))%list
    | StDelete d => (keep (d_where d) ++ flat_map selexpr_children (d_returning d))%list
    end.

  (* x occurs, at any depth, in the rendered part of e *)
  Inductive within (x : expr) : expr -> Prop :=
  | within_here : within x x
  | within_part : forall e c, In c (parts e) -> within x c -> within x e.

  Definition in_stmt (x : expr) (s : stmt) : Prop := exists e, In e (stmt_parts s) /\ within x e.
End Template.
