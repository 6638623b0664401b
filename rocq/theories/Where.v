(* Specification: the WHERE clause of a statement and the calls that build it. *)
From Verif Require Export Template CondApi.

(* The builder methods that add a condition. *)
Inductive link := KWhere | KAnd | KOr.

(* Calling one of them on a Select, Update or Delete builder. *)
Definition call_where (s : stmt) (k : link) (c : expr) : res stmt :=
  match s with
  | StSelect q =>
    do q' <- sel_step q (match k with KWhere => SelWhere | KAnd => SelAnd | KOr => SelOr end c);
    Ok (StSelect q')
  | StUpdate u =>
    do u' <- upd_step u (match k with KWhere => UpdWhere | KAnd => UpdAnd | KOr => UpdOr end c);
    Ok (StUpdate u')
  | StDelete d =>
    do d' <- del_step d (match k with KWhere => DelWhere | KAnd => DelAnd | KOr => DelOr end c);
    Ok (StDelete d')
  | StInsert _ => Panic (PMsg "an Insert builder has no such method")
  end.

(* A chain of such calls. *)
Fixpoint call_chain (s : stmt) (l : list (link * expr)) : res stmt :=
  match l with
  | [] => Ok s
  | (k, c) :: l' => do s' <- call_where s k c; call_chain s' l'
  end.

(* The condition held by a builder and the builder with another condition. *)
Definition where_of (s : stmt) : expr :=
  match s with
  | StSelect q => s_where q
  | StUpdate u => u_where u
  | StDelete d => d_where d
  | StInsert _ => ENil
  end.
Definition set_where (s : stmt) (e : expr) : stmt :=
  match s with
  | StSelect q => StSelect (with_where q e)
  | StUpdate u => StUpdate (upd_with_where u e)
  | StDelete d => StDelete (del_with_where d e)
  | StInsert i => StInsert i
  end.
Definition has_where_methods (s : stmt) : bool :=
  match s with StInsert _ => false | _ => true end.

(* Left-associated chain of SQL conditions. *)
Definition link_text (k : link) : string := match k with KOr => " OR " | _ => " AND " end.
Fixpoint chain_sql (acc : sql) (l : list (link * sql)) : sql :=
  match l with
  | [] => acc
  | (k, q) :: l' => chain_sql (lit "(" ++ acc ++ lit (link_text k) ++ q ++ lit ")")%list l'
  end.
(* The same on trees. *)
Fixpoint chain_tree {A} (acc : tree A) (l : list (link * tree A)) : tree A :=
  match l with
  | [] => acc
  | (k, t) :: l' => chain_tree (match k with KOr => LOr acc t | _ => LAnd acc t end) l'
  end.

Section WhereSpec.
  Context {O : Oracle}.

  (* A condition on its own; a SELECT or EXISTS is put in parentheses. *)
  Definition is_subquery (c : expr) : bool :=
    match c with ESelect _ | EExists _ | ENotExists _ => true | _ => false end.
  Definition own_sql (c : expr) : res sql :=
    do q <- expr_sql c; Ok (if is_subquery c then lit "(" ++ q ++ lit ")" else q)%list.

  (* q is the SQL of s with the WHERE clause `cond` at the place where s, without
     conditions, has none. *)
  Definition where_is (s : stmt) (cond : sql) : Prop :=
    exists pre post, template (set_where s ENil) = Ok (pre ++ post)%list
                     /\ template s = Ok (pre ++ lit " WHERE " ++ cond ++ post)%list.

  (* The rendered WHERE clause, read by PostgreSQL's rules and with its placeholders replaced
     by the arguments of Query(), is the tree t, however the text continues and whichever of
     AND and OR binds tighter. *)
  Definition where_reads (s : stmt) (t : tree gval) : Prop :=
    exists pre cond post,
      template (set_where s ENil) = Ok (pre ++ post)%list
      /\ query s = Ok (fill dollar 1 (pre ++ lit " WHERE " ++ cond ++ post),
                       args (pre ++ lit " WHERE " ++ cond ++ post))%list
      /\ let text := fill dollar (1 + length (args pre)) cond in
         let vs := args (pre ++ lit " WHERE " ++ cond ++ post)%list in
         forall and_tighter rest, ends_cond rest = true ->
           exists t', read_cond and_tighter (text ++ rest) = Some (t', rest)
                      /\ tree_map (look vs) t' = tree_map Some t.
End WhereSpec.
