(* Specification: arguments with nothing missing. *)
From Verif Require Export Gaps Build.
Local Open Scope list_scope.

(* The expression that a value given to a method is: an Expression, or a builder. nil is NULL. *)
Definition expr_of (v : gval) : option expr :=
  match v with
  | GExpr ENil => None
  | GExpr e | GStmtEnc (Some e) => Some e
  | _ => None
  end.

(* Nothing is missing in e; it may be blank. *)
Definition fine (e : expr) : Prop := ~ gap e /\ ~ wraps_nil e.
(* A condition or an operand: there is something, and nothing is missing in it. *)
Definition solid (e : expr) : Prop := ~ blank e /\ fine e.

Definition fine_value (v : gval) : Prop := forall e, expr_of v = Some e -> fine e.
Definition solid_value (v : gval) : Prop := forall e, expr_of v = Some e -> solid e.

(* [inside v g]: v is g, or an element of the slice, slice of slices, map or pair g. *)
Inductive inside : gval -> gval -> Prop :=
| inside_self g : inside g g
| inside_exprs e l : In e l -> inside (GExpr e) (GExprs l)
| inside_anys v g l : In g l -> inside v g -> inside v (GAnys l)
| inside_exprss e r l : In r l -> In e r -> inside (GExpr e) (GExprss l)
| inside_anyss v g r l : In r l -> In g r -> inside v g -> inside v (GAnyss l)
| inside_map_any v k g l : In (k, g) l -> inside v g -> inside v (GMapAny l)
| inside_map v k g l : In (k, g) l -> inside v g -> inside v (GMap l)
| inside_pair v k g : inside v g -> inside v (GPair k g).
Definition fine_arg (g : gval) : Prop := forall v, inside v g -> fine_value v.

(* An item of SELECT or RETURNING. *)
Definition fine_item (i : selexpr) : Prop :=
  match i with SNil => False | SExists x | SNotExists x => fine x | _ => True end.
Definition fine_item_arg (g : gval) : Prop :=
  match g with
  | GSel i => fine_item i
  | GSels l => Forall fine_item l
  | GExpr (EExists x) | GExpr (ENotExists x) => fine x
  | _ => True
  end.
(* A slice without elements. *)
Definition empty_slice (g : gval) : Prop := g = GSels [] \/ g = GColumns [] \/ g = GStrs [].

Definition fine_join_arg (g : gval) : Prop :=
  match g with GJoin j => fine (j_cond j) | GExpr e => fine e | _ => True end.
Definition fine_with (q : withq) : Prop := ~ wraps_nil (wq_sub q) /\ ~ with_gap q.
Definition no_from (g : gval) : Prop := match g with GFrom _ => False | _ => True end.

(* The pairs of DoUpdate. *)
Definition fine_pairs (p : pairs) : Prop :=
  (forall c, In c (p_cols p) -> p_mode p = PAssoc -> pm_get c (p_map p) <> None)
  /\ Forall (fun ce => fine (snd ce)) (p_map p) /\ Forall fine (p_exprs p).

Definition sel_fine (c : sel_call) : Prop :=
  match c with
  | SelColumns args => Forall fine_item_arg args /\ Forall (fun g => ~ empty_slice g) args
  | SelFrom args => Forall no_from args
  | SelJoin args => Forall fine_join_arg args
  | SelWith l => Forall fine_with l
  | SelWhere e | SelAnd e | SelOr e | SelHaving e => solid e
  | _ => True
  end.
Definition ins_fine (c : ins_call) : Prop :=
  match c with
  | InsValues args | InsSet args => Forall fine_arg args
  | InsReturning args => Forall fine_item_arg args
  | InsOnConflict args => Forall (fun g => match g with GConflictUpdate p => fine_pairs p | _ => True end) args
  | _ => True
  end.
Definition upd_fine (c : upd_call) : Prop :=
  match c with
  | UpdSet args | UpdUsing args => Forall fine_arg args
  | UpdWith l => Forall fine_with l
  | UpdWhere e | UpdAnd e | UpdOr e => solid e
  | UpdFrom g => no_from g
  | UpdReturning args => Forall fine_item_arg args
  | _ => True
  end.
Definition del_fine (c : del_call) : Prop :=
  match c with
  | DelFrom args => Forall no_from args
  | DelWhere e | DelAnd e | DelOr e => solid e
  | DelReturning args => Forall fine_item_arg args
  | _ => True
  end.

(* The elements of the list that In, Values, ... are given. *)
Definition elements (values : list gval) : list gval :=
  match values with
  | [v] => match v with
           | GNil | GExpr ENil => []
           | _ => match slice_elems v with Some l => l | None => [v] end
           end
  | _ => values
  end.

(* Whether an argument of Set gives a value to some column. *)
Definition value_arg (g : gval) : bool :=
  match g with GPair _ _ | GMapAny (_ :: _) | GMap (_ :: _) => true | _ => false end.

(* Whether a call gives a value to some column. *)
Definition sets_value (c : upd_call) : bool :=
  match c with UpdSet args => existsb value_arg args | UpdUsing _ => true | _ => false end.

(* ------------------------------------------------------------------------- *)
(* The expressions of the API                                                  *)
(* ------------------------------------------------------------------------- *)

(* [has_expr g x]: the argument g is or contains the expression x. *)
Inductive has_expr : gval -> expr -> Prop :=
| holds_value v g x : inside v g -> v = GExpr x \/ v = GStmtEnc (Some x) -> has_expr g x
| holds_item i x : i = SExists x \/ i = SNotExists x -> has_expr (GSel i) x
| holds_items i l x : In i l -> i = SExists x \/ i = SNotExists x -> has_expr (GSels l) x
| holds_join j : has_expr (GJoin j) (j_cond j)
| holds_pair p c x : In (c, x) (p_map p) -> has_expr (GConflictUpdate p) x
| holds_use p x : In x (p_exprs p) -> has_expr (GConflictUpdate p) x.

Definition args_give (args : list gval) (x : expr) : Prop := exists g, In g args /\ has_expr g x.

(* The expressions that a call is given. *)
Definition sel_given (c : sel_call) (x : expr) : Prop :=
  match c with
  | SelColumns args | SelJoin args => args_give args x
  | SelWith l => In x (map wq_sub l)
  | SelWhere e | SelAnd e | SelOr e | SelHaving e => x = e
  | _ => False
  end.
Definition ins_given (c : ins_call) (x : expr) : Prop :=
  match c with
  | InsValues args | InsSet args | InsReturning args | InsOnConflict args => args_give args x
  | _ => False
  end.
Definition upd_given (c : upd_call) (x : expr) : Prop :=
  match c with
  | UpdSet args | UpdUsing args | UpdReturning args => args_give args x
  | UpdWith l => In x (map wq_sub l)
  | UpdWhere e | UpdAnd e | UpdOr e => x = e
  | _ => False
  end.
Definition del_given (c : del_call) (x : expr) : Prop :=
  match c with
  | DelWhere e | DelAnd e | DelOr e => x = e
  | DelReturning args => args_give args x
  | _ => False
  end.

(* [made e]: e is nil or the result of calls of the API, on nil or on such results. *)
Inductive made : expr -> Prop :=
| made_nil : made ENil
| made_condition g : made (lk_condition g)
| made_value g : made (lk_value g)
| made_raw s : made (lk_raw s)
| made_call f l : (forall x, In x l -> made x) -> made (new_call f l)
| made_compare l o v e : made l -> (forall x, has_expr v x -> made x) -> cmp_expr l o v = Ok e -> made e
| made_in l vs e : l <> ENil -> made l -> (forall x, args_give vs x -> made x) ->
    expr_in l vs = Ok e \/ expr_not_in l vs = Ok e -> made e
| made_between g a b e : (forall x, args_give [a; b] x -> made x) ->
    ident_between g a b = Ok e \/ ident_not_between g a b = Ok e -> made e
| made_and l r e : made l -> made r ->
    e = lk_and l r \/ e = lk_or l r \/ e = infix_and l r \/ e = infix_or l r -> made e
| made_exists v e : (forall x, has_expr v x -> made x) -> lk_exists v = Ok e \/ lk_not_exists v = Ok e -> made e
| made_on a b : made (lk_on a b)
| made_and_on l r e : made l -> made r -> e = lk_and_on l r \/ e = lk_or_on l r -> made e
| made_select columns calls q0 q : lk_select columns = Ok q0 -> sel_run q0 calls = Ok q ->
    (forall x, args_give columns x -> made x) -> (forall c x, In c calls -> sel_given c x -> made x) ->
    made (ESelect q).
