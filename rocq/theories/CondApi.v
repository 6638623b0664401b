(* Specification: the conditions that a caller builds with comparison methods, In, Between,
   And and Or, and the tree that the caller means. *)
From Verif Require Export Cond Build.

(* Go values that are bound as they are. *)
Definition plain_value (v : gval) : bool :=
  match v with
  | GNil | GStr _ | GBool _ | GInt _ _ | GFloat _ _ | GBytes _ | GTime _ | GValuer _ => true
  | _ => false
  end.

(* The operator documented for each comparison method (README, stmt/expression.go comments). *)
Definition sql_op (c : cmp) : string :=
  match c with
  | OpEqual => "=" | OpNotEqual => "!="
  | OpIs => "IS" | OpIsNot => "IS NOT"
  | OpGreaterThan => ">" | OpGreaterThanOrEqual => ">="
  | OpLessThan => "<" | OpLessThanOrEqual => "<="
  | OpLike => "LIKE" | OpNotLike => "NOT LIKE"
  | OpILike => "ILIKE" | OpNotILike => "NOT ILIKE"
  | OpIsDistinctFrom => "IS DISTINCT FROM" | OpIsNotDistinctFrom => "IS NOT DISTINCT FROM"
  | OpContains => "@>" | OpIsContainedBy => "<@" | OpOverlap => "&&"
  end.

Inductive cond :=
| Cmp (x : string) (o : cmp) (v : gval)
| In_ (negated : bool) (x : string) (vs : list gval)
| Between (negated : bool) (x : string) (a b : gval)
| And_ (l r : cond)
| Or_ (l r : cond).

(* The tree that the caller means. *)
Fixpoint meant (c : cond) : tree gval :=
  match c with
  | Cmp x o v => LCmp (split_on "." x) (sql_op o) v
  | In_ g x vs => LIn g (split_on "." x) vs
  | Between g x a b => LBetween g (split_on "." x) a b
  | And_ l r => LAnd (meant l) (meant r)
  | Or_ l r => LOr (meant l) (meant r)
  end.

(* The API calls: Condition(x).Equal(v), Condition(x).In(vs...), ..., and the three ways to
   combine: loukoum.And(l, r), l.And(r), and their Or counterparts. *)
Inductive builds : cond -> expr -> Prop :=
| b_cmp : forall x o v e, cmp_expr (lk_condition (GStr x)) o v = Ok e -> builds (Cmp x o v) e
| b_in : forall x vs e, expr_in (lk_condition (GStr x)) vs = Ok e -> builds (In_ false x vs) e
| b_not_in : forall x vs e, expr_not_in (lk_condition (GStr x)) vs = Ok e -> builds (In_ true x vs) e
| b_between : forall x a b e, ident_between (GStr x) a b = Ok e -> builds (Between false x a b) e
| b_not_between : forall x a b e, ident_not_between (GStr x) a b = Ok e -> builds (Between true x a b) e
| b_and : forall l r a b, builds l a -> builds r b -> builds (And_ l r) (lk_and a b)
| b_or : forall l r a b, builds l a -> builds r b -> builds (Or_ l r) (lk_or a b)
| b_infix_and : forall l r a b, builds l a -> builds r b -> builds (And_ l r) (infix_and a b)
| b_infix_or : forall l r a b, builds l a -> builds r b -> builds (Or_ l r) (infix_or a b).

(* Names that PostgreSQL reads back (C08), operands that are plain values, and IN lists that
   are neither empty nor a single nil (see C16). *)
Section Clean.
  Context {O : Oracle} (plain_name : string -> bool).
  Fixpoint clean (c : cond) : bool :=
    match c with
    | Cmp x _ v => plain_name x && plain_value v
    | In_ _ x vs =>
      plain_name x && forallb plain_value vs
      && match vs with [] => false | [GNil] => false | _ => true end
    | Between _ x a b => plain_name x && plain_value a && plain_value b
    | And_ l r | Or_ l r => clean l && clean r
    end.
End Clean.

(* The argument that an operand of a parsed condition stands for. *)
Definition look (vs : list gval) (o : operand) : option gval :=
  match o with
  | PNull => Some GNil
  | PArg n => if (n =? 0)%N then None else nth_error vs (N.to_nat n - 1)
  end.
