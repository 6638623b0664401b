(* Specification: conditions that ask the same, as calls of the API, and conditions that ask for
   more or less. *)
From Verif Require Export Changes.

(* ...And(x).And(y) and ...And(y).And(x), ...And(x).And(y) and ...And(And(x, y)), and so on. *)
Inductive same_conditions : conditions -> conditions -> Prop :=
| same_and_order e l x y : same_conditions (Some (e, l ++ [(ByAnd, x); (ByAnd, y)])%list) (Some (e, l ++ [(ByAnd, y); (ByAnd, x)])%list)
| same_or_order e l x y : same_conditions (Some (e, l ++ [(ByOr, x); (ByOr, y)])%list) (Some (e, l ++ [(ByOr, y); (ByOr, x)])%list)
| same_first_and x y : same_conditions (Some (x, [(ByAnd, y)])) (Some (y, [(ByAnd, x)]))
| same_first_or x y : same_conditions (Some (x, [(ByOr, y)])) (Some (y, [(ByOr, x)]))
| same_where e l x : same_conditions (Some (e, l ++ [(ByWhere, x)])%list) (Some (e, l ++ [(ByAnd, x)])%list)
| same_and_nested e l x y : same_conditions (Some (e, l ++ [(ByAnd, x); (ByAnd, y)])%list) (Some (e, l ++ [(ByAnd, lk_and x y)])%list)
| same_or_nested e l x y : same_conditions (Some (e, l ++ [(ByOr, x); (ByOr, y)])%list) (Some (e, l ++ [(ByOr, lk_or x y)])%list)
| same_one_and x y : same_conditions (Some (x, [(ByAnd, y)])) (Some (lk_and x y, []))
| same_one_or x y : same_conditions (Some (x, [(ByOr, y)])) (Some (lk_or x y, []))
| same_method_and x y : same_conditions (Some (x, [(ByAnd, y)])) (Some (infix_and x y, []))
| same_method_or x y : same_conditions (Some (x, [(ByOr, y)])) (Some (infix_or x y, []))
| same_and_twice e l x : same_conditions (Some (e, l ++ [(ByAnd, x)])%list) (Some (e, l ++ [(ByAnd, x); (ByAnd, x)])%list)
| same_or_twice e l x : same_conditions (Some (e, l ++ [(ByOr, x)])%list) (Some (e, l ++ [(ByOr, x); (ByOr, x)])%list)
| same_first_twice x : same_conditions (Some (x, [])) (Some (x, [(ByAnd, x)]))
| same_first_or_twice x : same_conditions (Some (x, [])) (Some (x, [(ByOr, x)]))
| same_distribute x y z : same_conditions (Some (y, [(ByOr, z); (ByAnd, x)])) (Some (lk_and y x, [(ByOr, lk_and z x)]))
(* and with the same calls after them *)
| same_more e l e' l' m : same_conditions (Some (e, l)) (Some (e', l')) -> same_conditions (Some (e, l ++ m)%list) (Some (e', l' ++ m)%list).

(* The program with other conditions. *)
Definition under (p : program) (c : conditions) : program :=
  {| pr_args := pr_args p; pr_distinct := pr_distinct p; pr_distinct_on := pr_distinct_on p; pr_with := pr_with p; pr_from := pr_from p;
     pr_joins := pr_joins p; pr_conditions := c; pr_group_by := pr_group_by p; pr_having := pr_having p;
     pr_order_by := pr_order_by p; pr_window := pr_window p |}.
Definition change_under (p : change) (c : conditions) : change :=
  {| ch_table := ch_table p; ch_with := ch_with p; ch_set := ch_set p; ch_from := ch_from p; ch_conditions := c; ch_returning := ch_returning p |}.
Definition removal_under (p : removal) (c : conditions) : removal :=
  {| rm_table := rm_table p; rm_using := rm_using p; rm_conditions := c; rm_returning := rm_returning p |}.

(* a is b with some rows left out. *)
Inductive part_of {A} : list A -> list A -> Prop :=
| part_none : part_of [] []
| part_both x a b : part_of a b -> part_of (x :: a) (x :: b)
| part_skip x a b : part_of a b -> part_of a (x :: b).
