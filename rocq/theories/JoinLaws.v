(* Specification: programs with a join, and the programs that say the same in Where. *)
From Verif Require Export Laws.

(* The program with other tables, joins and conditions. *)
Definition placed (p : program) (froms : list gval) (js : list join_arg) (c : conditions) : program :=
  {| pr_args := pr_args p; pr_distinct := pr_distinct p; pr_distinct_on := pr_distinct_on p; pr_with := pr_with p; pr_from := froms;
     pr_joins := js; pr_conditions := c; pr_group_by := pr_group_by p; pr_having := pr_having p;
     pr_order_by := pr_order_by p; pr_window := pr_window p |}.

(* Where(x) first, then the conditions, each with And. *)
Definition and_first (x : expr) (c : conditions) : conditions :=
  match c with None => Some (x, []) | Some (e, l) => Some (x, (ByAnd, e) :: l) end.
(* No Or among the calls. *)
Definition without_or (c : conditions) : Prop :=
  match c with None => True | Some (_, l) => forall k e, In (k, e) l -> k <> ByOr end.
