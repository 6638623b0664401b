(* Specification: conditions that ask the same, as expressions. *)
From Verif Require Export Laws.

Section Exchange.
  Context {O : Oracle}.
  #[local] Existing Instance Bound.

  (* A condition that C49 reads back. *)
  Definition described (e : expr) : Prop := exists f, says e f.

  Inductive same_condition : expr -> expr -> Prop :=
  | sc_refl x : described x -> same_condition x x
  | sc_sym x y : same_condition x y -> same_condition y x
  | sc_trans x y z : same_condition x y -> same_condition y z -> same_condition x z
  (* And(x, y), x.And(y); Or(x, y), x.Or(y) *)
  | sc_and x x' y y' : same_condition x x' -> same_condition y y' -> same_condition (lk_and x y) (lk_and x' y')
  | sc_or x x' y y' : same_condition x x' -> same_condition y y' -> same_condition (lk_or x y) (lk_or x' y')
  | sc_and_method x y : described x -> described y -> same_condition (infix_and x y) (lk_and x y)
  | sc_or_method x y : described x -> described y -> same_condition (infix_or x y) (lk_or x y)
  (* order, grouping, repetition *)
  | sc_and_swap x y : described x -> described y -> same_condition (lk_and x y) (lk_and y x)
  | sc_or_swap x y : described x -> described y -> same_condition (lk_or x y) (lk_or y x)
  | sc_and_group x y z : described x -> described y -> described z -> same_condition (lk_and (lk_and x y) z) (lk_and x (lk_and y z))
  | sc_or_group x y z : described x -> described y -> described z -> same_condition (lk_or (lk_or x y) z) (lk_or x (lk_or y z))
  | sc_and_self x : described x -> same_condition (lk_and x x) x
  | sc_or_self x : described x -> same_condition (lk_or x x) x
  (* distribution, absorption *)
  | sc_and_or x y z : described x -> described y -> described z -> same_condition (lk_and x (lk_or y z)) (lk_or (lk_and x y) (lk_and x z))
  | sc_or_and x y z : described x -> described y -> described z -> same_condition (lk_or x (lk_and y z)) (lk_and (lk_or x y) (lk_or x z))
  | sc_and_absorbs x y : described x -> described y -> same_condition (lk_and x (lk_or x y)) x
  | sc_or_absorbs x y : described x -> described y -> same_condition (lk_or x (lk_and x y)) x
  (* Condition(x).In(v, ...) is Condition(x).Equal(v) or ... *)
  | sc_in x v vs e e0 es : plain_name x = true -> forallb plain_value (v :: vs) = true -> (v :: vs) <> [GNil] ->
      expr_in (lk_condition (GStr x)) (v :: vs) = Ok e -> cmp_expr (lk_condition (GStr x)) OpEqual v = Ok e0 ->
      Forall2 (fun v e => cmp_expr (lk_condition (GStr x)) OpEqual v = Ok e) vs es ->
      same_condition e (fold_left lk_or es e0)
  (* Condition(x).NotIn(v, ...) is Condition(x).NotIn(v) and ... *)
  | sc_not_in x v vs e e0 es : plain_name x = true -> forallb plain_value (v :: vs) = true -> ~ In GNil (v :: vs) ->
      expr_not_in (lk_condition (GStr x)) (v :: vs) = Ok e -> expr_not_in (lk_condition (GStr x)) [v] = Ok e0 ->
      Forall2 (fun v e => expr_not_in (lk_condition (GStr x)) [v] = Ok e) vs es ->
      same_condition e (fold_left lk_and es e0)
  (* Condition(x).Between(a, b) is Condition(x).GreaterThanOrEqual(a) and Condition(x).LessThanOrEqual(b) *)
  | sc_between x a b ta tb e e1 e2 : plain_name x = true -> value_says a ta -> value_says b tb ->
      ident_between (GStr x) a b = Ok e -> cmp_expr (lk_condition (GStr x)) OpGreaterThanOrEqual a = Ok e1 ->
      cmp_expr (lk_condition (GStr x)) OpLessThanOrEqual b = Ok e2 -> same_condition e (lk_and e1 e2).

  (* The same calls with conditions that ask the same. *)
  Definition same_chain (c c' : conditions) : Prop :=
    match c, c' with
    | None, None => True
    | Some (e, l), Some (e', l') => same_condition e e' /\ Forall2 (fun x y => fst x = fst y /\ same_condition (snd x) (snd y)) l l'
    | _, _ => False
    end.
  Definition same_having (h h' : option expr) : Prop :=
    match h, h' with None, None => True | Some e, Some e' => same_condition e e' | _, _ => False end.
  (* The program with other conditions in Where, And and Or, and in Having. *)
  Definition exchanged (p : program) (c : conditions) (h : option expr) : program :=
    {| pr_args := pr_args p; pr_distinct := pr_distinct p; pr_distinct_on := pr_distinct_on p; pr_with := pr_with p; pr_from := pr_from p;
       pr_joins := pr_joins p; pr_conditions := c; pr_group_by := pr_group_by p; pr_having := h;
       pr_order_by := pr_order_by p; pr_window := pr_window p |}.
End Exchange.

(* Row by row, the middle list has what the first or what the last has: a change of some of the rows that
   another change changes, in the same way. *)
Inductive partway {A} : list A -> list A -> list A -> Prop :=
| partway_none : partway [] [] []
| partway_left o w os ns ws : partway os ns ws -> partway (o :: os) (o :: ns) (w :: ws)
| partway_changed o x os ns ws : partway os ns ws -> partway (o :: os) (x :: ns) (x :: ws).
