(* Specification: what is missing from a statement. *)
From Verif Require Export ExprInd.
Local Open Scope list_scope.

(* IsEmpty() of the documentation: an expression with nothing to say, because a name, a text, an
   operator, an operand or the columns of a subquery are missing. *)
Inductive blank : expr -> Prop :=
| blank_nil : blank ENil
| blank_name : blank (EIdent (GStr ""))
| blank_raw : blank (ERaw "")
| blank_array : blank (EArray [])
| blank_rows : blank (EArrayList [])
| blank_wrap x : blank x -> blank (EWrap x)
| blank_infix_left l o r : blank l -> blank (EInfix l o r)
| blank_infix_op l o r : o = None \/ o = Some "" -> blank (EInfix l o r)
| blank_infix_right l o r : blank r -> blank (EInfix l o r)
| blank_in_left x o v : blank x -> blank (EIn x o v)
| blank_in_op x o v : o = "" -> blank (EIn x o v)
| blank_in_values x o v : v = ENil -> blank (EIn x o v)
| blank_between_name g o f a t : g = GStr "" -> blank (EBetween g o f a t)
| blank_between_op g o f a t : o = "" \/ a = "" -> blank (EBetween g o f a t)
| blank_between_from g o f a t : blank f -> blank (EBetween g o f a t)
| blank_between_to g o f a t : blank t -> blank (EBetween g o f a t)
| blank_select s : s_exprs s = [] -> blank (ESelect s)
| blank_on l r : c_name l = "" \/ c_name r = "" -> blank (EOn l r)
| blank_infix_on_left l o r : blank l -> blank (EInfixOn l o r)
| blank_infix_on_op l o r : o = "" -> blank (EInfixOn l o r)
| blank_infix_on_right l o r : blank r -> blank (EInfixOn l o r).

(* [written x e]: x is one of the parts that are written when e is. The values of IN, a WITH
   query, WHERE and HAVING are left out when they are blank. *)
Inductive written : expr -> expr -> Prop :=
| written_row l x : In x l -> written x (EArrayList l)
| written_element l x : In x l -> written x (EArray l)
| written_argument f l x : In x l -> written x (ECall f l)
| written_wrapped x : written x (EWrap x)
| written_left l o r : written l (EInfix l o r)
| written_right l o r : written r (EInfix l o r)
| written_tested x o v : written x (EIn x o v)
| written_values x o v : ~ blank v -> written v (EIn x o v)
| written_from g o f a t : written f (EBetween g o f a t)
| written_to g o f a t : written t (EBetween g o f a t)
| written_exists x : written x (EExists x)
| written_not_exists x : written x (ENotExists x)
| written_on_left l o r : written l (EInfixOn l o r)
| written_on_right l o r : written r (EInfixOn l o r)
| written_with s q : In q (s_with s) -> wq_name q <> "" -> ~ blank (wq_sub q) -> written (wq_sub q) (ESelect s)
| written_item s i x : In i (s_exprs s) -> i = SExists x \/ i = SNotExists x -> written x (ESelect s)
| written_join s j : In j (s_joins s) -> written (j_cond j) (ESelect s)
| written_where s : ~ blank (s_where s) -> written (s_where s) (ESelect s)
| written_having s : ~ blank (s_having s) -> written (s_having s) (ESelect s).

(* The expressions that need all their operands: comparisons, IN, BETWEEN, AND, OR. *)
Definition needs_operands (e : expr) : Prop :=
  match e with EInfix _ _ _ | EIn _ _ _ | EBetween _ _ _ _ _ | EInfixOn _ _ _ => True | _ => False end.

(* Something that has to be written is missing in an expression. *)
Inductive gap : expr -> Prop :=
| gap_nil : gap ENil
| gap_operand e : needs_operands e -> blank e -> gap e
| gap_columns s : s_exprs s = [] -> gap (ESelect s)
| gap_item s : In SNil (s_exprs s) -> gap (ESelect s)
| gap_table s : In FNil (s_from s) -> gap (ESelect s)
| gap_part e x : written x e -> gap x -> gap e.

(* In an item of SELECT or RETURNING. *)
Definition item_gap (i : selexpr) : Prop :=
  match i with SNil => True | SExists x | SNotExists x => gap x | _ => False end.
(* In a SET clause: no value at all, a column without value, or a value with a gap. *)
Definition pairs_gap (p : pairs) : Prop :=
  match p_mode p with
  | PUnknown => True
  | PAssoc => (p_map p = [] /\ p_exprs p = [])
              \/ exists c, In c (p_cols p) /\ match pm_get c (p_map p) with Some e => gap e | None => True end
  | PArray => (p_map p = [] /\ p_exprs p = []) \/ exists e, In e (p_exprs p) /\ gap e
  end.
(* ON CONFLICT is left out when its action is not there or has no value. *)
Definition conflict_gap (a : option conflict_action) : Prop :=
  match a with
  | Some (ActUpdate p) => p_mode p <> PUnknown /\ (p_map p <> [] \/ p_exprs p <> []) /\ pairs_gap p
  | _ => False
  end.
Definition with_gap (q : withq) : Prop := wq_name q <> "" /\ ~ blank (wq_sub q) /\ gap (wq_sub q).
Definition clause_gap (e : expr) : Prop := ~ blank e /\ gap e.

(* In a statement. *)
Definition lacks_part (s : stmt) : Prop :=
  match s with
  | StSelect s => gap (ESelect s)
  | StInsert i => t_name (i_into i) = "" \/ clause_gap (i_values i) \/ conflict_gap (i_conflict_action i)
                  \/ Exists item_gap (i_returning i)
  | StUpdate u => t_name (u_table u) = "" \/ pairs_gap (u_set u) \/ Exists with_gap (u_with u)
                  \/ In FNil (u_from u) \/ clause_gap (u_where u) \/ Exists item_gap (u_returning u)
  | StDelete d => d_from d = [] \/ In FNil (d_from d) \/ clause_gap (d_where d) \/ Exists item_gap (d_returning d)
  end.

(* A nil interface where a value is expected. *)
Inductive nil_inside : expr -> Prop :=
| nil_here : nil_inside ENil
| nil_item s : In SNil (s_exprs s) -> nil_inside (ESelect s)
| nil_table s : In FNil (s_from s) -> nil_inside (ESelect s)
| nil_part e x : written x e -> nil_inside x -> nil_inside e.
Definition nil_in_item (i : selexpr) : Prop :=
  match i with SNil => True | SExists x | SNotExists x => nil_inside x | _ => False end.
Definition nil_in_pairs (p : pairs) : Prop :=
  (exists c e, In c (p_cols p) /\ pm_get c (p_map p) = Some e /\ nil_inside e) \/ Exists nil_inside (p_exprs p).
Definition nil_in (s : stmt) : Prop :=
  match s with
  | StSelect s => nil_inside (ESelect s)
  | StInsert i => nil_inside (i_values i) /\ i_values i <> ENil
                  \/ (exists p, i_conflict_action i = Some (ActUpdate p) /\ nil_in_pairs p)
                  \/ Exists nil_in_item (i_returning i)
  | StUpdate u => nil_in_pairs (u_set u) \/ Exists (fun q => nil_inside (wq_sub q) /\ wq_sub q <> ENil) (u_with u)
                  \/ In FNil (u_from u) \/ (nil_inside (u_where u) /\ u_where u <> ENil)
                  \/ Exists nil_in_item (u_returning u)
  | StDelete d => In FNil (d_from d) \/ (nil_inside (d_where d) /\ d_where d <> ENil)
                  \/ Exists nil_in_item (d_returning d)
  end.

(* The messages of the panics of package stmt. *)
Definition documented : list string := [
  "loukoum: select statements must have at least one column";
  "loukoum: an insert statement must have at least one column";
  "loukoum: an update statement must have a table and/or values";
  "loukoum: a delete statement must have a table";
  "loukoum: expression is undefined";
  "loukoum: values for SET clause are required";
  "loukoum: invalid state for stmt.PairContainer"].

(* A Wrapper around nil, or nil IN (...): IsEmpty itself panics on these. No call of the API
   gives them (C57_no_wrapped_nil). *)
Inductive wraps_nil : expr -> Prop :=
| wraps_here : wraps_nil (EWrap ENil)
| wraps_in o v : wraps_nil (EIn ENil o v)
| wraps_child e x : In x (children e) -> wraps_nil x -> wraps_nil e.
Definition item_wraps_nil (i : selexpr) : Prop := exists x, In x (selexpr_children i) /\ wraps_nil x.
Definition pairs_wrap_nil (p : pairs) : Prop :=
  Exists (fun ce => wraps_nil (snd ce)) (p_map p) \/ Exists wraps_nil (p_exprs p).
Definition stmt_wraps_nil (s : stmt) : Prop :=
  match s with
  | StSelect s => wraps_nil (ESelect s)
  | StInsert i => wraps_nil (i_values i)
                  \/ (exists p, i_conflict_action i = Some (ActUpdate p) /\ pairs_wrap_nil p)
                  \/ Exists item_wraps_nil (i_returning i)
  | StUpdate u => pairs_wrap_nil (u_set u) \/ Exists (fun q => wraps_nil (wq_sub q)) (u_with u)
                  \/ wraps_nil (u_where u) \/ Exists item_wraps_nil (u_returning u)
  | StDelete d => wraps_nil (d_where d) \/ Exists item_wraps_nil (d_returning d)
  end.
