(* C74: calls that are accepted and build a text that is not SQL. *)
From Verif Require Import Ast Write Api Parser Build Sql Sort AssignP Grammar GrammarApi GrammarDml GrammarLexP CondP PropsGrammar PropsGrammarDml.
From Coq Require Import String List ZArith.
Import ListNotations.
Open Scope string_scope.

(* The tokens of a text made of constants and quoted names. *)
Section Lexed.
  Context {O : Oracle} (A : env).

  Definition begins_ender (s : string) : bool := match s with String a _ => ender a | EmptyString => false end.

  Inductive lexed : string -> list lexeme -> Prop :=
  | lexed_end c x st y : tokens_from A L0 c = Some (x, st) -> flush A st = Some y -> st <> LComment -> lexed c (x ++ y)%list
  | lexed_last c ts x : tokens_from A L0 c = Some (ts, L0) -> plain_name x = true -> lexed (c ++ quote x) (ts ++ [KName (parts_of x)])%list
  | lexed_name c ts x rest tr : tokens_from A L0 c = Some (ts, L0) -> plain_name x = true -> begins_ender rest = true ->
      lexed rest tr -> lexed (c ++ quote x ++ rest) (ts ++ KName (parts_of x) :: tr)%list.

  Lemma lexed_soft : forall s ts, lexed s ts ->
    exists x st y, tokens_from A L0 s = Some (x, st) /\ flush A st = Some y /\ st <> LComment /\ ts = (x ++ y)%list.
  Proof.
    induction 1 as [c x st y T F N|c ts x T P|c ts x rest tr T P E H (x2 & st & y & T2 & F & N & ->)].
    - exists x, st, y. auto.
    - destruct (const_name x P A) as (x1 & st & y & T1 & F & E & N). exists (ts ++ x1)%list, st, y.
      rewrite tokens_app, T, T1. repeat split; try assumption. rewrite E, app_assoc. reflexivity.
    - destruct (const_name x P A) as (x1 & st1 & y1 & T1 & F1 & E1 & N1).
      exists (ts ++ (x1 ++ (y1 ++ x2)))%list, st, y. rewrite tokens_app, T, tokens_app, T1.
      rewrite (ender_tokens A st1 rest x2 st y1 F1 N1); [|destruct rest; [discriminate|exact E]|exact T2].
      repeat split; try assumption. change (KName (parts_of x) :: x2 ++ y)%list with ([KName (parts_of x)] ++ x2 ++ y)%list.
      rewrite E1, <- !app_assoc. reflexivity.
  Qed.

  Lemma lexed_refused {B} : forall (p : parser B) s ts, lexed s ts -> 
    (match p ts with Some (x, r) => if at_end r then Some x else None | None => None end) = None -> whole p A s = None.
  Proof.
    intros p s ts H N. destruct (lexed_soft s ts H) as (x & st & y & T & F & _ & ->).
    unfold whole, tokens. rewrite T, F. exact N.
  Qed.
End Lexed.

(* The calls are accepted, Query() gives the text and the arguments, and the text is not SQL. *)
Definition not_sql {O : Oracle} {B} (rd : env -> string -> option B) (s : res stmt) (text : string) (vs : list gval) : Prop :=
  exists s', s = Ok s' /\ query s' = Ok (text, vs) /\ rd (numbered vs) text = None.

Ltac joined_text := rewrite ?sapp_assoc; reflexivity.
Ltac run_text_after tac :=
  unfold query; match goal with |- bind ?t _ = _ => let t' := eval cbn -[quote] in t in change t with t' end;
  tac; cbn -[quote append string_of_nat run_std]; unfold run_std; cbn [fold_left std_step std_init std_buf std_vals length app];
  change (string_of_nat (0 + 1)) with "1"; change (string_of_nat (1 + 1)) with "2"; joined_text.
Ltac run_text := run_text_after idtac.
Ltac constant s := lazymatch s with EmptyString => idtac | String _ ?s' => constant s' end.
Ltac merged :=
  repeat match goal with |- context [append ?a (append ?b ?r)] =>
    constant a; constant b; let k := eval compute in (append a b) in change (append a (append b r)) with (append k r) end.
Ltac pieces :=
  lazymatch goal with
  | |- lexed _ (?c ++ quote ?x) _ => apply lexed_last; [reflexivity|assumption]
  | |- lexed _ (?c ++ quote ?x ++ ?rest) _ => apply lexed_name; [reflexivity|assumption|reflexivity|pieces]
  | |- _ => eapply lexed_end; [reflexivity|reflexivity|discriminate]
  end.

(* Slices without elements. *)
Inductive no_elements : list gval -> Prop :=
| no_arguments : no_elements []
| only_nil : no_elements [GNil]
| no_strings : no_elements [GStrs []]
| no_integers k : k <> KUint8 -> no_elements [GInts k []]
| no_booleans : no_elements [GBools []]
| no_floats k : no_elements [GFloats k []]
| no_bytes : no_elements [GBytess []]
| no_expressions : no_elements [GExprs []]
| no_anything : no_elements [GAnys []].

(* Condition(c).In() and NotIn() with nothing, with nil or with an empty slice: IN (). *)
Theorem C74_in_nothing_refuted {O : Oracle} : forall t c gs, plain_name t = true -> plain_name c = true -> no_elements gs ->
  not_sql read_delete
    (do d <- lk_delete (GStr t); do e <- expr_in (lk_condition (GStr c)) gs; do d <- del_step d (DelWhere e); Ok (StDelete d))
    ("DELETE FROM " ++ quote t ++ " WHERE (" ++ quote c ++ " IN ())") []
  /\ not_sql read_delete
    (do d <- lk_delete (GStr t); do e <- expr_not_in (lk_condition (GStr c)) gs; do d <- del_step d (DelWhere e); Ok (StDelete d))
    ("DELETE FROM " ++ quote t ++ " WHERE (" ++ quote c ++ " NOT IN ())") [].
Proof.
  intros t c gs T C H. pose proof (plain_name_nonempty c C) as NC.
  assert (X : expr_in (lk_condition (GStr c)) gs = expr_in (lk_condition (GStr c)) []
    /\ expr_not_in (lk_condition (GStr c)) gs = expr_not_in (lk_condition (GStr c)) []).
  { destruct H as [| | |k K| | | | |]; try (split; reflexivity). destruct k; try congruence; split; reflexivity. }
  destruct X as [-> ->].
  destruct c as [|a c]; [discriminate NC|].
  split; (eexists; split; [reflexivity|]; split; [run_text|eapply lexed_refused; [pieces|reflexivity]]).
Qed.
Print Assumptions C74_in_nothing_refuted.

(* A subquery as the operand of a comparison that does not put it in parentheses. *)
Theorem C74_subquery_operand_refuted {O : Oracle} : forall t c x u o, 
  plain_name t = true -> plain_name c = true -> plain_name x = true -> plain_name u = true ->
  In o [OpIs; OpIsNot; OpLike; OpNotLike; OpILike; OpNotILike; OpIsDistinctFrom; OpIsNotDistinctFrom] ->
  not_sql read_delete
    (do s <- lk_select [GColumn (lk_column x)]; do s <- sel_step s (SelFrom [GStr u]);
     do d <- lk_delete (GStr t); do e <- cmp_expr (lk_condition (GStr c)) o (GExpr (ESelect s)); do d <- del_step d (DelWhere e); Ok (StDelete d))
    ("DELETE FROM " ++ quote t ++ " WHERE (" ++ quote c ++ " " ++ cmp_text o ++ " SELECT " ++ quote x ++ " FROM " ++ quote u ++ ")") [].
Proof.
  intros t c x u o T C X U H. pose proof (plain_name_nonempty c C) as NC. pose proof (plain_name_nonempty x X) as NX.
  destruct c as [|a c]; [discriminate NC|]. destruct x as [|b x]; [discriminate NX|].
  repeat (destruct H as [<-|H]); try (destruct H as []);
    (eexists; split; [reflexivity|]; split; [run_text|cbn [cmp_text]; merged; eapply lexed_refused; [pieces|reflexivity]]).
Qed.
Print Assumptions C74_subquery_operand_refuted.

(* Between with a subquery as a bound. *)
Theorem C74_between_subquery_refuted {O : Oracle} : forall t c x u v,
  plain_name t = true -> plain_name c = true -> plain_name x = true -> plain_name u = true ->
  new_expression v = Ok (EValue v) -> v <> GNil ->
  not_sql read_delete
    (do s <- lk_select [GColumn (lk_column x)]; do s <- sel_step s (SelFrom [GStr u]);
     do d <- lk_delete (GStr t); do e <- ident_between (GStr c) (GExpr (ESelect s)) v; do d <- del_step d (DelWhere e); Ok (StDelete d))
    ("DELETE FROM " ++ quote t ++ " WHERE (" ++ quote c ++ " BETWEEN SELECT " ++ quote x ++ " FROM " ++ quote u ++ " AND $1)") [v].
Proof.
  intros t c x u v T C X U V N. pose proof (plain_name_nonempty c C) as NC. pose proof (plain_name_nonempty x X) as NX.
  destruct c as [|a c]; [discriminate NC|]. destruct x as [|b x]; [discriminate NX|].
  eexists. split; [cbn; rewrite V; reflexivity|]. 
  assert (B : write_value v = Ok [B v]) by (destruct v; try reflexivity; congruence).
  split; [run_text_after ltac:(rewrite B)|eapply lexed_refused; [pieces|reflexivity]].
Qed.
Print Assumptions C74_between_subquery_refuted.

(* A column with an alias where SQL takes only a name: GROUP BY, DISTINCT ON, the columns of an
   INSERT and of an ON CONFLICT, the columns of a SET. *)
Theorem C74_group_by_alias_refuted {O : Oracle} : forall x t a b,
  plain_name x = true -> plain_name t = true -> plain_name a = true -> plain_name b = true ->
  not_sql read_query
    (do s <- lk_select [GColumn (lk_column x)]; do s <- sel_step s (SelFrom [GStr t]);
     do s <- sel_step s (SelGroupBy [GColumn (column_as (lk_column a) b)]); Ok (StSelect s))
    ("SELECT " ++ quote x ++ " FROM " ++ quote t ++ " GROUP BY " ++ quote a ++ " AS " ++ quote b) []
  /\ not_sql read_query
    (do s <- lk_select [GColumn (lk_column x)]; do s <- sel_step s (SelFrom [GStr t]);
     do s <- sel_step s (SelDistinctOn [GColumn (column_as (lk_column a) b)]); Ok (StSelect s))
    ("SELECT DISTINCT ON (" ++ quote a ++ " AS " ++ quote b ++ ") " ++ quote x ++ " FROM " ++ quote t) [].
Proof.
  intros x t a b X T A B. pose proof (plain_name_nonempty x X) as NX. pose proof (plain_name_nonempty a A) as NA.
  pose proof (plain_name_nonempty b B) as NB.
  destruct a as [|c1 a]; [discriminate NA|]. destruct b as [|c2 b]; [discriminate NB|]. destruct x as [|c3 x]; [discriminate NX|].
  split; (eexists; split; [reflexivity|]; split; [run_text|eapply lexed_refused; [pieces|reflexivity]]).
Qed.
Print Assumptions C74_group_by_alias_refuted.

(* Values of the basic types. *)
Inductive scalar : gval -> Prop :=
| scalar_string s : scalar (GStr s)
| scalar_integer k z : scalar (GInt k z)
| scalar_bool b : scalar (GBool b)
| scalar_float k f : scalar (GFloat k f)
| scalar_bytes s : scalar (GBytes s)
| scalar_time t : scalar (GTime t).

Theorem C74_insert_alias_refuted {O : Oracle} : forall t a b v, plain_name t = true -> plain_name a = true -> plain_name b = true -> scalar v ->
  not_sql read_insert
    (do i <- lk_insert (GStr t); do i <- ins_step i (InsColumns [GColumn (column_as (lk_column a) b)]);
     do i <- ins_step i (InsValues [v]); Ok (StInsert i))
    ("INSERT INTO " ++ quote t ++ " (" ++ quote a ++ " AS " ++ quote b ++ ") VALUES ($1)") [v].
Proof.
  intros t a b v T A B V. pose proof (plain_name_nonempty t T) as NT. pose proof (plain_name_nonempty a A) as NA.
  pose proof (plain_name_nonempty b B) as NB.
  destruct a as [|c1 a]; [discriminate NA|]. destruct b as [|c2 b]; [discriminate NB|]. destruct t as [|c3 t]; [discriminate NT|].
  destruct V; (eexists; split; [reflexivity|]; split; [run_text|eapply lexed_refused; [pieces|reflexivity]]).
Qed.
Print Assumptions C74_insert_alias_refuted.

Theorem C74_set_alias_refuted {O : Oracle} : sort_contract o_sort -> forall t a b v,
  plain_name t = true -> plain_name a = true -> plain_name b = true -> scalar v ->
  not_sql read_update
    (do u <- lk_update (GStr t); do u <- upd_step u (UpdSet [GPair (GColumn (column_as (lk_column a) b)) v]); Ok (StUpdate u))
    ("UPDATE " ++ quote t ++ " SET " ++ quote a ++ " AS " ++ quote b ++ " = $1") [v].
Proof.
  intros S t a b v T A B V. pose proof (plain_name_nonempty t T) as NT. pose proof (plain_name_nonempty a A) as NA.
  pose proof (plain_name_nonempty b B) as NB.
  destruct a as [|c1 a]; [discriminate NA|]. destruct b as [|c2 b]; [discriminate NB|]. destruct t as [|c3 t]; [discriminate NT|].
  assert (K : o_sort [column_as (lk_column (String c1 a)) (String c2 b)] = [column_as (lk_column (String c1 a)) (String c2 b)]).
  { apply Permutation_length_1_inv. exact (proj1 (S [_])). }
  cbn [column_as lk_column c_name c_alias] in K.
  destruct V; (eexists; split; [reflexivity|]; split; [run_text_after ltac:(rewrite K; cbn [map_res]; rewrite col_eqb_refl)|eapply lexed_refused; [pieces|reflexivity]]).
Qed.
Print Assumptions C74_set_alias_refuted.

(* Insert(t).Values(slice) with an empty slice, and with rows one of which is empty. *)
Theorem C74_no_values_refuted {O : Oracle} : forall t gs, plain_name t = true -> no_elements gs -> gs <> [] ->
  not_sql read_insert (do i <- lk_insert (GStr t); do i <- ins_step i (InsValues gs); Ok (StInsert i))
    ("INSERT INTO " ++ quote t ++ " VALUES ()") [].
Proof.
  intros t gs T H N. pose proof (plain_name_nonempty t T) as NT. destruct t as [|c3 t]; [discriminate NT|].
  destruct H as [| | |k K| | | | |]; try congruence;
    try (destruct k; try congruence);
    (eexists; split; [reflexivity|]; split; [run_text|eapply lexed_refused; [pieces|reflexivity]]).
Qed.
Print Assumptions C74_no_values_refuted.
Theorem C74_empty_row_refuted {O : Oracle} : forall t v, plain_name t = true -> scalar v ->
  not_sql read_insert (do i <- lk_insert (GStr t); do i <- ins_step i (InsValues [GAnyss [[v]; []]]); Ok (StInsert i))
    ("INSERT INTO " ++ quote t ++ " VALUES ($1), ()") [v].
Proof.
  intros t v T V. pose proof (plain_name_nonempty t T) as NT. destruct t as [|c3 t]; [discriminate NT|].
  destruct V; (eexists; split; [reflexivity|]; split; [run_text|eapply lexed_refused; [pieces|reflexivity]]).
Qed.
Print Assumptions C74_empty_row_refuted.

(* The reader of C52 also reads an INSERT without VALUES; PostgreSQL does not. *)
Definition p_full_insert (pq : parser squery) : parser ibody :=
  fun ts => match p_insert pq ts with
            | Some (b, r) => match in_rows b with [] => None | _ => Some (b, r) end
            | None => None
            end.
Definition read_full_insert (E : env) (text : string) : option ibody :=
  whole (fun ts => p_full_insert (p_query (length ts)) ts) E text.

(* Insert(t) and Insert(t).Columns(a), without Values and without Set *)
Theorem C74_insert_nothing_refuted {O : Oracle} : forall t a, plain_name t = true -> plain_name a = true ->
  not_sql read_full_insert (do i <- lk_insert (GStr t); Ok (StInsert i)) ("INSERT INTO " ++ quote t) []
  /\ not_sql read_full_insert (do i <- lk_insert (GStr t); do i <- ins_step i (InsColumns [GColumn (lk_column a)]); Ok (StInsert i))
       ("INSERT INTO " ++ quote t ++ " (" ++ quote a ++ ")") [].
Proof.
  intros t a T A. pose proof (plain_name_nonempty t T) as NT. pose proof (plain_name_nonempty a A) as NA.
  destruct t as [|c3 t]; [discriminate NT|]. destruct a as [|c1 a]; [discriminate NA|].
  split; (eexists; split; [reflexivity|]; split; [run_text|eapply lexed_refused; [pieces|reflexivity]]).
Qed.
Print Assumptions C74_insert_nothing_refuted.

(* OnConflict(Column(a).As(b), DoNothing()) *)
Theorem C74_conflict_alias_refuted {O : Oracle} : forall t a b v, plain_name t = true -> plain_name a = true -> plain_name b = true -> scalar v ->
  not_sql read_insert
    (do i <- lk_insert (GStr t); do i <- ins_step i (InsValues [v]);
     do i <- ins_step i (InsOnConflict [GColumn (column_as (lk_column a) b); GConflictNo]); Ok (StInsert i))
    ("INSERT INTO " ++ quote t ++ " VALUES ($1) ON CONFLICT (" ++ quote a ++ " AS " ++ quote b ++ ") DO NOTHING") [v].
Proof.
  intros t a b v T A B V. pose proof (plain_name_nonempty t T) as NT. pose proof (plain_name_nonempty a A) as NA.
  pose proof (plain_name_nonempty b B) as NB.
  destruct a as [|c1 a]; [discriminate NA|]. destruct b as [|c2 b]; [discriminate NB|]. destruct t as [|c3 t]; [discriminate NT|].
  destruct V; (eexists; split; [reflexivity|]; split; [run_text|eapply lexed_refused; [pieces|reflexivity]]).
Qed.
Print Assumptions C74_conflict_alias_refuted.

(* Update(Table(t).Only()).Only() *)
Theorem C74_only_twice_refuted {O : Oracle} : sort_contract o_sort -> forall t a v,
  plain_name t = true -> plain_name a = true -> scalar v ->
  not_sql read_update
    (do u <- lk_update (GTable (table_only (lk_table t))); do u <- upd_step u UpdOnly;
     do u <- upd_step u (UpdSet [GPair (GColumn (lk_column a)) v]); Ok (StUpdate u))
    ("UPDATE ONLY ONLY " ++ quote t ++ " SET " ++ quote a ++ " = $1") [v].
Proof.
  intros S t a v T A V. pose proof (plain_name_nonempty t T) as NT. pose proof (plain_name_nonempty a A) as NA.
  destruct a as [|c1 a]; [discriminate NA|]. destruct t as [|c3 t]; [discriminate NT|].
  assert (K : o_sort [lk_column (String c1 a)] = [lk_column (String c1 a)]).
  { apply Permutation_length_1_inv. exact (proj1 (S [_])). }
  cbn [lk_column] in K.
  destruct V; (eexists; split; [reflexivity|]; split; [run_text_after ltac:(rewrite K; cbn [map_res]; rewrite col_eqb_refl)|eapply lexed_refused; [pieces|reflexivity]]).
Qed.
Print Assumptions C74_only_twice_refuted.

(* Order("") and With("", ...): the clause is announced and nothing follows. *)
Theorem C74_order_nothing_refuted {O : Oracle} : forall x t option, plain_name x = true -> plain_name t = true ->
  not_sql read_query
    (do s <- lk_select [GColumn (lk_column x)]; do s <- sel_step s (SelFrom [GStr t]);
     do s <- sel_step s (SelOrderBy [lk_order "" option]); Ok (StSelect s))
    ("SELECT " ++ quote x ++ " FROM " ++ quote t ++ " ORDER BY ") [].
Proof.
  intros x t option X T. pose proof (plain_name_nonempty x X) as NX. destruct x as [|c3 x]; [discriminate NX|].
  eexists; split; [reflexivity|]; split; [run_text|eapply lexed_refused; [pieces|reflexivity]].
Qed.
Print Assumptions C74_order_nothing_refuted.
Theorem C74_with_nothing_refuted {O : Oracle} : forall x t g e, plain_name x = true -> plain_name t = true -> new_expression g = Ok e ->
  not_sql read_query
    (do q <- lk_with "" g; do s <- lk_select [GColumn (lk_column x)]; do s <- sel_step s (SelFrom [GStr t]);
     do s <- sel_step s (SelWith [q]); Ok (StSelect s))
    ("WITH  SELECT " ++ quote x ++ " FROM " ++ quote t) [].
Proof.
  intros x t g e X T G. pose proof (plain_name_nonempty x X) as NX. destruct x as [|c3 x]; [discriminate NX|].
  unfold lk_with. rewrite G.
  eexists; split; [reflexivity|]; split; [run_text|eapply lexed_refused; [pieces|reflexivity]].
Qed.
Print Assumptions C74_with_nothing_refuted.

(* Condition(g) of anything that is neither a string nor Raw: no left operand. *)
Theorem C74_condition_name_refuted {O : Oracle} : forall t g o v, plain_name t = true -> scalar g -> (forall s, g <> GStr s) -> scalar v ->
  not_sql read_delete
    (do d <- lk_delete (GStr t); do e <- cmp_expr (lk_condition g) o v; do d <- del_step d (DelWhere e); Ok (StDelete d))
    ("DELETE FROM " ++ quote t ++ " WHERE ( " ++ cmp_text o ++ " $1)") [v].
Proof.
  intros t g o v T G N V.
  assert (E : cmp_expr (lk_condition g) o v = Ok (EInfix (lk_condition g) (Some (cmp_text o)) (EValue v)))
    by (destruct V, o; reflexivity).
  assert (B : write_value v = Ok [B v]) by (destruct V; reflexivity).
  rewrite E. clear E V. destruct G as [s| | | | |]; [exfalso; exact (N s eq_refl)|..]; destruct o;
    (eexists; split; [reflexivity|]; split; [run_text_after ltac:(rewrite B)|cbn [cmp_text]; merged; eapply lexed_refused; [pieces|reflexivity]]).
Qed.
Print Assumptions C74_condition_name_refuted.

(* What does hold (C49 to C52): a statement that the calls described by sel_says, del_says, upd_says
   and ins_says build is SQL. Missing: the calls above, and text given as Raw, which is the caller's. *)
Theorem C74_described_partial {O : Oracle} : sort_contract o_sort ->
  (forall s b, sel_says (m := Bound) s b -> q_items b <> [] ->
    exists text values, query (StSelect s) = Ok (text, values) /\ read_query (numbered values) text <> None)
  /\ (forall d b, del_says (m := Bound) d b ->
    exists text values, query (StDelete d) = Ok (text, values) /\ read_delete (numbered values) text <> None)
  /\ (forall u b, upd_says (m := Bound) u b -> assigns_something (up_set b) ->
    exists text values, query (StUpdate u) = Ok (text, values) /\ read_update (numbered values) text <> None)
  /\ (forall i b, ins_says (m := Bound) i b -> in_rows b <> [] ->
    exists text values, query (StInsert i) = Ok (text, values) /\ read_full_insert (numbered values) text <> None).
Proof.
  intro S. repeat apply conj.
  - intros s b H N. destruct (C49_select_read_back s b H N) as (t & v & Q & R). exists t, v. rewrite R. split; [exact Q|discriminate].
  - intros d b H. destruct (C50_delete_read_back d b H) as (t & v & Q & R). exists t, v. rewrite R. split; [exact Q|discriminate].
  - intros u b H N. destruct (C51_update_read_back u b S H N) as (t & v & Q & R). exists t, v. rewrite R. split; [exact Q|discriminate].
  - intros i b H N. destruct (C52_insert_read_back i b S H) as (t & v & Q & R). exists t, v. split; [exact Q|].
    unfold read_insert, read_full_insert, whole, p_full_insert in *.
    destruct (tokens (numbered v) t) as [ts|]; [|discriminate]. destruct (p_insert _ ts) as [[x r]|]; [|discriminate].
    destruct (at_end r) eqn:Er; [|discriminate]. injection R as ->.
    destruct (in_rows b); [congruence|]. rewrite Er. discriminate.
Qed.
Print Assumptions C74_described_partial.

(* The hypotheses are met, and one of the texts. *)
Example C74_hypotheses_ex : plain_name (O := go_oracle) "users" = true /\ plain_name (O := go_oracle) "users.id" = true
  /\ no_elements [GStrs []] /\ scalar (GInt KInt 1) /\ sort_contract (o_sort (Oracle := go_oracle)).
Proof. repeat split; try constructor; try reflexivity; apply insertion_contract. Qed.
Example C74_text_ex :
  "DELETE FROM " ++ quote (O := go_oracle) "users" ++ " WHERE (" ++ quote (O := go_oracle) "users.id" ++ " NOT IN ())"
  = "DELETE FROM ""users"" WHERE (""users"".""id"" NOT IN ())".
Proof. vm_compute. reflexivity. Qed.
