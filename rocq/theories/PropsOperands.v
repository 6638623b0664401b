(* C69: which Go values can be operands, and what the driver is given for them. *)
From Verif Require Import GoStrP Sql Template RenderP Clauses CondApi CondP PropsClauses PropsCond PropsRender Rows PropsRows Assign AssignP PropsSet.
Local Open Scope list_scope.

(* ------------------------------------------------------------------------- *)
(* Specification                                                               *)
(* ------------------------------------------------------------------------- *)

(* What the driver is given for a value. Numbers, texts, byte slices, times, Valuers, []int64, []string and maps as
   they are; *time.Time, encoders and values with a String() method for the value they give; nothing for values of
   any other type, such as named strings without methods, []int, structs, or the builders' own clauses. *)
Definition driver_value (v : gval) : option gval :=
  match v with
  | GNil | GExpr ENil => Some GNil
  | GStr _ | GBool _ | GInt _ _ | GFloat _ _ | GBytes _ | GTime _ | GMapStr _ | GMapAny _ | GStrs _ => Some v
  | GValuer _ | GNilValuer | GValuerErr | GBindable _ _ => Some v
  | GInts KInt64 _ => Some v
  | GTimePtr (Some t) => Some (GTime t)
  | GInt64Enc z => Some (GInt KInt64 z)
  | GBoolEnc b => Some (GBool b)
  | GTimeEnc t => Some (GTime t)
  | GStringEnc s | GJoinType s => Some (GStr s)
  | _ => None
  end.
(* Expressions and statements become a part of the text. *)
Definition sql_part (v : gval) : bool :=
  match v with GExpr ENil | GStmtEnc (Some ENil) => false | GExpr _ | GStmtEnc (Some _) => true | _ => false end.

(* The arguments of a statement for a list of values: all but the nil ones. *)
Definition arguments (us : list gval) : list gval :=
  flat_map (fun u => match u with GNil => [] | _ => [u] end) us.
Definition values_of (vs us : list gval) : Prop := Forall2 (fun v u => driver_value v = Some u) vs us.
Definition unusable (v : gval) : bool := match driver_value v with Some _ => false | None => negb (sql_part v) end.

(* ------------------------------------------------------------------------- *)
(* Programs                                                                    *)
(* ------------------------------------------------------------------------- *)

Section Programs.
  Context {O : Oracle}.
  (* Delete(t).Where(e) *)
  Definition deletion (t : string) (e : res expr) : res delete :=
    do e <- e; do d <- lk_delete (GStr t); del_step d (DelWhere e).
  Definition sent_delete (t : string) (e : res expr) := do d <- deletion t e; query (StDelete d).
  (* Update(t).Set(Pair(Column(c), v)) *)
  Definition sent_update (t c : string) (v : gval) :=
    do u <- lk_update (GStr t); do u <- upd_step u (UpdSet [GPair (GColumn (lk_column c)) v]); query (StUpdate u).
  (* Insert(t).Values(vs...) *)
  Definition sent_insert (t : string) (vs : list gval) :=
    do i <- lk_insert (GStr t); do i <- ins_step i (InsValues vs); query (StInsert i).
End Programs.

Lemma as_value : forall v u, driver_value v = Some u -> new_expression v = Ok (EValue u).
Proof.
  intros v u H. destruct v;
    cbn in H |- *; try discriminate H; try (injection H as <-; reflexivity).
  - destruct t; [injection H as <-; reflexivity|discriminate H].
  - destruct k; try discriminate H. injection H as <-. reflexivity.
  - destruct e; try discriminate H. injection H as <-. reflexivity.
Qed.
Lemma no_value : forall v, unusable v = true -> exists p, new_expression v = Panic p.
Proof.
  intros v H. unfold unusable in H. destruct v;
    cbn in H |- *; try discriminate H; try (eexists; reflexivity).
  - destruct t; [discriminate H|eexists; reflexivity].
  - destruct k; try discriminate H; eexists; reflexivity.
  - destruct e as [e|]; [destruct e|]; try discriminate H; eexists; reflexivity.
  - destruct e; try discriminate H; eexists; reflexivity.
Qed.

Definition null_or (u : gval) (p : string) : string := match u with GNil => "NULL" | _ => p end.
Definition value_sql (u : gval) : sql := match u with GNil => lit "NULL" | _ => [Val u] end.

Lemma value_written {O : Oracle} : forall u, expr_sql (EValue u) = Ok (value_sql u).
Proof. intro u. destruct u; reflexivity. Qed.
Lemma value_fill : forall u k, fill dollar k (value_sql u) = null_or u (dollar k u).
Proof. intros u k. destruct u; try reflexivity; cbn [value_sql fill null_or]; apply sapp_nil. Qed.
Lemma value_args : forall u, args (value_sql u) = arguments [u].
Proof. intro u. destruct u; reflexivity. Qed.
Lemma values_args : forall us, args (sepd ", " (map value_sql us)) = arguments us.
Proof.
  induction us as [|u us IH]; [reflexivity|]. destruct us as [|u' us].
  - cbn [map sepd]. apply value_args.
  - change (sepd ", " (map value_sql (u :: u' :: us))) with (value_sql u ++ lit ", " ++ sepd ", " (map value_sql (u' :: us))).
    rewrite !args_app, args_lit, IH, value_args. cbn [app]. destruct u; reflexivity.
Qed.

Lemma deletion_sent {O : Oracle} : forall t e q, t <> ""%string -> new_wrapper e = e -> cond_empty e = Ok false -> expr_sql e = Ok q ->
  sent_delete t (Ok e) = rendered (Ok (lit ("DELETE FROM " ++ quote t ++ " WHERE ") ++ q)).
Proof.
  intros t e q T W E Q. unfold sent_delete, deletion. cbn [bind]. 
  assert (N : no_str t = false) by (unfold no_str; apply String.eqb_neq; exact T).
  assert (L : lk_delete (GStr t) = Ok (del_with_from new_delete [FTable (lk_table t)])) by reflexivity.
  rewrite L. cbn [bind].
  assert (S : del_step (del_with_from new_delete [FTable (lk_table t)]) (DelWhere e) = Ok (del_with_where (del_with_from new_delete [FTable (lk_table t)]) e)).
  { unfold del_step, where_where. change (cond_empty (d_where (del_with_from new_delete [FTable (lk_table t)]))) with (Ok true). cbn [bind]. unfold new_where. rewrite W. reflexivity. }
  rewrite S. cbn [bind]. rewrite C45_delete_clauses by discriminate.
  unfold delete_clauses, clauses_sql. cbn [d_from d_using d_where d_returning d_comment del_with_where del_with_from new_delete].
  unfold cond_clause. rewrite E, Q. cbn [bind]. unfold rendered.
  cbn [listed from_item present map_res bind commas sepd String.eqb app map]. unfold table_sql. cbn [t_only t_name t_alias lk_table alias_sql]. unfold alias_sql. cbn [String.eqb].
  cbn [listed from_item present map_res bind commas sepd String.eqb app map].
  match goal with |- Ok (fill dollar 1 ?a, _) = Ok (fill dollar 1 ?b, _) => assert (X : a = b) end.
  { rewrite !lit_app, <- !app_assoc, !app_nil_r. reflexivity. }
  rewrite X. reflexivity.
Qed.
Lemma map_values : forall vs us, values_of vs us -> map_res new_expression vs = Ok (map EValue us).
Proof.
  intros vs us H. induction H as [|v u vs us V _ IH]; [reflexivity|]. cbn [map_res map]. rewrite (as_value v u V), IH. reflexivity.
Qed.
Lemma map_unusable : forall vs, existsb unusable vs = true -> exists p, map_res new_expression vs = Panic p.
Proof.
  induction vs as [|v vs IH]; [discriminate|]. cbn [existsb map_res]. intro H. destruct (new_expression v) as [e|p] eqn:E; [|exists p; reflexivity].
  destruct (unusable v) eqn:U; [destruct (no_value v U) as (p & P); congruence|].
  destruct (IH H) as (p & ->). exists p. reflexivity.
Qed.
Lemma several : forall vs, (2 <= length vs)%nat -> new_array vs = do l <- map_res new_expression vs; Ok (EArray l).
Proof. intros [|v [|v' vs]] H; try (cbn in H; lia). reflexivity. Qed.
Lemma values_written {O : Oracle} : forall us, map_res expr_sql (map EValue us) = Ok (map value_sql us).
Proof. induction us as [|u us IH]; [reflexivity|]. cbn [map map_res]. rewrite value_written, IH. reflexivity. Qed.
Lemma list_written {O : Oracle} : forall us, expr_sql (EArray (map EValue us)) = Ok (sepd ", " (map value_sql us)).
Proof.
  intro us. unfold expr_sql. cbn [write_expr].
  induction us as [|u us IH]; [reflexivity|]. destruct us as [|u' us].
  - cbn [map sep_by sepd]. apply value_written.
  - change (sepd ", " (map value_sql (u :: u' :: us))) with (value_sql u ++ lit ", " ++ sepd ", " (map value_sql (u' :: us))).
    change (sep_by ", " (map write_expr (map EValue (u :: u' :: us))))
      with (write_expr (EValue u) +++ w ", " +++ sep_by ", " (map write_expr (map EValue (u' :: us)))).
    rewrite !flat_cat, flat_w, IH. change (flat (write_expr (EValue u))) with (expr_sql (EValue u)). rewrite value_written, app_assoc. reflexivity.
Qed.

(* ------------------------------------------------------------------------- *)
(* Theorems                                                                    *)
(* ------------------------------------------------------------------------- *)

(* Condition(x).Equal(v) and the other comparisons. *)
Theorem C69_comparison {O : Oracle} : forall t x o v, t <> ""%string -> x <> ""%string ->
  (forall u, driver_value v = Some u ->
     sent_delete t (cmp_expr (lk_condition (GStr x)) o v)
     = Ok ("DELETE FROM " ++ quote t ++ " WHERE (" ++ quote x ++ " " ++ sql_op o ++ " " ++ null_or u "$1" ++ ")", arguments [u])%string)
  /\ (unusable v = true -> exists p, cmp_expr (lk_condition (GStr x)) o v = Panic p).
Proof.
  intros t x o v T X. split.
  - intros u V.
    assert (E : cmp_expr (lk_condition (GStr x)) o v = Ok (EInfix (lk_condition (GStr x)) (Some (cmp_text o)) (EValue u))).
    { unfold cmp_expr, infix_wrapped, infix_plain. rewrite (as_value v u V). cbn [bind new_wrapper]. destruct (cmp_wraps o); reflexivity. }
    rewrite E. 
    assert (N : no_str x = false) by (unfold no_str; apply String.eqb_neq; exact X).
    assert (C : no_str (cmp_text o) = false) by (destruct o; reflexivity).
    rewrite (deletion_sent t _ (lit ("(" ++ quote x ++ " " ++ sql_op o ++ " ") ++ value_sql u ++ lit ")")); [|exact T|reflexivity| |].
    + unfold rendered. cbn [bind]. rewrite !fill_app, !fill_lit, !args_app, !args_lit, value_fill, value_args, app_nil_r. cbn [length app Nat.add].
      rewrite !sapp_assoc. reflexivity.
    + unfold cond_empty. cbn [is_nil is_empty lk_condition]. rewrite N, C. destruct u; reflexivity.
    + unfold expr_sql. cbn [write_expr]. unfold defined. cbn [is_empty is_nil lk_condition orb]. rewrite N, C. cbn [or_res bind].
      rewrite !flat_cat, !flat_w. change (write_expr (lk_condition (GStr x))) with (w (quote x)).
      change (flat (write_value u)) with (expr_sql (EValue u)). rewrite value_written, ?flat_w, cmp_text_op.
      rewrite !lit_app, <- !app_assoc. reflexivity.
  - intro U. destruct (no_value v U) as (p & P). exists p. unfold cmp_expr, infix_wrapped, infix_plain. rewrite P. destruct (cmp_wraps o); reflexivity.
Qed.
Print Assumptions C69_comparison.

(* In(v, ...) and NotIn(v, ...) with several values; C16 says what a slice is. *)
Theorem C69_in {O : Oracle} : forall t x vs, t <> ""%string -> x <> ""%string -> (2 <= length vs)%nat ->
  (forall us, values_of vs us -> exists text text',
     sent_delete t (expr_in (lk_condition (GStr x)) vs) = Ok (text, arguments us)
     /\ sent_delete t (expr_not_in (lk_condition (GStr x)) vs) = Ok (text', arguments us))
  /\ (existsb unusable vs = true -> exists p, expr_in (lk_condition (GStr x)) vs = Panic p /\ expr_not_in (lk_condition (GStr x)) vs = Panic p).
Proof.
  intros t x vs T X L. unfold expr_in, expr_not_in. rewrite (several vs L). split.
  - intros us V. rewrite (map_values vs us V). cbn [bind].
    assert (N : no_str x = false) by (unfold no_str; apply String.eqb_neq; exact X).
    assert (NE : exists u us', us = u :: us').
    { destruct V as [|v u vs us _ _]; [cbn in L; lia|]. exists u, us. reflexivity. }
    assert (D : forall kw, no_str kw = false ->
       exists text, sent_delete t (Ok (EIn (lk_condition (GStr x)) kw (EArray (map EValue us)))) = Ok (text, arguments us)).
    { intros kw K. eexists. rewrite (deletion_sent t _ (lit ("(" ++ quote x ++ " " ++ kw ++ " (") ++ sepd ", " (map value_sql us) ++ lit "))")); [|exact T|reflexivity| |].
      - unfold rendered. cbn [bind]. rewrite !args_app, !args_lit, values_args, app_nil_r. reflexivity.
      - unfold cond_empty. cbn [is_nil is_empty lk_condition]. rewrite N, K. reflexivity.
      - unfold expr_sql. cbn [write_expr]. unfold defined. cbn [is_empty is_nil lk_condition orb]. rewrite N, K. cbn [or_res bind].
        rewrite !flat_cat, !flat_w. change (write_expr (lk_condition (GStr x))) with (w (quote x)). rewrite ?flat_w.
        match goal with |- context [flat ?z] => replace (flat z) with (expr_sql (EArray (map EValue us))) end.
        + rewrite list_written. rewrite !lit_app, <- !app_assoc. reflexivity.
        + destruct NE as (u & us' & ->). reflexivity. }
    destruct (D "IN" eq_refl) as (a & A). destruct (D "NOT IN" eq_refl) as (b & B). exists a, b. split; assumption.
  - intro U. destruct (map_unusable vs U) as (p & ->). exists p. split; reflexivity.
Qed.
Print Assumptions C69_in.

(* Insert(t).Values(v, ...) with several values; C28 says what rows are. *)
Theorem C69_values {O : Oracle} : forall t vs, t <> ""%string -> (2 <= length vs)%nat ->
  (forall us, values_of vs us -> exists text, sent_insert t vs = Ok (text, arguments us))
  /\ (existsb unusable vs = true -> row_elems (hd GNil vs) = [] -> exists p, sent_insert t vs = Panic p).
Proof.
  intros t vs T L.
  assert (I : lk_insert (GStr t) = Ok (ins_with_into new_insert (lk_table t))).
  { destruct t; [congruence|reflexivity]. }
  assert (S : single_exception vs = false) by (destruct vs as [|v [|v' vs]]; try (cbn in L; lia); destruct v as [| | | | | | | | | | | | | | | | | | | | | | | | | | | | | | | | |[]| | | | | | | | | | | | | | | |]; reflexivity).
  assert (Z : vs <> []) by (intros ->; cbn in L; lia).
  unfold sent_insert. rewrite I. cbn [bind]. split.
  - intros us V.
    assert (R : row_elems (hd GNil vs) = []).
    { destruct V as [|v u vs us V _]; [reflexivity|]. cbn [hd]. destruct v; try reflexivity; discriminate V. }
    generalize (C28_single_row (ins_with_into new_insert (lk_table t)) vs Z S R eq_refl T). unfold row_exprs. rewrite (map_values vs us V).
    intros (i & -> & Q). cbn [bind]. rewrite Q. eexists. unfold insert_values, values_clause, clauses_sql, row_sql.
    cbn [map_res]. rewrite values_written. cbn [bind i_into i_columns i_conflict_target i_conflict_action i_returning i_comment ins_with_into new_insert listed conflict_clause present].
    unfold rendered, commas. cbn [bind sepd String.eqb]. rewrite !args_app, !args_lit, values_args.
    unfold table_sql. rewrite !args_app, !args_lit. cbn [app args lk_table t_alias alias_sql String.eqb]. rewrite ?app_nil_r. reflexivity.
  - intros U R. generalize (C28_single_row (ins_with_into new_insert (lk_table t)) vs Z S R eq_refl T). unfold row_exprs.
    destruct (map_unusable vs U) as (p & ->). intros ->. exists p. reflexivity.
Qed.
Print Assumptions C69_values.

(* Update(t).Set(Pair(Column(c), v)). *)
Theorem C69_set {O : Oracle} : forall t c v, sort_contract o_sort -> t <> ""%string -> c <> ""%string ->
  (forall u, driver_value v = Some u ->
     sent_update t c v = Ok ("UPDATE " ++ quote t ++ " SET " ++ quote c ++ " = " ++ null_or u "$1", arguments [u])%string)
  /\ (unusable v = true -> exists p, sent_update t c v = Panic p).
Proof.
  intros t c v K T C. unfold sent_update.
  assert (I : exists u0, lk_update (GStr t) = Ok u0 /\ u_table u0 = lk_table t /\ u_with u0 = [] /\ u_only u0 = false /\ u_from u0 = []
                /\ u_where u0 = ENil /\ u_returning u0 = [] /\ u_comment u0 = ""%string
                /\ u_set u0 = {| p_mode := PUnknown; p_map := []; p_cols := []; p_exprs := [] |}).
  { destruct t; [congruence|]. eexists. repeat split. }
  destruct I as (u0 & I & Ut & Uw & Uo & Uf & Uc & Ur & Um & Us). rewrite I. cbn [bind].
  assert (CC : to_column (GColumn (lk_column c)) = Ok (lk_column c)) by (destruct c; [congruence|reflexivity]).
  assert (M : upd_step u0 (UpdSet [GPair (GColumn (lk_column c)) v])
              = do e <- new_expression v; do p <- pairs_add (u_set u0) (lk_column c) (new_wrapper e); Ok (upd_with_set u0 p)).
  { cbn [upd_step]. unfold merge_set. cbn [fold_res merge_arg]. unfold merge_pair. cbn [fst snd]. rewrite CC. cbn [bind].
    destruct (new_expression v); [|reflexivity]. cbn [bind]. destruct (pairs_add _ _ _); reflexivity. }
  split.
  - intros u V.
    assert (H : history (set_args [UpdSet [GPair (GColumn (lk_column c)) v]]) [(lk_column c, EValue u)]).
    { exists [(GColumn (lk_column c), v)]. split; [reflexivity|]. cbn [map_res]. unfold assigns. cbn [fst snd]. rewrite CC, (as_value v u V). reflexivity. }
    rewrite (as_value v u V), Us in M. cbn [bind new_wrapper pairs_add p_mode p_map pm_get p_cols p_exprs app] in M.
    match type of M with _ = Ok ?x => set (u' := x) in M end. rewrite M. cbn [bind].
    assert (RU : upd_run u0 [UpdSet [GPair (GColumn (lk_column c)) v]] = Ok u') by (unfold upd_run; cbn [fold_res]; rewrite M; reflexivity).
    destruct (C23_update (GStr t) u0 [UpdSet [GPair (GColumn (lk_column c)) v]] u' _ K I RU H ltac:(discriminate))
      as (cols & es & (ND & Co) & Fi & Q).
    assert (cols = [lk_column c]).
    { cbn [map fst] in Co. destruct cols as [|a cols]; [exfalso; apply (proj2 (Co (lk_column c))); left; reflexivity|].
      assert (A : a = lk_column c) by (destruct (proj1 (Co a) (or_introl eq_refl)) as [X|[]]; congruence). subst a.
      destruct cols as [|b cols]; [reflexivity|]. exfalso.
      assert (B : b = lk_column c) by (destruct (proj1 (Co b) (or_intror (or_introl eq_refl))) as [X|[]]; congruence). subst b.
      inversion ND as [|x l N1 N2]; subst. apply N1. left. reflexivity. }
    subst cols. inversion Fi as [|x y l l' F1 F2]; subst. inversion F2; subst. cbn [last_write] in F1. rewrite col_eqb_refl in F1. injection F1 as <-.
    rewrite Q. unfold update_setting, clauses_sql, u'. cbn [upd_with_set u_with u_table u_only u_from u_where u_returning u_comment].
    rewrite Uw, Ut, Uo, Uf, Uc, Ur, Um. unfold set_list. cbn [map_res]. rewrite value_written.
    cbn [bind listed flag cond_clause cond_empty is_nil present String.eqb]. unfold rendered, commas, table_sql, assignments, assignment, column_sql, alias_sql.
    cbn [bind sepd combine map t_only t_name t_alias c_name c_alias lk_table lk_column String.eqb].
    rewrite ?fill_app, ?fill_lit, ?args_app, ?args_lit, ?value_fill, ?value_args, ?app_nil_r. cbn [app length Nat.add]. cbn [fill]. rewrite ?sapp_nil, ?sapp_assoc. reflexivity.
  - intro U. destruct (no_value v U) as (p & P). exists p. rewrite M, P. reflexivity.
Qed.
Print Assumptions C69_set.

(* Between(a, b) and NotBetween(a, b). *)
Theorem C69_between {O : Oracle} : forall t x a b, t <> ""%string -> x <> ""%string ->
  (forall u u', driver_value a = Some u -> driver_value b = Some u' -> exists text text',
     sent_delete t (ident_between (GStr x) a b) = Ok (text, arguments [u; u'])
     /\ sent_delete t (ident_not_between (GStr x) a b) = Ok (text', arguments [u; u']))
  /\ (unusable a || unusable b = true -> exists p, ident_between (GStr x) a b = Panic p /\ ident_not_between (GStr x) a b = Panic p).
Proof.
  intros t x a b T X. unfold ident_between, ident_not_between. split.
  - intros u u' A B. rewrite (as_value a u A), (as_value b u' B). cbn [bind].
    assert (N : no_str x = false) by (unfold no_str; apply String.eqb_neq; exact X).
    assert (D : forall kw, no_str kw = false ->
       exists text, sent_delete t (Ok (EBetween (GStr x) kw (EValue u) "AND" (EValue u'))) = Ok (text, arguments [u; u'])).
    { intros kw W. eexists. rewrite (deletion_sent t _ (lit ("(" ++ quote x ++ " " ++ kw ++ " ") ++ value_sql u ++ lit " AND " ++ value_sql u' ++ lit ")")); [|exact T|reflexivity| |].
      - unfold rendered. cbn [bind]. rewrite !args_app, !args_lit, !value_args. destruct u, u'; reflexivity.
      - unfold cond_empty. cbn [is_nil is_empty]. rewrite ?N, ?W. destruct u, u'; reflexivity.
      - unfold expr_sql. cbn [write_expr]. unfold defined. cbn [is_empty is_nil]. rewrite ?N, ?W. cbn [or_res bind no_str String.eqb orb].
        rewrite !flat_cat, !flat_w.
        change (flat (write_value u)) with (expr_sql (EValue u)). change (flat (write_value u')) with (expr_sql (EValue u')). rewrite !value_written.
        unfold write_ident. rewrite ?flat_w, !lit_app, <- !app_assoc. reflexivity. }
    destruct (D "BETWEEN" eq_refl) as (y & Y). destruct (D "NOT BETWEEN" eq_refl) as (z & Z). exists y, z. split; assumption.
  - intro U. destruct (new_expression a) as [e|p] eqn:E; [|exists p; split; reflexivity].
    destruct (unusable a) eqn:Ua; [destruct (no_value a Ua); congruence|]. destruct (no_value b U) as (p & ->). exists p. split; reflexivity.
Qed.
Print Assumptions C69_between.

(* ------------------------------------------------------------------------- *)
(* Examples                                                                    *)
(* ------------------------------------------------------------------------- *)

Section Examples.
  #[local] Existing Instance go_oracle.
  (* A named string type without methods, []int, and a nil *time.Time are refused. *)
  Example C69_unusable_ex : unusable (GOther "main.Status") = true /\ unusable (GInts KInt [1]%Z) = true /\ unusable (GTimePtr None) = true
    /\ unusable (GLimit 3) = true /\ unusable (GStmtEnc None) = true.
  Proof. repeat split; reflexivity. Qed.
  Example C69_comparison_ex : driver_value (GStringEnc "1h0m0s") = Some (GStr "1h0m0s")
    /\ sent_delete "t" (cmp_expr (lk_condition (GStr "x")) OpLessThan (GStringEnc "1h0m0s")) = Ok ("DELETE FROM ""t"" WHERE (""x"" < $1)", [GStr "1h0m0s"]).
  Proof. split; [reflexivity|vm_compute; reflexivity]. Qed.
  Example C69_in_ex : values_of [GInt KInt 1; GNil; GInt64Enc 3] [GInt KInt 1; GNil; GInt KInt64 3]
    /\ arguments [GInt KInt 1; GNil; GInt KInt64 3] = [GInt KInt 1; GInt KInt64 3]
    /\ sent_delete "t" (expr_in (lk_condition (GStr "x")) [GInt KInt 1; GNil; GInt64Enc 3])
       = Ok ("DELETE FROM ""t"" WHERE (""x"" IN ($1, NULL, $2))", [GInt KInt 1; GInt KInt64 3]).
  Proof. split; [repeat constructor|]. split; [reflexivity|vm_compute; reflexivity]. Qed.
  Example C69_values_ex : sent_insert "t" [GStrs ["a"]; GNil; GJoinType "INNER JOIN"] = Ok ("INSERT INTO ""t"" VALUES ($1, NULL, $2)", [GStrs ["a"]; GStr "INNER JOIN"]).
  Proof. vm_compute. reflexivity. Qed.
  Example C69_set_ex : sort_contract o_sort /\ sent_update "t" "c" GNilValuer = Ok ("UPDATE ""t"" SET ""c"" = $1", [GNilValuer]).
  Proof. split; [exact insertion_contract|vm_compute; reflexivity]. Qed.
  Example C69_between_ex : sent_delete "t" (ident_between (GStr "x") (GBoolEnc true) GNil) = Ok ("DELETE FROM ""t"" WHERE (""x"" BETWEEN $1 AND NULL)", [GBool true]).
  Proof. vm_compute. reflexivity. Qed.
End Examples.
