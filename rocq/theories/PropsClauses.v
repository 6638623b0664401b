(* C17, C40, C45: the clauses of the four statements. *)
From Verif Require Import ClausesP Sort.

(* The SQL of a builder whose template is known. *)
Definition rendered (q : res sql) : res (string * list gval) :=
  do q <- q; Ok (fill dollar 1 q, args q).

Lemma query_rendered {O : Oracle} : forall s, query s = rendered (template s).
Proof. intro s. rewrite query_template. destruct (template s); reflexivity. Qed.

(* ------------------------------------------------------------------------- *)
(* C17                                                                         *)
(* ------------------------------------------------------------------------- *)

(* Query() is the list of the clauses that are set, in the order of [select_clauses],
   separated by one space, and the comment. It panics exactly when one of them does. *)
Theorem C17_select_clauses {O : Oracle} : forall s, s_exprs s <> [] ->
  query (StSelect s) = rendered (clauses_sql (select_clauses s) (s_comment s)).
Proof.
  intros s H. rewrite query_rendered, select_sql. destruct (s_exprs s); [contradiction|reflexivity].
Qed.
Print Assumptions C17_select_clauses.

(* The other two renderings show the same template. *)
Theorem C17_select_clauses_named {O : Oracle} : forall s q, s_exprs s <> [] ->
  clauses_sql (select_clauses s) (s_comment s) = Ok q ->
  named_query (StSelect s) = Ok (fill colon 1 q, combine (names_from 1 (length (args q))) (args q)).
Proof.
  intros s q H E. rewrite named_query_template, select_sql. destruct (s_exprs s); [contradiction|].
  cbn [nonempty]. rewrite E. reflexivity.
Qed.
Print Assumptions C17_select_clauses_named.

(* A subquery is written with the same clauses, wherever it stands. *)
Theorem C17_subquery_clauses {O : Oracle} : forall s, s_exprs s <> [] ->
  expr_sql (ESelect s) = clauses_sql (select_clauses s) (s_comment s).
Proof.
  intros s H. pose proof (select_sql s) as E. unfold template in E. cbn [write_stmt] in E.
  unfold expr_sql. cbn [write_expr]. unfold write_select in E. rewrite E.
  destruct (s_exprs s); [contradiction|reflexivity].
Qed.
Print Assumptions C17_subquery_clauses.

Definition every_clause : select := {|
  s_prefix := "/* p */"; s_with := [{| wq_name := "c"; wq_sub := ERaw "SELECT 1" |}]; s_distinct := true;
  s_distinct_on := [lk_column "d"]; s_exprs := [SColumn (lk_column "a"); lk_count "*"];
  s_from := [FTable (table_as (lk_table "t") "x")];
  s_joins := [{| j_type := "LEFT JOIN"; j_table := lk_table "u"; j_cond := lk_on "t.a" "u.b" |}];
  s_where := EInfix (EIdent (GStr "a")) (Some "=") (EValue (GInt KInt 7)); s_group_by := [lk_column "a"];
  s_having := ERaw "COUNT(*) > 1"; s_order_by := [lk_order "a" []]; s_limit := 3; s_offset := 4;
  s_suffix := "FOR UPDATE"; s_comment := "why" |}.

Example C17_example : query (O := go_oracle) (StSelect every_clause)
  = Ok ("/* p */ WITH c AS (SELECT 1) SELECT DISTINCT ON (""d"") DISTINCT ""a"", COUNT(*) FROM ""t"" AS ""x"" LEFT JOIN ""u"" ON ""t"".""a"" = ""u"".""b"" WHERE (""a"" = $1) GROUP BY ""a"" HAVING COUNT(*) > 1 ORDER BY a ASC LIMIT 3 OFFSET 4 FOR UPDATE; -- why",
        [GInt KInt 7]).
Proof. vm_compute. reflexivity. Qed.
Example C17_example_clauses :
  rendered (clauses_sql (select_clauses (O := go_oracle) every_clause) (s_comment every_clause)) = query (O := go_oracle) (StSelect every_clause)
  /\ s_exprs every_clause <> [].
Proof. split; [vm_compute; reflexivity|discriminate]. Qed.

(* ------------------------------------------------------------------------- *)
(* C45                                                                         *)
(* ------------------------------------------------------------------------- *)

Theorem C45_insert_clauses {O : Oracle} : forall i, t_name (i_into i) <> "" ->
  query (StInsert i) = rendered (clauses_sql (insert_clauses i) (i_comment i)).
Proof.
  intros i H. rewrite query_rendered, insert_sql. unfold no_str. apply String.eqb_neq in H. rewrite H. reflexivity.
Qed.
Print Assumptions C45_insert_clauses.

Theorem C45_update_clauses {O : Oracle} : forall u, t_name (u_table u) <> "" -> pairs_empty (u_set u) = false ->
  query (StUpdate u) = rendered (clauses_sql (update_clauses u) (u_comment u)).
Proof.
  intros u H E. rewrite query_rendered, update_sql, E. unfold no_str. apply String.eqb_neq in H. rewrite H. reflexivity.
Qed.
Print Assumptions C45_update_clauses.

Theorem C45_delete_clauses {O : Oracle} : forall d, d_from d <> [] ->
  query (StDelete d) = rendered (clauses_sql (delete_clauses d) (d_comment d)).
Proof.
  intros d H. rewrite query_rendered, delete_sql. destruct (d_from d); [contradiction|reflexivity].
Qed.
Print Assumptions C45_delete_clauses.

Example C45_insert_example :
  (do i <- lk_insert (O := go_oracle) (GStr "t");
   do p <- lk_do_update [GPair (GStr "b") (GInt KInt 3)];
   do i <- ins_run (O := go_oracle) i [InsColumns [GStr "a, b"]; InsValues [GInt KInt 1; GNil];
                  InsOnConflict [GStr "a"; p]; InsReturning [GStr "id"]; InsComment "c"];
   query (O := go_oracle) (StInsert i))
  = Ok ("INSERT INTO ""t"" (""a"", ""b"") VALUES ($1, NULL) ON CONFLICT (""a"") DO UPDATE SET ""b"" = $2 RETURNING ""id""; -- c",
        [GInt KInt 1; GInt KInt 3]).
Proof. vm_compute. reflexivity. Qed.
Example C45_update_example :
  (do u <- lk_update (GStr "t");
   do u <- upd_run u [UpdOnly; UpdSet [GPair (GStr "b") (GInt KInt 3)]; UpdFrom (GStr "s");
                      UpdWhere (ERaw "x"); UpdReturning [GStr "id"];
                      UpdWith [{| wq_name := "c"; wq_sub := ERaw "SELECT 1" |}]];
   query (O := go_oracle) (StUpdate u))
  = Ok ("WITH c AS (SELECT 1) UPDATE ONLY ""t"" SET ""b"" = $1 FROM ""s"" WHERE x RETURNING ""id""", [GInt KInt 3]).
Proof. vm_compute. reflexivity. Qed.
Example C45_delete_example :
  (do d <- lk_delete (GStr "t");
   do d <- del_run d [DelUsing [GStr "s"]; DelWhere (ERaw "x"); DelReturning [GStr "id"]];
   query (O := go_oracle) (StDelete d))
  = Ok ("DELETE FROM ""t"" USING ""s"" WHERE x RETURNING ""id""", []).
Proof. vm_compute. reflexivity. Qed.

(* ------------------------------------------------------------------------- *)
(* C40                                                                         *)
(* ------------------------------------------------------------------------- *)

(* A statement without what SQL requires. *)
Definition incomplete (s : stmt) : Prop :=
  match s with
  | StSelect s => s_exprs s = []
  | StInsert i => t_name (i_into i) = ""
  | StUpdate u => t_name (u_table u) = "" \/ pairs_empty (u_set u) = true
  | StDelete d => d_from d = []
  end.

Theorem C40_incomplete_panics {O : Oracle} : forall s, incomplete s ->
  exists p, query s = Panic p /\ named_query s = Panic p /\ to_string s = Panic p.
Proof.
  intros s H.
  assert (E : exists p, template s = Panic p).
  { destruct s as [s|i|u|d]; cbn [incomplete] in H.
    - rewrite select_sql, H. eexists. reflexivity.
    - rewrite insert_sql, H. eexists. reflexivity.
    - rewrite update_sql. destruct H as [H|H]; rewrite H.
      + eexists. reflexivity.
      + rewrite orb_true_r. eexists. reflexivity.
    - rewrite delete_sql, H. eexists. reflexivity. }
  destruct E as (p & E). exists p.
  rewrite query_template, named_query_template, (to_string_panic s p E), E. repeat split.
Qed.
Print Assumptions C40_incomplete_panics.

(* The same for a subquery: a SELECT without column is never written, wherever it is used. *)
Theorem C40_incomplete_subquery_panics {O : Oracle} : forall s, s_exprs s = [] ->
  exists p, expr_sql (ESelect s) = Panic p.
Proof.
  intros s H. unfold expr_sql. cbn [write_expr]. unfold write_select_with. rewrite H. eexists. reflexivity.
Qed.
Print Assumptions C40_incomplete_subquery_panics.

(* An update whose SET calls gave nothing: the only ways to have no value. *)
Theorem C40_update_without_values {O : Oracle} : forall g u, lk_update g = Ok u ->
  exists p, query (StUpdate u) = Panic p.
Proof.
  intros g u E. unfold lk_update in E. destruct (to_table g); [|discriminate E]. injection E as <-.
  destruct (C40_incomplete_panics (StUpdate {| u_with := []; u_table := a; u_only := false; u_from := [];
     u_set := empty_pairs; u_where := ENil; u_returning := []; u_comment := "" |})) as (p & H & _).
  - right. reflexivity.
  - exists p. exact H.
Qed.
Print Assumptions C40_update_without_values.

Example C40_examples :
  incomplete (StSelect new_select) /\ incomplete (StInsert new_insert) /\ incomplete (StDelete new_delete)
  /\ (exists u, (do u <- lk_update (GStr "t"); upd_step u (UpdSet [GMapAny []])) = Ok u /\ incomplete (StUpdate u))
  /\ (exists s, lk_select [GColumns []] = Ok s /\ incomplete (StSelect s)).
Proof. repeat split; try reflexivity; eexists; (split; [vm_compute; reflexivity|]); [right|]; reflexivity. Qed.
