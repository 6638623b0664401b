(* The remaining unit tests of the repository, run on the model: builder/builder_test.go
   TestToColumns, builder/select_test.go TestSelect_NilCondition, stmt/expression_test.go,
   lexer/lexer_test.go and parser/join_test.go. These are tests: they check the model, they prove
   no property. *)
From Coq Require Import String List ZArith.
From Verif Require Import Ast Format Ctx Write Api Lexer Machine Parser Build Sort Harness.
Import ListNotations.
Local Open Scope string_scope.
Local Open Scope list_scope.
#[local] Existing Instance go_oracle.

(* ------------------------------------------------------------------------- *)
(* builder/builder_test.go:84-162 TestToColumns                                *)
(* ------------------------------------------------------------------------- *)

Definition foo_bar : res (list column) := Ok [lk_column "foo"; lk_column "bar"].

Example TestToColumns_simple :
  to_columns [GStr "foo"; GStr "bar"] = foo_bar
  /\ to_columns [GColumn (lk_column "foo"); GStr "bar"] = foo_bar
  /\ to_columns [GColumn (lk_column "foo"); GColumn (lk_column "bar")] = foo_bar
  /\ to_columns [GStrs ["foo"; "bar"]] = foo_bar
  /\ to_columns [GColumns [lk_column "foo"; lk_column "bar"]] = foo_bar
  /\ to_columns [GStr "foo, bar"] = foo_bar.
Proof. vm_compute. repeat split. Qed.

Definition panics {A} (r : res A) : bool := match r with Panic _ => true | Ok _ => false end.

Example TestToColumns_corner_cases :
  panics (to_columns [GStr ""]) = true
  /\ panics (to_columns [GColumn (lk_column "")]) = true
  /\ panics (to_columns [GStrs [""]]) = true
  /\ panics (to_columns [GColumns [lk_column ""]]) = true
  /\ panics (to_columns [GStr ","]) = true.
Proof. vm_compute. repeat split. Qed.

(* ------------------------------------------------------------------------- *)
(* builder/select_test.go:1635-1651 TestSelect_NilCondition                    *)
(* ------------------------------------------------------------------------- *)

Example TestSelect_NilCondition :
  panics (do q <- lk_select [GStr "col"]; do q <- sel_step q (SelFrom [GStr "table"]);
          do c <- cmp_expr (lk_condition (GStr "col")) OpEqual (GStr "value");
          do q <- sel_step q (SelWhere c); sel_step q (SelAnd ENil)) = true
  /\ panics (do q <- lk_select [GStr "col"]; do q <- sel_step q (SelFrom [GStr "table"]);
             sel_step q (SelWhere ENil)) = true.
Proof. vm_compute. repeat split. Qed.

(* ------------------------------------------------------------------------- *)
(* stmt/expression_test.go                                                     *)
(* ------------------------------------------------------------------------- *)

(* expression := stmt.NewExpression(source); expression.Write(ctx); ctx.Query(), ctx.Values() *)
Definition named_value (source : gval) : res (string * list (string * gval)) :=
  do e <- new_expression source; do t <- write_expr e; Ok (run_named t).
Definition bound_as (source v : gval) : Prop := named_value source = Ok (":arg_1", [("arg_1", v)]).

Definition some_time : gtime := {| tm_sec := 1511455647; tm_nsec := 123456789 |}.

Example TestExpression_Valuer :
  bound_as (GValuer (GTime some_time)) (GValuer (GTime some_time))
  /\ bound_as (GValuer GNil) (GValuer GNil)
  /\ bound_as (GValuer (GStr "ok")) (GValuer (GStr "ok"))
  /\ bound_as (GValuer (GInt KInt64 32)) (GValuer (GInt KInt64 32)).
Proof. vm_compute. repeat split. Qed.

Example TestExpression_Encoder :
  bound_as (GStringEnc "foobar") (GStr "foobar")
  /\ bound_as (GInt64Enc 32) (GInt KInt64 32)
  /\ bound_as (GBoolEnc true) (GBool true)
  /\ bound_as (GTimeEnc some_time) (GTime some_time).
Proof. vm_compute. repeat split. Qed.

(* ------------------------------------------------------------------------- *)
(* lexer/lexer_test.go:40-160 TestNextToken                                    *)
(* ------------------------------------------------------------------------- *)

Definition lexes (input : string) (expected : list (string * string)) : Prop :=
  map (fun t => (tk_type t, tk_value t)) (lex input) = expected.

Definition nls (s : string) : string := (nl ++ tab ++ tab ++ tab ++ s ++ nl ++ tab ++ tab)%string.

Example TestNextToken_1 : lexes "" [].
Proof. reflexivity. Qed.
Example TestNextToken_2 :
  lexes (nls "SELECT * FROM foobar WHERE id = 2;")
        [("SELECT", "SELECT"); ("*", "*"); ("FROM", "FROM"); ("Literal", "foobar"); ("WHERE", "WHERE");
         ("Literal", "id"); ("=", "="); ("Literal", "2"); (";", ";")].
Proof. vm_compute. reflexivity. Qed.
Example TestNextToken_3 :
  lexes (nls "SELECT a,b,c FROM foobar;")
        [("SELECT", "SELECT"); ("Literal", "a"); (",", ","); ("Literal", "b"); (",", ","); ("Literal", "c");
         ("FROM", "FROM"); ("Literal", "foobar"); (";", ";")].
Proof. vm_compute. reflexivity. Qed.
Example TestNextToken_4 :
  lexes (nls "SELECT a, b, c FROM foobar")
        [("SELECT", "SELECT"); ("Literal", "a"); (",", ","); ("Literal", "b"); (",", ","); ("Literal", "c");
         ("FROM", "FROM"); ("Literal", "foobar")].
Proof. vm_compute. reflexivity. Qed.
Example TestNextToken_5 :
  lexes "SELECT a, b, c FROM foobar"
        [("SELECT", "SELECT"); ("Literal", "a"); (",", ","); ("Literal", "b"); (",", ","); ("Literal", "c");
         ("FROM", "FROM"); ("Literal", "foobar")].
Proof. vm_compute. reflexivity. Qed.
Example TestNextToken_6 :
  lexes "INNER JOIN test2 ON test2.id = test.fk_id"
        [("INNER", "INNER"); ("JOIN", "JOIN"); ("Literal", "test2"); ("ON", "ON"); ("Literal", "test2.id");
         ("=", "="); ("Literal", "test.fk_id")].
Proof. vm_compute. reflexivity. Qed.
Example TestNextToken_7 :
  lexes "DELETE FROM test2 WHERE id = 5"
        [("DELETE", "DELETE"); ("FROM", "FROM"); ("Literal", "test2"); ("WHERE", "WHERE"); ("Literal", "id");
         ("=", "="); ("Literal", "5")].
Proof. vm_compute. reflexivity. Qed.

(* ------------------------------------------------------------------------- *)
(* parser/join_test.go:13-188 TestParseJoin                                    *)
(* ------------------------------------------------------------------------- *)

Definition parses (input ty tbl : string) (cond : expr) : Prop :=
  parse_join input = Ok ({| j_type := ty; j_table := lk_table tbl; j_cond := cond |}, None).

Example TestParseJoin_expressions :
  parses "LEFT JOIN project ON user.id = project.user_id" "LEFT JOIN" "project"
         (lk_on "user.id" "project.user_id")
  /\ parses "INNER JOIN account ON (project.account_id = account.id)" "INNER JOIN" "account"
            (lk_on "project.account_id" "account.id")
  /\ parses "RIGHT JOIN foobar ON foobar.group_id = test.group_id;" "RIGHT JOIN" "foobar"
            (lk_on "foobar.group_id" "test.group_id").
Proof. vm_compute. repeat split. Qed.

Example TestParseJoin_partials :
  parses "ON user.id = project.user_id" "INNER JOIN" "" (lk_on "user.id" "project.user_id")
  /\ parses "user.id = project.user_id" "INNER JOIN" "" (lk_on "user.id" "project.user_id").
Proof. vm_compute. repeat split. Qed.

Example TestParseJoin_logical :
  parses "ON user.id = project.user_id AND user.hash = project.hash" "INNER JOIN" ""
         (EInfix (lk_on "user.id" "project.user_id") (Some "AND") (lk_on "user.hash" "project.hash"))
  /\ parses "ON user.id = project.user_id OR user.hash = project.hash" "INNER JOIN" ""
            (EInfix (lk_on "user.id" "project.user_id") (Some "OR") (lk_on "user.hash" "project.hash"))
  /\ parses "ON user.id = project.user_id AND user.hash = project.hash OR user.group_id = project.group_id"
            "INNER JOIN" ""
            (EInfix (EInfix (lk_on "user.id" "project.user_id") (Some "AND") (lk_on "user.hash" "project.hash"))
                    (Some "OR") (lk_on "user.group_id" "project.group_id")).
Proof. vm_compute. repeat split. Qed.

Example TestParseJoin_invalid :
  parse_join "INNER JOIN account ON (project.account_id = *)" = Ok (zero_join, Some join_error).
Proof. vm_compute. reflexivity. Qed.
