(* The unit tests of builder/delete_test.go, run on the model. Each example is one entry of the tables of that file:
   the builder expression written with the functions of the model, and the expected texts and
   arguments. Machine-translated. These are tests: they check the model, they prove no property. *)
From Coq Require Import String List ZArith.
From Verif Require Import Ast Format Ctx Write Api Parser Build Sort Harness.
Import ListNotations.
Local Open Scope string_scope.
Local Open Scope list_scope.
Local Open Scope Z_scope.
#[local] Existing Instance go_oracle.

(* TestDelete Simple *)
Example TestDelete_Simple_0 : renders (do d1 <- lk_delete (GStr "table"); Ok (StDelete d1))
  "DELETE FROM ""table"""
  "DELETE FROM ""table"""
  "DELETE FROM ""table"""
  [].
Proof. vm_compute. repeat split. Qed.

(* TestDelete Simple *)
Example TestDelete_Simple_1 : renders (do d1 <- lk_delete (GTable (lk_table "table")); Ok (StDelete d1))
  "DELETE FROM ""table"""
  "DELETE FROM ""table"""
  "DELETE FROM ""table"""
  [].
Proof. vm_compute. repeat split. Qed.

(* TestDelete Only *)
Example TestDelete_Only : renders (do d1 <- lk_delete (GTable (table_only (lk_table "table"))); Ok (StDelete d1))
  "DELETE FROM ONLY ""table"""
  "DELETE FROM ONLY ""table"""
  "DELETE FROM ONLY ""table"""
  [].
Proof. vm_compute. repeat split. Qed.

(* TestDelete As *)
Example TestDelete_As : renders (do d1 <- lk_delete (GTable (table_as (lk_table "table") "foobar")); Ok (StDelete d1))
  "DELETE FROM ""table"" AS ""foobar"""
  "DELETE FROM ""table"" AS ""foobar"""
  "DELETE FROM ""table"" AS ""foobar"""
  [].
Proof. vm_compute. repeat split. Qed.

(* TestDelete As only *)
Example TestDelete_As_only : renders (do d1 <- lk_delete (GTable (table_only (table_as (lk_table "table") "foobar"))); Ok (StDelete d1))
  "DELETE FROM ONLY ""table"" AS ""foobar"""
  "DELETE FROM ONLY ""table"" AS ""foobar"""
  "DELETE FROM ONLY ""table"" AS ""foobar"""
  [].
Proof. vm_compute. repeat split. Qed.

(* TestDelete_Comment Simple *)
Example TestDelete_Comment_Simple_0 : renders (do d1 <- lk_delete (GStr "table"); (do d2 <- del_step d1 (DelComment "/foo"); Ok (StDelete d2)))
  "DELETE FROM ""table""; -- /foo"
  "DELETE FROM ""table""; -- /foo"
  "DELETE FROM ""table""; -- /foo"
  [].
Proof. vm_compute. repeat split. Qed.

(* TestDelete_Comment Simple *)
Example TestDelete_Comment_Simple_1 : renders (do d1 <- lk_delete (GTable (lk_table "table")); (do d2 <- del_step d1 (DelComment "/foo"); Ok (StDelete d2)))
  "DELETE FROM ""table""; -- /foo"
  "DELETE FROM ""table""; -- /foo"
  "DELETE FROM ""table""; -- /foo"
  [].
Proof. vm_compute. repeat split. Qed.

(* TestDelete_Using One table *)
Example TestDelete_Using_One_table_0 : renders (do d1 <- lk_delete (GStr "table"); (do d2 <- del_step d1 (DelUsing [(GStr "foobar")]); Ok (StDelete d2)))
  "DELETE FROM ""table"" USING ""foobar"""
  "DELETE FROM ""table"" USING ""foobar"""
  "DELETE FROM ""table"" USING ""foobar"""
  [].
Proof. vm_compute. repeat split. Qed.

(* TestDelete_Using One table *)
Example TestDelete_Using_One_table_1 : renders (do d1 <- lk_delete (GStr "table"); (do d2 <- del_step d1 (DelUsing [(GTable (lk_table "foobar"))]); Ok (StDelete d2)))
  "DELETE FROM ""table"" USING ""foobar"""
  "DELETE FROM ""table"" USING ""foobar"""
  "DELETE FROM ""table"" USING ""foobar"""
  [].
Proof. vm_compute. repeat split. Qed.

(* TestDelete_Using One table as *)
Example TestDelete_Using_One_table_as : renders (do d1 <- lk_delete (GStr "table"); (do d2 <- del_step d1 (DelUsing [(GTable (table_as (lk_table "foobar") "foo"))]); Ok (StDelete d2)))
  "DELETE FROM ""table"" USING ""foobar"" AS ""foo"""
  "DELETE FROM ""table"" USING ""foobar"" AS ""foo"""
  "DELETE FROM ""table"" USING ""foobar"" AS ""foo"""
  [].
Proof. vm_compute. repeat split. Qed.

(* TestDelete_Using Two tables *)
Example TestDelete_Using_Two_tables_0 : renders (do d1 <- lk_delete (GStr "table"); (do d2 <- del_step d1 (DelUsing [(GStr "foobar"); (GStr "example")]); Ok (StDelete d2)))
  "DELETE FROM ""table"" USING ""foobar"", ""example"""
  "DELETE FROM ""table"" USING ""foobar"", ""example"""
  "DELETE FROM ""table"" USING ""foobar"", ""example"""
  [].
Proof. vm_compute. repeat split. Qed.

(* TestDelete_Using Two tables *)
Example TestDelete_Using_Two_tables_1 : renders (do d1 <- lk_delete (GStr "table"); (do d2 <- del_step d1 (DelUsing [(GTable (lk_table "foobar")); (GStr "example")]); Ok (StDelete d2)))
  "DELETE FROM ""table"" USING ""foobar"", ""example"""
  "DELETE FROM ""table"" USING ""foobar"", ""example"""
  "DELETE FROM ""table"" USING ""foobar"", ""example"""
  [].
Proof. vm_compute. repeat split. Qed.

(* TestDelete_Using Two tables as *)
Example TestDelete_Using_Two_tables_as : renders (do d1 <- lk_delete (GStr "table"); (do d2 <- del_step d1 (DelUsing [(GTable (lk_table "example")); (GTable (table_as (lk_table "foobar") "foo"))]); Ok (StDelete d2)))
  "DELETE FROM ""table"" USING ""example"", ""foobar"" AS ""foo"""
  "DELETE FROM ""table"" USING ""example"", ""foobar"" AS ""foo"""
  "DELETE FROM ""table"" USING ""example"", ""foobar"" AS ""foo"""
  [].
Proof. vm_compute. repeat split. Qed.

(* TestDelete_Where Simple *)
Example TestDelete_Where_Simple : renders (do d1 <- lk_delete (GStr "table"); (do c2 <- cmp_expr (lk_condition (GStr "id")) OpEqual (GInt KInt (1)); (do d3 <- del_step d1 (DelWhere c2); Ok (StDelete d3))))
  "DELETE FROM ""table"" WHERE (""id"" = 1)"
  "DELETE FROM ""table"" WHERE (""id"" = $1)"
  "DELETE FROM ""table"" WHERE (""id"" = :arg_1)"
  [(GInt KInt (1))].
Proof. vm_compute. repeat split. Qed.

(* TestDelete_Where Complex *)
Example TestDelete_Where_Complex : renders (do d1 <- lk_delete (GStr "table"); (do c2 <- cmp_expr (lk_condition (GStr "id")) OpEqual (GInt KInt (1)); (do d3 <- del_step d1 (DelWhere c2); (do c4 <- cmp_expr (lk_condition (GStr "created_at")) OpGreaterThan (GTime {| tm_sec := 1511455647; tm_nsec := 0 |}); (do d5 <- del_step d3 (DelAnd c4); Ok (StDelete d5))))))
  "DELETE FROM ""table"" WHERE ((""id"" = 1) AND (""created_at"" > '2017-11-23 16:47:27+00'))"
  "DELETE FROM ""table"" WHERE ((""id"" = $1) AND (""created_at"" > $2))"
  "DELETE FROM ""table"" WHERE ((""id"" = :arg_1) AND (""created_at"" > :arg_2))"
  [(GInt KInt (1)); (GTime {| tm_sec := 1511455647; tm_nsec := 0 |})].
Proof. vm_compute. repeat split. Qed.

(* TestDelete_Returning * *)
Example TestDelete_Returning : renders (do d1 <- lk_delete (GStr "table"); (do d2 <- del_step d1 (DelReturning [(GExpr (lk_raw "*"))]); Ok (StDelete d2)))
  "DELETE FROM ""table"" RETURNING *"
  "DELETE FROM ""table"" RETURNING *"
  "DELETE FROM ""table"" RETURNING *"
  [].
Proof. vm_compute. repeat split. Qed.

(* TestDelete_Returning id *)
Example TestDelete_Returning_id : renders (do d1 <- lk_delete (GStr "table"); (do d2 <- del_step d1 (DelReturning [(GStr "id")]); Ok (StDelete d2)))
  "DELETE FROM ""table"" RETURNING ""id"""
  "DELETE FROM ""table"" RETURNING ""id"""
  "DELETE FROM ""table"" RETURNING ""id"""
  [].
Proof. vm_compute. repeat split. Qed.
