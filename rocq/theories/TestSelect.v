(* The unit tests of builder/select_test.go, run on the model. Each example is one entry of the tables of that file:
   the builder expression written with the functions of the model, and the expected texts and
   arguments. Machine-translated. These are tests: they check the model, they prove no property. *)
From Coq Require Import String List ZArith.
From Verif Require Import Ast Format Ctx Write Api Parser Build Sort Harness.
Import ListNotations.
Local Open Scope string_scope.
Local Open Scope list_scope.
Local Open Scope Z_scope.
#[local] Existing Instance go_oracle.

(* TestSelect_Value ValueEqual *)
Example TestSelect_Value_ValueEqual : renders (do q1 <- lk_select [(GStr "id")]; (do s2 <- sel_step q1 (SelFrom [(GStr "video")]); (do c3 <- cmp_expr (lk_value (GStr "fr")) OpEqual (GExpr (lk_raw "ANY(string_to_array(languages, ','))")); (do s4 <- sel_step s2 (SelWhere c3); Ok (StSelect s4)))))
  "SELECT ""id"" FROM ""video"" WHERE ('fr' = ANY(string_to_array(languages, ',')))"
  "SELECT ""id"" FROM ""video"" WHERE ($1 = ANY(string_to_array(languages, ',')))"
  "SELECT ""id"" FROM ""video"" WHERE (:arg_1 = ANY(string_to_array(languages, ',')))"
  [(GStr "fr")].
Proof. vm_compute. repeat split. Qed.

(* TestSelect_Value ValueNotEqual *)
Example TestSelect_Value_ValueNotEqual : renders (do q1 <- lk_select [(GStr "id")]; (do s2 <- sel_step q1 (SelFrom [(GStr "video")]); (do c3 <- cmp_expr (lk_value (GStr "fr")) OpNotEqual (GExpr (lk_raw "ANY(string_to_array(languages, ','))")); (do s4 <- sel_step s2 (SelWhere c3); Ok (StSelect s4)))))
  "SELECT ""id"" FROM ""video"" WHERE ('fr' != ANY(string_to_array(languages, ',')))"
  "SELECT ""id"" FROM ""video"" WHERE ($1 != ANY(string_to_array(languages, ',')))"
  "SELECT ""id"" FROM ""video"" WHERE (:arg_1 != ANY(string_to_array(languages, ',')))"
  [(GStr "fr")].
Proof. vm_compute. repeat split. Qed.

(* TestSelect_Value ValueOverlap *)
Example TestSelect_Value_ValueOverlap : renders (do q1 <- lk_select [(GStr "id")]; (do s2 <- sel_step q1 (SelFrom [(GStr "video")]); (do c3 <- cmp_expr (lk_value (GStr "{fr}")) OpOverlap (GExpr (lk_raw "languages")); (do s4 <- sel_step s2 (SelWhere c3); Ok (StSelect s4)))))
  "SELECT ""id"" FROM ""video"" WHERE ('{fr}' && languages)"
  "SELECT ""id"" FROM ""video"" WHERE ($1 && languages)"
  "SELECT ""id"" FROM ""video"" WHERE (:arg_1 && languages)"
  [(GStr "{fr}")].
Proof. vm_compute. repeat split. Qed.

(* TestSelect_Value ValueIsContainedBy *)
Example TestSelect_Value_ValueIsContainedBy : renders (do q1 <- lk_select [(GStr "id")]; (do s2 <- sel_step q1 (SelFrom [(GStr "video")]); (do c3 <- cmp_expr (lk_value (GStr "{fr}")) OpIsContainedBy (GExpr (lk_raw "languages")); (do s4 <- sel_step s2 (SelWhere c3); Ok (StSelect s4)))))
  "SELECT ""id"" FROM ""video"" WHERE ('{fr}' <@ languages)"
  "SELECT ""id"" FROM ""video"" WHERE ($1 <@ languages)"
  "SELECT ""id"" FROM ""video"" WHERE (:arg_1 <@ languages)"
  [(GStr "{fr}")].
Proof. vm_compute. repeat split. Qed.

(* TestSelect_Value IdentifierContains *)
Example TestSelect_Value_IdentifierContains : renders (do q1 <- lk_select [(GStr "id")]; (do s2 <- sel_step q1 (SelFrom [(GStr "video")]); (do c3 <- cmp_expr (lk_condition (GStr "languages")) OpContains (GStr "{fr}"); (do s4 <- sel_step s2 (SelWhere c3); Ok (StSelect s4)))))
  "SELECT ""id"" FROM ""video"" WHERE (""languages"" @> '{fr}')"
  "SELECT ""id"" FROM ""video"" WHERE (""languages"" @> $1)"
  "SELECT ""id"" FROM ""video"" WHERE (""languages"" @> :arg_1)"
  [(GStr "{fr}")].
Proof. vm_compute. repeat split. Qed.

(* TestSelect_Value IdentifierIsContainsBy *)
Example TestSelect_Value_IdentifierIsContainsBy : renders (do q1 <- lk_select [(GStr "id")]; (do s2 <- sel_step q1 (SelFrom [(GStr "video")]); (do c3 <- cmp_expr (lk_condition (GStr "languages")) OpIsContainedBy (GStr "{fr}"); (do s4 <- sel_step s2 (SelWhere c3); Ok (StSelect s4)))))
  "SELECT ""id"" FROM ""video"" WHERE (""languages"" <@ '{fr}')"
  "SELECT ""id"" FROM ""video"" WHERE (""languages"" <@ $1)"
  "SELECT ""id"" FROM ""video"" WHERE (""languages"" <@ :arg_1)"
  [(GStr "{fr}")].
Proof. vm_compute. repeat split. Qed.

(* TestSelect_Value IdentifierOverlap *)
Example TestSelect_Value_IdentifierOverlap : renders (do q1 <- lk_select [(GStr "id")]; (do s2 <- sel_step q1 (SelFrom [(GStr "video")]); (do c3 <- cmp_expr (lk_condition (GStr "languages")) OpOverlap (GStr "{fr}"); (do s4 <- sel_step s2 (SelWhere c3); Ok (StSelect s4)))))
  "SELECT ""id"" FROM ""video"" WHERE (""languages"" && '{fr}')"
  "SELECT ""id"" FROM ""video"" WHERE (""languages"" && $1)"
  "SELECT ""id"" FROM ""video"" WHERE (""languages"" && :arg_1)"
  [(GStr "{fr}")].
Proof. vm_compute. repeat split. Qed.

(* TestSelect_Comment Simple *)
Example TestSelect_Comment_Simple : renders (do q1 <- lk_select [(GStr "test")]; (do s2 <- sel_step q1 (SelComment "/foo"); Ok (StSelect s2)))
  "SELECT ""test""; -- /foo"
  "SELECT ""test""; -- /foo"
  "SELECT ""test""; -- /foo"
  [].
Proof. vm_compute. repeat split. Qed.

(* TestSelect_Comment Complex *)
Example TestSelect_Comment_Complex : renders (do q1 <- lk_select [(GStr "test")]; (do s2 <- sel_step q1 (SelFrom [(GStr "users")]); (do c3 <- cmp_expr (lk_condition (GStr "username")) OpEqual (GStr "thoas"); (do s4 <- sel_step s2 (SelWhere c3); (do s5 <- sel_step s4 (SelComment "/foo"); Ok (StSelect s5))))))
  "SELECT ""test"" FROM ""users"" WHERE (""username"" = 'thoas'); -- /foo"
  "SELECT ""test"" FROM ""users"" WHERE (""username"" = $1); -- /foo"
  "SELECT ""test"" FROM ""users"" WHERE (""username"" = :arg_1); -- /foo"
  [(GStr "thoas")].
Proof. vm_compute. repeat split. Qed.

(* TestSelect_Columns Simple *)
Example TestSelect_Columns_Simple : renders (do q1 <- lk_select [(GStr "test")]; Ok (StSelect q1))
  "SELECT ""test"""
  "SELECT ""test"""
  "SELECT ""test"""
  [].
Proof. vm_compute. repeat split. Qed.

(* TestSelect_Columns Distinct *)
Example TestSelect_Columns_Distinct : renders (do q1 <- lk_select [(GStr "test")]; (do s2 <- sel_step q1 (SelDistinct); Ok (StSelect s2)))
  "SELECT DISTINCT ""test"""
  "SELECT DISTINCT ""test"""
  "SELECT DISTINCT ""test"""
  [].
Proof. vm_compute. repeat split. Qed.

(* TestSelect_Columns As *)
Example TestSelect_Columns_As : renders (do q1 <- lk_select [(GColumn (column_as (lk_column "test") "foobar"))]; Ok (StSelect q1))
  "SELECT ""test"" AS ""foobar"""
  "SELECT ""test"" AS ""foobar"""
  "SELECT ""test"" AS ""foobar"""
  [].
Proof. vm_compute. repeat split. Qed.

(* TestSelect_Columns Two columns *)
Example TestSelect_Columns_Two_columns : renders (do q1 <- lk_select [(GStr "test"); (GStr "foobar")]; Ok (StSelect q1))
  "SELECT ""test"", ""foobar"""
  "SELECT ""test"", ""foobar"""
  "SELECT ""test"", ""foobar"""
  [].
Proof. vm_compute. repeat split. Qed.

(* TestSelect_Columns Two columns as *)
Example TestSelect_Columns_Two_columns_as : renders (do q1 <- lk_select [(GStr "test"); (GColumn (column_as (lk_column "test2") "foobar"))]; Ok (StSelect q1))
  "SELECT ""test"", ""test2"" AS ""foobar"""
  "SELECT ""test"", ""test2"" AS ""foobar"""
  "SELECT ""test"", ""test2"" AS ""foobar"""
  [].
Proof. vm_compute. repeat split. Qed.

(* TestSelect_Columns Three columns as *)
Example TestSelect_Columns_Three_columns_as_0 : renders (do q1 <- lk_select [(GStr "a"); (GStr "b"); (GColumn (column_as (lk_column "c") "x"))]; Ok (StSelect q1))
  "SELECT ""a"", ""b"", ""c"" AS ""x"""
  "SELECT ""a"", ""b"", ""c"" AS ""x"""
  "SELECT ""a"", ""b"", ""c"" AS ""x"""
  [].
Proof. vm_compute. repeat split. Qed.

(* TestSelect_Columns Three columns as *)
Example TestSelect_Columns_Three_columns_as_1 : renders (do q1 <- lk_select [(GStr "a"); (GColumn (lk_column "b")); (GColumn (column_as (lk_column "c") "x"))]; Ok (StSelect q1))
  "SELECT ""a"", ""b"", ""c"" AS ""x"""
  "SELECT ""a"", ""b"", ""c"" AS ""x"""
  "SELECT ""a"", ""b"", ""c"" AS ""x"""
  [].
Proof. vm_compute. repeat split. Qed.

(* TestSelect_Columns Three columns *)
Example TestSelect_Columns_Three_columns_0 : renders (do q1 <- lk_select [(GStrs ["a"; "b"; "c"])]; Ok (StSelect q1))
  "SELECT ""a"", ""b"", ""c"""
  "SELECT ""a"", ""b"", ""c"""
  "SELECT ""a"", ""b"", ""c"""
  [].
Proof. vm_compute. repeat split. Qed.

(* TestSelect_Columns Three columns *)
Example TestSelect_Columns_Three_columns_1 : renders (do q1 <- lk_select [(GColumns [(lk_column "a"); (lk_column "b"); (lk_column "c")])]; Ok (StSelect q1))
  "SELECT ""a"", ""b"", ""c"""
  "SELECT ""a"", ""b"", ""c"""
  "SELECT ""a"", ""b"", ""c"""
  [].
Proof. vm_compute. repeat split. Qed.

(* TestSelect_Columns Exists expression *)
Example TestSelect_Columns_Exists_expression : renders (do q1 <- lk_select [(GExpr (lk_raw "1"))]; (do x2 <- lk_exists (g_select q1); (do q3 <- lk_select [(GExpr x2)]; Ok (StSelect q3))))
  "SELECT EXISTS (SELECT 1)"
  "SELECT EXISTS (SELECT 1)"
  "SELECT EXISTS (SELECT 1)"
  [].
Proof. vm_compute. repeat split. Qed.

(* TestSelect_Columns Count expression *)
Example TestSelect_Columns_Count_expression : renders (do q1 <- lk_select [(GSel (lk_count "*"))]; Ok (StSelect q1))
  "SELECT COUNT(*)"
  "SELECT COUNT(*)"
  "SELECT COUNT(*)"
  [].
Proof. vm_compute. repeat split. Qed.

(* TestSelect_Columns Count expression with alias *)
Example TestSelect_Columns_Count_expression_with_alias : renders (do q1 <- lk_select [(GSel (agg_as (lk_count "*") "counter"))]; Ok (StSelect q1))
  "SELECT COUNT(*) AS counter"
  "SELECT COUNT(*) AS counter"
  "SELECT COUNT(*) AS counter"
  [].
Proof. vm_compute. repeat split. Qed.

(* TestSelect_Columns Count expression with column *)
Example TestSelect_Columns_Count_expression_with_column : renders (do q1 <- lk_select [(GSel (lk_count "id"))]; Ok (StSelect q1))
  "SELECT COUNT(id)"
  "SELECT COUNT(id)"
  "SELECT COUNT(id)"
  [].
Proof. vm_compute. repeat split. Qed.

(* TestSelect_Columns Count expression with column and alias *)
Example TestSelect_Columns_Count_expression_with_column_and_alias : renders (do q1 <- lk_select [(GSel (agg_as (lk_count "id") "counter"))]; Ok (StSelect q1))
  "SELECT COUNT(id) AS counter"
  "SELECT COUNT(id) AS counter"
  "SELECT COUNT(id) AS counter"
  [].
Proof. vm_compute. repeat split. Qed.

(* TestSelect_Columns Count expression with distinct and column *)
Example TestSelect_Columns_Count_expression_with_distinct_and_column : renders (do q1 <- lk_select [(GSel (agg_distinct (lk_count "id") true))]; Ok (StSelect q1))
  "SELECT COUNT(DISTINCT id)"
  "SELECT COUNT(DISTINCT id)"
  "SELECT COUNT(DISTINCT id)"
  [].
Proof. vm_compute. repeat split. Qed.

(* TestSelect_Columns Count expression with distinct, column and alias *)
Example TestSelect_Columns_Count_expression_with_distinct_column_and_alias : renders (do q1 <- lk_select [(GSel (agg_as (agg_distinct (lk_count "id") true) "counter"))]; Ok (StSelect q1))
  "SELECT COUNT(DISTINCT id) AS counter"
  "SELECT COUNT(DISTINCT id) AS counter"
  "SELECT COUNT(DISTINCT id) AS counter"
  [].
Proof. vm_compute. repeat split. Qed.

(* TestSelect_Columns Max expression with column *)
Example TestSelect_Columns_Max_expression_with_column : renders (do q1 <- lk_select [(GSel (lk_max "amount"))]; Ok (StSelect q1))
  "SELECT MAX(amount)"
  "SELECT MAX(amount)"
  "SELECT MAX(amount)"
  [].
Proof. vm_compute. repeat split. Qed.

(* TestSelect_Columns Max expression with column and alias *)
Example TestSelect_Columns_Max_expression_with_column_and_alias : renders (do q1 <- lk_select [(GSel (agg_as (lk_max "amount") "max_amount"))]; Ok (StSelect q1))
  "SELECT MAX(amount) AS max_amount"
  "SELECT MAX(amount) AS max_amount"
  "SELECT MAX(amount) AS max_amount"
  [].
Proof. vm_compute. repeat split. Qed.

(* TestSelect_Columns Min expression with column *)
Example TestSelect_Columns_Min_expression_with_column : renders (do q1 <- lk_select [(GSel (lk_min "amount"))]; Ok (StSelect q1))
  "SELECT MIN(amount)"
  "SELECT MIN(amount)"
  "SELECT MIN(amount)"
  [].
Proof. vm_compute. repeat split. Qed.

(* TestSelect_Columns Min expression with column and alias *)
Example TestSelect_Columns_Min_expression_with_column_and_alias : renders (do q1 <- lk_select [(GSel (agg_as (lk_min "amount") "min_amount"))]; Ok (StSelect q1))
  "SELECT MIN(amount) AS min_amount"
  "SELECT MIN(amount) AS min_amount"
  "SELECT MIN(amount) AS min_amount"
  [].
Proof. vm_compute. repeat split. Qed.

(* TestSelect_Columns Sum expression with column *)
Example TestSelect_Columns_Sum_expression_with_column : renders (do q1 <- lk_select [(GSel (lk_sum "amount"))]; Ok (StSelect q1))
  "SELECT SUM(amount)"
  "SELECT SUM(amount)"
  "SELECT SUM(amount)"
  [].
Proof. vm_compute. repeat split. Qed.

(* TestSelect_Columns Sum expression with column and alias *)
Example TestSelect_Columns_Sum_expression_with_column_and_alias : renders (do q1 <- lk_select [(GSel (agg_as (lk_sum "amount") "sum_amount"))]; Ok (StSelect q1))
  "SELECT SUM(amount) AS sum_amount"
  "SELECT SUM(amount) AS sum_amount"
  "SELECT SUM(amount) AS sum_amount"
  [].
Proof. vm_compute. repeat split. Qed.

(* TestSelect_DistinctOn One column *)
Example TestSelect_DistinctOn_One_column_0 : renders (do q1 <- lk_select [(GStr "date")]; (do s2 <- sel_step q1 (SelDistinctOn [(GStr "id")]); (do s3 <- sel_step s2 (SelFrom [(GStr "record")]); (do c4 <- is_null (lk_condition (GStr "disabled")) false; (do s5 <- sel_step s3 (SelWhere c4); Ok (StSelect s5))))))
  "SELECT DISTINCT ON (""id"") ""date"" FROM ""record"" WHERE (""disabled"" IS NOT NULL)"
  "SELECT DISTINCT ON (""id"") ""date"" FROM ""record"" WHERE (""disabled"" IS NOT NULL)"
  "SELECT DISTINCT ON (""id"") ""date"" FROM ""record"" WHERE (""disabled"" IS NOT NULL)"
  [].
Proof. vm_compute. repeat split. Qed.

(* TestSelect_DistinctOn One column *)
Example TestSelect_DistinctOn_One_column_1 : renders (do q1 <- lk_select [(GStr "date")]; (do s2 <- sel_step q1 (SelDistinctOn [(GColumn (lk_column "id"))]); (do s3 <- sel_step s2 (SelFrom [(GStr "record")]); (do c4 <- is_null (lk_condition (GStr "disabled")) false; (do s5 <- sel_step s3 (SelWhere c4); Ok (StSelect s5))))))
  "SELECT DISTINCT ON (""id"") ""date"" FROM ""record"" WHERE (""disabled"" IS NOT NULL)"
  "SELECT DISTINCT ON (""id"") ""date"" FROM ""record"" WHERE (""disabled"" IS NOT NULL)"
  "SELECT DISTINCT ON (""id"") ""date"" FROM ""record"" WHERE (""disabled"" IS NOT NULL)"
  [].
Proof. vm_compute. repeat split. Qed.

(* TestSelect_DistinctOn Two columns *)
Example TestSelect_DistinctOn_Two_columns_0 : renders (do q1 <- lk_select [(GStr "date")]; (do s2 <- sel_step q1 (SelDistinctOn [(GStr "id"); (GStr "user_id")]); (do s3 <- sel_step s2 (SelFrom [(GStr "record")]); (do c4 <- is_null (lk_condition (GStr "disabled")) false; (do s5 <- sel_step s3 (SelWhere c4); Ok (StSelect s5))))))
  "SELECT DISTINCT ON (""id"", ""user_id"") ""date"" FROM ""record"" WHERE (""disabled"" IS NOT NULL)"
  "SELECT DISTINCT ON (""id"", ""user_id"") ""date"" FROM ""record"" WHERE (""disabled"" IS NOT NULL)"
  "SELECT DISTINCT ON (""id"", ""user_id"") ""date"" FROM ""record"" WHERE (""disabled"" IS NOT NULL)"
  [].
Proof. vm_compute. repeat split. Qed.

(* TestSelect_DistinctOn Two columns *)
Example TestSelect_DistinctOn_Two_columns_1 : renders (do q1 <- lk_select [(GStr "date")]; (do s2 <- sel_step q1 (SelDistinctOn [(GColumn (lk_column "id")); (GColumn (lk_column "user_id"))]); (do s3 <- sel_step s2 (SelFrom [(GStr "record")]); (do c4 <- is_null (lk_condition (GStr "disabled")) false; (do s5 <- sel_step s3 (SelWhere c4); Ok (StSelect s5))))))
  "SELECT DISTINCT ON (""id"", ""user_id"") ""date"" FROM ""record"" WHERE (""disabled"" IS NOT NULL)"
  "SELECT DISTINCT ON (""id"", ""user_id"") ""date"" FROM ""record"" WHERE (""disabled"" IS NOT NULL)"
  "SELECT DISTINCT ON (""id"", ""user_id"") ""date"" FROM ""record"" WHERE (""disabled"" IS NOT NULL)"
  [].
Proof. vm_compute. repeat split. Qed.

(* TestSelect_DistinctOn Three columns *)
Example TestSelect_DistinctOn_Three_columns_0 : renders (do q1 <- lk_select [(GStr "date")]; (do s2 <- sel_step q1 (SelDistinctOn [(GStr "id"); (GStr "user_id"); (GStr "project_id")]); (do s3 <- sel_step s2 (SelFrom [(GStr "record")]); (do c4 <- is_null (lk_condition (GStr "disabled")) false; (do s5 <- sel_step s3 (SelWhere c4); Ok (StSelect s5))))))
  "SELECT DISTINCT ON (""id"", ""user_id"", ""project_id"") ""date"" FROM ""record"" WHERE (""disabled"" IS NOT NULL)"
  "SELECT DISTINCT ON (""id"", ""user_id"", ""project_id"") ""date"" FROM ""record"" WHERE (""disabled"" IS NOT NULL)"
  "SELECT DISTINCT ON (""id"", ""user_id"", ""project_id"") ""date"" FROM ""record"" WHERE (""disabled"" IS NOT NULL)"
  [].
Proof. vm_compute. repeat split. Qed.

(* TestSelect_DistinctOn Three columns *)
Example TestSelect_DistinctOn_Three_columns_1 : renders (do q1 <- lk_select [(GStr "date")]; (do s2 <- sel_step q1 (SelDistinctOn [(GColumn (lk_column "id")); (GColumn (lk_column "user_id")); (GColumn (lk_column "project_id"))]); (do s3 <- sel_step s2 (SelFrom [(GStr "record")]); (do c4 <- is_null (lk_condition (GStr "disabled")) false; (do s5 <- sel_step s3 (SelWhere c4); Ok (StSelect s5))))))
  "SELECT DISTINCT ON (""id"", ""user_id"", ""project_id"") ""date"" FROM ""record"" WHERE (""disabled"" IS NOT NULL)"
  "SELECT DISTINCT ON (""id"", ""user_id"", ""project_id"") ""date"" FROM ""record"" WHERE (""disabled"" IS NOT NULL)"
  "SELECT DISTINCT ON (""id"", ""user_id"", ""project_id"") ""date"" FROM ""record"" WHERE (""disabled"" IS NOT NULL)"
  [].
Proof. vm_compute. repeat split. Qed.

(* TestSelect_From Simple *)
Example TestSelect_From_Simple : renders (do q1 <- lk_select [(GStr "a"); (GStr "b"); (GStr "c")]; (do s2 <- sel_step q1 (SelFrom [(GStr "foobar")]); Ok (StSelect s2)))
  "SELECT ""a"", ""b"", ""c"" FROM ""foobar"""
  "SELECT ""a"", ""b"", ""c"" FROM ""foobar"""
  "SELECT ""a"", ""b"", ""c"" FROM ""foobar"""
  [].
Proof. vm_compute. repeat split. Qed.

(* TestSelect_From As *)
Example TestSelect_From_As : renders (do q1 <- lk_select [(GStr "a")]; (do s2 <- sel_step q1 (SelFrom [(GTable (table_as (lk_table "foobar") "example"))]); Ok (StSelect s2)))
  "SELECT ""a"" FROM ""foobar"" AS ""example"""
  "SELECT ""a"" FROM ""foobar"" AS ""example"""
  "SELECT ""a"" FROM ""foobar"" AS ""example"""
  [].
Proof. vm_compute. repeat split. Qed.

(* TestSelect_From Multiple *)
Example TestSelect_From_Multiple : renders (do q1 <- lk_select [(GStr "a")]; (do s2 <- sel_step q1 (SelFrom [(GTable (table_as (lk_table "foobar") "example")); (GTable (table_as (lk_table "foobar") "example2"))]); Ok (StSelect s2)))
  "SELECT ""a"" FROM ""foobar"" AS ""example"", ""foobar"" AS ""example2"""
  "SELECT ""a"" FROM ""foobar"" AS ""example"", ""foobar"" AS ""example2"""
  "SELECT ""a"" FROM ""foobar"" AS ""example"", ""foobar"" AS ""example2"""
  [].
Proof. vm_compute. repeat split. Qed.

(* TestSelect_From Multiple strings *)
Example TestSelect_From_Multiple_strings : renders (do q1 <- lk_select [(GStr "a")]; (do s2 <- sel_step q1 (SelFrom [(GStr "example"); (GStr "example2")]); Ok (StSelect s2)))
  "SELECT ""a"" FROM ""example"", ""example2"""
  "SELECT ""a"" FROM ""example"", ""example2"""
  "SELECT ""a"" FROM ""example"", ""example2"""
  [].
Proof. vm_compute. repeat split. Qed.

(* TestSelect_From Multiple raws *)
Example TestSelect_From_Multiple_raws : renders (do q1 <- lk_select [(GStr "a")]; (do s2 <- sel_step q1 (SelFrom [(GExpr (lk_raw "example1 ex1")); (GExpr (lk_raw "example2 ex2"))]); Ok (StSelect s2)))
  "SELECT ""a"" FROM example1 ex1, example2 ex2"
  "SELECT ""a"" FROM example1 ex1, example2 ex2"
  "SELECT ""a"" FROM example1 ex1, example2 ex2"
  [].
Proof. vm_compute. repeat split. Qed.

(* TestSelect_From Multiple raw *)
Example TestSelect_From_Multiple_raw : renders (do q1 <- lk_select [(GStr "a")]; (do s2 <- sel_step q1 (SelFrom [(GExpr (lk_raw "example1 ex1, example2 ex2"))]); Ok (StSelect s2)))
  "SELECT ""a"" FROM example1 ex1, example2 ex2"
  "SELECT ""a"" FROM example1 ex1, example2 ex2"
  "SELECT ""a"" FROM example1 ex1, example2 ex2"
  [].
Proof. vm_compute. repeat split. Qed.

(* TestSelect_Join Inner *)
Example TestSelect_Join_Inner_0 : renders (do q1 <- lk_select [(GStr "a"); (GStr "b"); (GStr "c")]; (do s2 <- sel_step q1 (SelFrom [(GStr "test1")]); (do s3 <- sel_step s2 (SelJoin [(GStr "test2 ON test1.id = test2.fk_id")]); Ok (StSelect s3))))
  "SELECT ""a"", ""b"", ""c"" FROM ""test1"" INNER JOIN ""test2"" ON ""test1"".""id"" = ""test2"".""fk_id"""
  "SELECT ""a"", ""b"", ""c"" FROM ""test1"" INNER JOIN ""test2"" ON ""test1"".""id"" = ""test2"".""fk_id"""
  "SELECT ""a"", ""b"", ""c"" FROM ""test1"" INNER JOIN ""test2"" ON ""test1"".""id"" = ""test2"".""fk_id"""
  [].
Proof. vm_compute. repeat split. Qed.

(* TestSelect_Join Inner *)
Example TestSelect_Join_Inner_1 : renders (do q1 <- lk_select [(GStr "a"); (GStr "b"); (GStr "c")]; (do s2 <- sel_step q1 (SelFrom [(GStr "test1")]); (do s3 <- sel_step s2 (SelJoin [(GStr "test2"); (GStr "test1.id = test2.fk_id")]); Ok (StSelect s3))))
  "SELECT ""a"", ""b"", ""c"" FROM ""test1"" INNER JOIN ""test2"" ON ""test1"".""id"" = ""test2"".""fk_id"""
  "SELECT ""a"", ""b"", ""c"" FROM ""test1"" INNER JOIN ""test2"" ON ""test1"".""id"" = ""test2"".""fk_id"""
  "SELECT ""a"", ""b"", ""c"" FROM ""test1"" INNER JOIN ""test2"" ON ""test1"".""id"" = ""test2"".""fk_id"""
  [].
Proof. vm_compute. repeat split. Qed.

(* TestSelect_Join Inner *)
Example TestSelect_Join_Inner_2 : renders (do q1 <- lk_select [(GStr "a"); (GStr "b"); (GStr "c")]; (do s2 <- sel_step q1 (SelFrom [(GStr "test1")]); (do s3 <- sel_step s2 (SelJoin [(GStr "test2"); (GStr "test1.id = test2.fk_id"); (GJoinType "INNER JOIN")]); Ok (StSelect s3))))
  "SELECT ""a"", ""b"", ""c"" FROM ""test1"" INNER JOIN ""test2"" ON ""test1"".""id"" = ""test2"".""fk_id"""
  "SELECT ""a"", ""b"", ""c"" FROM ""test1"" INNER JOIN ""test2"" ON ""test1"".""id"" = ""test2"".""fk_id"""
  "SELECT ""a"", ""b"", ""c"" FROM ""test1"" INNER JOIN ""test2"" ON ""test1"".""id"" = ""test2"".""fk_id"""
  [].
Proof. vm_compute. repeat split. Qed.

(* TestSelect_Join Inner *)
Example TestSelect_Join_Inner_3 : renders (do q1 <- lk_select [(GStr "a"); (GStr "b"); (GStr "c")]; (do s2 <- sel_step q1 (SelFrom [(GStr "test1")]); (do s3 <- sel_step s2 (SelJoin [(GStr "test2"); (GStr "ON test1.id = test2.fk_id")]); Ok (StSelect s3))))
  "SELECT ""a"", ""b"", ""c"" FROM ""test1"" INNER JOIN ""test2"" ON ""test1"".""id"" = ""test2"".""fk_id"""
  "SELECT ""a"", ""b"", ""c"" FROM ""test1"" INNER JOIN ""test2"" ON ""test1"".""id"" = ""test2"".""fk_id"""
  "SELECT ""a"", ""b"", ""c"" FROM ""test1"" INNER JOIN ""test2"" ON ""test1"".""id"" = ""test2"".""fk_id"""
  [].
Proof. vm_compute. repeat split. Qed.

(* TestSelect_Join Inner *)
Example TestSelect_Join_Inner_4 : renders (do q1 <- lk_select [(GStr "a"); (GStr "b"); (GStr "c")]; (do s2 <- sel_step q1 (SelFrom [(GStr "test1")]); (do s3 <- sel_step s2 (SelJoin [(GStr "test2"); (GStr "ON test1.id = test2.fk_id"); (GJoinType "INNER JOIN")]); Ok (StSelect s3))))
  "SELECT ""a"", ""b"", ""c"" FROM ""test1"" INNER JOIN ""test2"" ON ""test1"".""id"" = ""test2"".""fk_id"""
  "SELECT ""a"", ""b"", ""c"" FROM ""test1"" INNER JOIN ""test2"" ON ""test1"".""id"" = ""test2"".""fk_id"""
  "SELECT ""a"", ""b"", ""c"" FROM ""test1"" INNER JOIN ""test2"" ON ""test1"".""id"" = ""test2"".""fk_id"""
  [].
Proof. vm_compute. repeat split. Qed.

(* TestSelect_Join Left *)
Example TestSelect_Join_Left : renders (do q1 <- lk_select [(GStr "a"); (GStr "b"); (GStr "c")]; (do s2 <- sel_step q1 (SelFrom [(GStr "test1")]); (do s3 <- sel_step s2 (SelJoin [(GStr "test3"); (GStr "test3.fkey = test1.id"); (GJoinType "LEFT JOIN")]); Ok (StSelect s3))))
  "SELECT ""a"", ""b"", ""c"" FROM ""test1"" LEFT JOIN ""test3"" ON ""test3"".""fkey"" = ""test1"".""id"""
  "SELECT ""a"", ""b"", ""c"" FROM ""test1"" LEFT JOIN ""test3"" ON ""test3"".""fkey"" = ""test1"".""id"""
  "SELECT ""a"", ""b"", ""c"" FROM ""test1"" LEFT JOIN ""test3"" ON ""test3"".""fkey"" = ""test1"".""id"""
  [].
Proof. vm_compute. repeat split. Qed.

(* TestSelect_Join Right *)
Example TestSelect_Join_Right : renders (do q1 <- lk_select [(GStr "a"); (GStr "b"); (GStr "c")]; (do s2 <- sel_step q1 (SelFrom [(GStr "test2")]); (do s3 <- sel_step s2 (SelJoin [(GStr "test4"); (GStr "test4.gid = test2.id"); (GJoinType "RIGHT JOIN")]); Ok (StSelect s3))))
  "SELECT ""a"", ""b"", ""c"" FROM ""test2"" RIGHT JOIN ""test4"" ON ""test4"".""gid"" = ""test2"".""id"""
  "SELECT ""a"", ""b"", ""c"" FROM ""test2"" RIGHT JOIN ""test4"" ON ""test4"".""gid"" = ""test2"".""id"""
  "SELECT ""a"", ""b"", ""c"" FROM ""test2"" RIGHT JOIN ""test4"" ON ""test4"".""gid"" = ""test2"".""id"""
  [].
Proof. vm_compute. repeat split. Qed.

(* TestSelect_Join Left Outer *)
Example TestSelect_Join_Left_Outer : renders (do q1 <- lk_select [(GStr "a"); (GStr "b"); (GStr "c")]; (do s2 <- sel_step q1 (SelFrom [(GStr "test1")]); (do s3 <- sel_step s2 (SelJoin [(GStr "test3"); (GStr "test3.fkey = test1.id"); (GJoinType "LEFT OUTER JOIN")]); Ok (StSelect s3))))
  "SELECT ""a"", ""b"", ""c"" FROM ""test1"" LEFT OUTER JOIN ""test3"" ON ""test3"".""fkey"" = ""test1"".""id"""
  "SELECT ""a"", ""b"", ""c"" FROM ""test1"" LEFT OUTER JOIN ""test3"" ON ""test3"".""fkey"" = ""test1"".""id"""
  "SELECT ""a"", ""b"", ""c"" FROM ""test1"" LEFT OUTER JOIN ""test3"" ON ""test3"".""fkey"" = ""test1"".""id"""
  [].
Proof. vm_compute. repeat split. Qed.

(* TestSelect_Join Right Outer *)
Example TestSelect_Join_Right_Outer : renders (do q1 <- lk_select [(GStr "a"); (GStr "b"); (GStr "c")]; (do s2 <- sel_step q1 (SelFrom [(GStr "test1")]); (do s3 <- sel_step s2 (SelJoin [(GStr "test3"); (GStr "test3.fkey = test1.id"); (GJoinType "RIGHT OUTER JOIN")]); Ok (StSelect s3))))
  "SELECT ""a"", ""b"", ""c"" FROM ""test1"" RIGHT OUTER JOIN ""test3"" ON ""test3"".""fkey"" = ""test1"".""id"""
  "SELECT ""a"", ""b"", ""c"" FROM ""test1"" RIGHT OUTER JOIN ""test3"" ON ""test3"".""fkey"" = ""test1"".""id"""
  "SELECT ""a"", ""b"", ""c"" FROM ""test1"" RIGHT OUTER JOIN ""test3"" ON ""test3"".""fkey"" = ""test1"".""id"""
  [].
Proof. vm_compute. repeat split. Qed.

(* TestSelect_Join Two tables *)
Example TestSelect_Join_Two_tables_0 : renders (do q1 <- lk_select [(GStr "a"); (GStr "b"); (GStr "c")]; (do s2 <- sel_step q1 (SelFrom [(GStr "test2")]); (do s3 <- sel_step s2 (SelJoin [(GStr "test4"); (GStr "test4.gid = test2.id")]); (do s4 <- sel_step s3 (SelJoin [(GStr "test3"); (GStr "test4.uid = test3.id")]); Ok (StSelect s4)))))
  "SELECT ""a"", ""b"", ""c"" FROM ""test2"" INNER JOIN ""test4"" ON ""test4"".""gid"" = ""test2"".""id"" INNER JOIN ""test3"" ON ""test4"".""uid"" = ""test3"".""id"""
  "SELECT ""a"", ""b"", ""c"" FROM ""test2"" INNER JOIN ""test4"" ON ""test4"".""gid"" = ""test2"".""id"" INNER JOIN ""test3"" ON ""test4"".""uid"" = ""test3"".""id"""
  "SELECT ""a"", ""b"", ""c"" FROM ""test2"" INNER JOIN ""test4"" ON ""test4"".""gid"" = ""test2"".""id"" INNER JOIN ""test3"" ON ""test4"".""uid"" = ""test3"".""id"""
  [].
Proof. vm_compute. repeat split. Qed.

(* TestSelect_Join Two tables *)
Example TestSelect_Join_Two_tables_1 : renders (do q1 <- lk_select [(GStr "a"); (GStr "b"); (GStr "c")]; (do s2 <- sel_step q1 (SelFrom [(GStr "test2")]); (do s3 <- sel_step s2 (SelJoin [(GStr "test4"); (GExpr (lk_on "test4.gid" "test2.id"))]); (do s4 <- sel_step s3 (SelJoin [(GStr "test3"); (GExpr (lk_on "test4.uid" "test3.id"))]); Ok (StSelect s4)))))
  "SELECT ""a"", ""b"", ""c"" FROM ""test2"" INNER JOIN ""test4"" ON ""test4"".""gid"" = ""test2"".""id"" INNER JOIN ""test3"" ON ""test4"".""uid"" = ""test3"".""id"""
  "SELECT ""a"", ""b"", ""c"" FROM ""test2"" INNER JOIN ""test4"" ON ""test4"".""gid"" = ""test2"".""id"" INNER JOIN ""test3"" ON ""test4"".""uid"" = ""test3"".""id"""
  "SELECT ""a"", ""b"", ""c"" FROM ""test2"" INNER JOIN ""test4"" ON ""test4"".""gid"" = ""test2"".""id"" INNER JOIN ""test3"" ON ""test4"".""uid"" = ""test3"".""id"""
  [].
Proof. vm_compute. repeat split. Qed.

(* TestSelect_Join Two tables *)
Example TestSelect_Join_Two_tables_2 : renders (do q1 <- lk_select [(GStr "a"); (GStr "b"); (GStr "c")]; (do s2 <- sel_step q1 (SelFrom [(GStr "test2")]); (do s3 <- sel_step s2 (SelJoin [(GTable (lk_table "test4")); (GExpr (lk_on "test4.gid" "test2.id"))]); (do s4 <- sel_step s3 (SelJoin [(GTable (lk_table "test3")); (GExpr (lk_on "test4.uid" "test3.id"))]); Ok (StSelect s4)))))
  "SELECT ""a"", ""b"", ""c"" FROM ""test2"" INNER JOIN ""test4"" ON ""test4"".""gid"" = ""test2"".""id"" INNER JOIN ""test3"" ON ""test4"".""uid"" = ""test3"".""id"""
  "SELECT ""a"", ""b"", ""c"" FROM ""test2"" INNER JOIN ""test4"" ON ""test4"".""gid"" = ""test2"".""id"" INNER JOIN ""test3"" ON ""test4"".""uid"" = ""test3"".""id"""
  "SELECT ""a"", ""b"", ""c"" FROM ""test2"" INNER JOIN ""test4"" ON ""test4"".""gid"" = ""test2"".""id"" INNER JOIN ""test3"" ON ""test4"".""uid"" = ""test3"".""id"""
  [].
Proof. vm_compute. repeat split. Qed.

(* TestSelect_Join Two tables and two statements *)
Example TestSelect_Join_Two_tables_and_two_statements_0 : renders (do q1 <- lk_select [(GStr "a"); (GStr "b"); (GStr "c")]; (do s2 <- sel_step q1 (SelFrom [(GStr "test2")]); (do s3 <- sel_step s2 (SelJoin [(GStr "test4"); (GStr "test4.gid = test2.id AND test4.d = test2.d")]); (do s4 <- sel_step s3 (SelJoin [(GStr "test3"); (GStr "test4.uid = test3.id AND test3.e = test2.e")]); Ok (StSelect s4)))))
  "SELECT ""a"", ""b"", ""c"" FROM ""test2"" INNER JOIN ""test4"" ON (""test4"".""gid"" = ""test2"".""id"" AND ""test4"".""d"" = ""test2"".""d"") INNER JOIN ""test3"" ON (""test4"".""uid"" = ""test3"".""id"" AND ""test3"".""e"" = ""test2"".""e"")"
  "SELECT ""a"", ""b"", ""c"" FROM ""test2"" INNER JOIN ""test4"" ON (""test4"".""gid"" = ""test2"".""id"" AND ""test4"".""d"" = ""test2"".""d"") INNER JOIN ""test3"" ON (""test4"".""uid"" = ""test3"".""id"" AND ""test3"".""e"" = ""test2"".""e"")"
  "SELECT ""a"", ""b"", ""c"" FROM ""test2"" INNER JOIN ""test4"" ON (""test4"".""gid"" = ""test2"".""id"" AND ""test4"".""d"" = ""test2"".""d"") INNER JOIN ""test3"" ON (""test4"".""uid"" = ""test3"".""id"" AND ""test3"".""e"" = ""test2"".""e"")"
  [].
Proof. vm_compute. repeat split. Qed.

(* TestSelect_Join Two tables and two statements *)
Example TestSelect_Join_Two_tables_and_two_statements_1 : renders (do q1 <- lk_select [(GStr "a"); (GStr "b"); (GStr "c")]; (do s2 <- sel_step q1 (SelFrom [(GStr "test2")]); (do s3 <- sel_step s2 (SelJoin [(GStr "test4"); (GExpr (lk_and_on (lk_on "test4.gid" "test2.id") (lk_on "test4.d" "test2.d")))]); (do s4 <- sel_step s3 (SelJoin [(GStr "test3"); (GExpr (lk_and_on (lk_on "test4.uid" "test3.id") (lk_on "test3.e" "test2.e")))]); Ok (StSelect s4)))))
  "SELECT ""a"", ""b"", ""c"" FROM ""test2"" INNER JOIN ""test4"" ON (""test4"".""gid"" = ""test2"".""id"" AND ""test4"".""d"" = ""test2"".""d"") INNER JOIN ""test3"" ON (""test4"".""uid"" = ""test3"".""id"" AND ""test3"".""e"" = ""test2"".""e"")"
  "SELECT ""a"", ""b"", ""c"" FROM ""test2"" INNER JOIN ""test4"" ON (""test4"".""gid"" = ""test2"".""id"" AND ""test4"".""d"" = ""test2"".""d"") INNER JOIN ""test3"" ON (""test4"".""uid"" = ""test3"".""id"" AND ""test3"".""e"" = ""test2"".""e"")"
  "SELECT ""a"", ""b"", ""c"" FROM ""test2"" INNER JOIN ""test4"" ON (""test4"".""gid"" = ""test2"".""id"" AND ""test4"".""d"" = ""test2"".""d"") INNER JOIN ""test3"" ON (""test4"".""uid"" = ""test3"".""id"" AND ""test3"".""e"" = ""test2"".""e"")"
  [].
Proof. vm_compute. repeat split. Qed.

(* TestSelect_Join Two tables and two statements *)
Example TestSelect_Join_Two_tables_and_two_statements_2 : renders (do q1 <- lk_select [(GStr "a"); (GStr "b"); (GStr "c")]; (do s2 <- sel_step q1 (SelFrom [(GStr "test2")]); (do s3 <- sel_step s2 (SelJoin [(GTable (lk_table "test4")); (GExpr (lk_and_on (lk_on "test4.gid" "test2.id") (lk_on "test4.d" "test2.d")))]); (do s4 <- sel_step s3 (SelJoin [(GTable (lk_table "test3")); (GExpr (lk_and_on (lk_on "test4.uid" "test3.id") (lk_on "test3.e" "test2.e")))]); Ok (StSelect s4)))))
  "SELECT ""a"", ""b"", ""c"" FROM ""test2"" INNER JOIN ""test4"" ON (""test4"".""gid"" = ""test2"".""id"" AND ""test4"".""d"" = ""test2"".""d"") INNER JOIN ""test3"" ON (""test4"".""uid"" = ""test3"".""id"" AND ""test3"".""e"" = ""test2"".""e"")"
  "SELECT ""a"", ""b"", ""c"" FROM ""test2"" INNER JOIN ""test4"" ON (""test4"".""gid"" = ""test2"".""id"" AND ""test4"".""d"" = ""test2"".""d"") INNER JOIN ""test3"" ON (""test4"".""uid"" = ""test3"".""id"" AND ""test3"".""e"" = ""test2"".""e"")"
  "SELECT ""a"", ""b"", ""c"" FROM ""test2"" INNER JOIN ""test4"" ON (""test4"".""gid"" = ""test2"".""id"" AND ""test4"".""d"" = ""test2"".""d"") INNER JOIN ""test3"" ON (""test4"".""uid"" = ""test3"".""id"" AND ""test3"".""e"" = ""test2"".""e"")"
  [].
Proof. vm_compute. repeat split. Qed.

(* TestSelect_Join Two tables and three statements *)
Example TestSelect_Join_Two_tables_and_three_statements_0 : renders (do q1 <- lk_select [(GStr "a"); (GStr "b"); (GStr "c")]; (do s2 <- sel_step q1 (SelFrom [(GStr "test2")]); (do s3 <- sel_step s2 (SelJoin [(GStr "test4"); (GStr "test4.gid = test2.id AND test4.d = test2.d OR test4.f = test2.f")]); (do s4 <- sel_step s3 (SelJoin [(GStr "test3"); (GStr "test4.uid = test3.id OR test3.e = test2.e AND test3.g = test2.g")]); Ok (StSelect s4)))))
  "SELECT ""a"", ""b"", ""c"" FROM ""test2"" INNER JOIN ""test4"" ON ((""test4"".""gid"" = ""test2"".""id"" AND ""test4"".""d"" = ""test2"".""d"") OR ""test4"".""f"" = ""test2"".""f"") INNER JOIN ""test3"" ON ((""test4"".""uid"" = ""test3"".""id"" OR ""test3"".""e"" = ""test2"".""e"") AND ""test3"".""g"" = ""test2"".""g"")"
  "SELECT ""a"", ""b"", ""c"" FROM ""test2"" INNER JOIN ""test4"" ON ((""test4"".""gid"" = ""test2"".""id"" AND ""test4"".""d"" = ""test2"".""d"") OR ""test4"".""f"" = ""test2"".""f"") INNER JOIN ""test3"" ON ((""test4"".""uid"" = ""test3"".""id"" OR ""test3"".""e"" = ""test2"".""e"") AND ""test3"".""g"" = ""test2"".""g"")"
  "SELECT ""a"", ""b"", ""c"" FROM ""test2"" INNER JOIN ""test4"" ON ((""test4"".""gid"" = ""test2"".""id"" AND ""test4"".""d"" = ""test2"".""d"") OR ""test4"".""f"" = ""test2"".""f"") INNER JOIN ""test3"" ON ((""test4"".""uid"" = ""test3"".""id"" OR ""test3"".""e"" = ""test2"".""e"") AND ""test3"".""g"" = ""test2"".""g"")"
  [].
Proof. vm_compute. repeat split. Qed.

(* TestSelect_Join Two tables and three statements *)
Example TestSelect_Join_Two_tables_and_three_statements_1 : renders (do q1 <- lk_select [(GStr "a"); (GStr "b"); (GStr "c")]; (do s2 <- sel_step q1 (SelFrom [(GStr "test2")]); (do s3 <- sel_step s2 (SelJoin [(GStr "test4"); (GExpr (lk_or_on (lk_and_on (lk_on "test4.gid" "test2.id") (lk_on "test4.d" "test2.d")) (lk_on "test4.f" "test2.f")))]); (do s4 <- sel_step s3 (SelJoin [(GStr "test3"); (GExpr (lk_and_on (lk_or_on (lk_on "test4.uid" "test3.id") (lk_on "test3.e" "test2.e")) (lk_on "test3.g" "test2.g")))]); Ok (StSelect s4)))))
  "SELECT ""a"", ""b"", ""c"" FROM ""test2"" INNER JOIN ""test4"" ON ((""test4"".""gid"" = ""test2"".""id"" AND ""test4"".""d"" = ""test2"".""d"") OR ""test4"".""f"" = ""test2"".""f"") INNER JOIN ""test3"" ON ((""test4"".""uid"" = ""test3"".""id"" OR ""test3"".""e"" = ""test2"".""e"") AND ""test3"".""g"" = ""test2"".""g"")"
  "SELECT ""a"", ""b"", ""c"" FROM ""test2"" INNER JOIN ""test4"" ON ((""test4"".""gid"" = ""test2"".""id"" AND ""test4"".""d"" = ""test2"".""d"") OR ""test4"".""f"" = ""test2"".""f"") INNER JOIN ""test3"" ON ((""test4"".""uid"" = ""test3"".""id"" OR ""test3"".""e"" = ""test2"".""e"") AND ""test3"".""g"" = ""test2"".""g"")"
  "SELECT ""a"", ""b"", ""c"" FROM ""test2"" INNER JOIN ""test4"" ON ((""test4"".""gid"" = ""test2"".""id"" AND ""test4"".""d"" = ""test2"".""d"") OR ""test4"".""f"" = ""test2"".""f"") INNER JOIN ""test3"" ON ((""test4"".""uid"" = ""test3"".""id"" OR ""test3"".""e"" = ""test2"".""e"") AND ""test3"".""g"" = ""test2"".""g"")"
  [].
Proof. vm_compute. repeat split. Qed.

(* TestSelect_Join Two tables and three statements *)
Example TestSelect_Join_Two_tables_and_three_statements_2 : renders (do q1 <- lk_select [(GStr "a"); (GStr "b"); (GStr "c")]; (do s2 <- sel_step q1 (SelFrom [(GStr "test2")]); (do s3 <- sel_step s2 (SelJoin [(GTable (lk_table "test4")); (GExpr (lk_or_on (lk_and_on (lk_on "test4.gid" "test2.id") (lk_on "test4.d" "test2.d")) (lk_on "test4.f" "test2.f")))]); (do s4 <- sel_step s3 (SelJoin [(GTable (lk_table "test3")); (GExpr (lk_and_on (lk_or_on (lk_on "test4.uid" "test3.id") (lk_on "test3.e" "test2.e")) (lk_on "test3.g" "test2.g")))]); Ok (StSelect s4)))))
  "SELECT ""a"", ""b"", ""c"" FROM ""test2"" INNER JOIN ""test4"" ON ((""test4"".""gid"" = ""test2"".""id"" AND ""test4"".""d"" = ""test2"".""d"") OR ""test4"".""f"" = ""test2"".""f"") INNER JOIN ""test3"" ON ((""test4"".""uid"" = ""test3"".""id"" OR ""test3"".""e"" = ""test2"".""e"") AND ""test3"".""g"" = ""test2"".""g"")"
  "SELECT ""a"", ""b"", ""c"" FROM ""test2"" INNER JOIN ""test4"" ON ((""test4"".""gid"" = ""test2"".""id"" AND ""test4"".""d"" = ""test2"".""d"") OR ""test4"".""f"" = ""test2"".""f"") INNER JOIN ""test3"" ON ((""test4"".""uid"" = ""test3"".""id"" OR ""test3"".""e"" = ""test2"".""e"") AND ""test3"".""g"" = ""test2"".""g"")"
  "SELECT ""a"", ""b"", ""c"" FROM ""test2"" INNER JOIN ""test4"" ON ((""test4"".""gid"" = ""test2"".""id"" AND ""test4"".""d"" = ""test2"".""d"") OR ""test4"".""f"" = ""test2"".""f"") INNER JOIN ""test3"" ON ((""test4"".""uid"" = ""test3"".""id"" OR ""test3"".""e"" = ""test2"".""e"") AND ""test3"".""g"" = ""test2"".""g"")"
  [].
Proof. vm_compute. repeat split. Qed.

(* TestSelect_WhereOperatorOrder Simple *)
Example TestSelect_WhereOperatorOrder_Simple : renders (do q1 <- lk_select [(GStr "id")]; (do s2 <- sel_step q1 (SelFrom [(GStr "table")]); (do c3 <- cmp_expr (lk_condition (GStr "id")) OpEqual (GInt KInt (1)); (do s4 <- sel_step s2 (SelWhere c3); Ok (StSelect s4)))))
  "SELECT ""id"" FROM ""table"" WHERE (""id"" = 1)"
  "SELECT ""id"" FROM ""table"" WHERE (""id"" = $1)"
  "SELECT ""id"" FROM ""table"" WHERE (""id"" = :arg_1)"
  [(GInt KInt (1))].
Proof. vm_compute. repeat split. Qed.

(* TestSelect_WhereOperatorOrder And *)
Example TestSelect_WhereOperatorOrder_And : renders (do q1 <- lk_select [(GStr "id")]; (do s2 <- sel_step q1 (SelFrom [(GStr "table")]); (do c3 <- cmp_expr (lk_condition (GStr "id")) OpEqual (GInt KInt (1)); (do s4 <- sel_step s2 (SelWhere c3); (do c5 <- cmp_expr (lk_condition (GStr "slug")) OpEqual (GStr "foo"); (do s6 <- sel_step s4 (SelAnd c5); Ok (StSelect s6)))))))
  "SELECT ""id"" FROM ""table"" WHERE ((""id"" = 1) AND (""slug"" = 'foo'))"
  "SELECT ""id"" FROM ""table"" WHERE ((""id"" = $1) AND (""slug"" = $2))"
  "SELECT ""id"" FROM ""table"" WHERE ((""id"" = :arg_1) AND (""slug"" = :arg_2))"
  [(GInt KInt (1)); (GStr "foo")].
Proof. vm_compute. repeat split. Qed.

(* TestSelect_WhereOperatorOrder And with three expressions *)
Example TestSelect_WhereOperatorOrder_And_with_three_expressions : renders (do q1 <- lk_select [(GStr "id")]; (do s2 <- sel_step q1 (SelFrom [(GStr "table")]); (do c3 <- cmp_expr (lk_condition (GStr "id")) OpEqual (GInt KInt (1)); (do s4 <- sel_step s2 (SelWhere c3); (do c5 <- cmp_expr (lk_condition (GStr "slug")) OpEqual (GStr "foo"); (do s6 <- sel_step s4 (SelAnd c5); (do c7 <- cmp_expr (lk_condition (GStr "title")) OpEqual (GStr "hello"); (do s8 <- sel_step s6 (SelAnd c7); Ok (StSelect s8)))))))))
  "SELECT ""id"" FROM ""table"" WHERE (((""id"" = 1) AND (""slug"" = 'foo')) AND (""title"" = 'hello'))"
  "SELECT ""id"" FROM ""table"" WHERE (((""id"" = $1) AND (""slug"" = $2)) AND (""title"" = $3))"
  "SELECT ""id"" FROM ""table"" WHERE (((""id"" = :arg_1) AND (""slug"" = :arg_2)) AND (""title"" = :arg_3))"
  [(GInt KInt (1)); (GStr "foo"); (GStr "hello")].
Proof. vm_compute. repeat split. Qed.

(* TestSelect_WhereOperatorOrder Or *)
Example TestSelect_WhereOperatorOrder_Or : renders (do q1 <- lk_select [(GStr "id")]; (do s2 <- sel_step q1 (SelFrom [(GStr "table")]); (do c3 <- cmp_expr (lk_condition (GStr "id")) OpEqual (GInt KInt (1)); (do s4 <- sel_step s2 (SelWhere c3); (do c5 <- cmp_expr (lk_condition (GStr "slug")) OpEqual (GStr "foo"); (do s6 <- sel_step s4 (SelOr c5); (do c7 <- cmp_expr (lk_condition (GStr "title")) OpEqual (GStr "hello"); (do s8 <- sel_step s6 (SelOr c7); Ok (StSelect s8)))))))))
  "SELECT ""id"" FROM ""table"" WHERE (((""id"" = 1) OR (""slug"" = 'foo')) OR (""title"" = 'hello'))"
  "SELECT ""id"" FROM ""table"" WHERE (((""id"" = $1) OR (""slug"" = $2)) OR (""title"" = $3))"
  "SELECT ""id"" FROM ""table"" WHERE (((""id"" = :arg_1) OR (""slug"" = :arg_2)) OR (""title"" = :arg_3))"
  [(GInt KInt (1)); (GStr "foo"); (GStr "hello")].
Proof. vm_compute. repeat split. Qed.

(* TestSelect_WhereOperatorOrder Or with And *)
Example TestSelect_WhereOperatorOrder_Or_with_And : renders (do q1 <- lk_select [(GStr "id")]; (do s2 <- sel_step q1 (SelFrom [(GStr "table")]); (do c3 <- cmp_expr (lk_condition (GStr "id")) OpEqual (GInt KInt (1)); (do s4 <- sel_step s2 (SelWhere c3); (do c5 <- cmp_expr (lk_condition (GStr "slug")) OpEqual (GStr "foo"); (do s6 <- sel_step s4 (SelAnd c5); (do c7 <- cmp_expr (lk_condition (GStr "title")) OpEqual (GStr "hello"); (do s8 <- sel_step s6 (SelOr c7); Ok (StSelect s8)))))))))
  "SELECT ""id"" FROM ""table"" WHERE (((""id"" = 1) AND (""slug"" = 'foo')) OR (""title"" = 'hello'))"
  "SELECT ""id"" FROM ""table"" WHERE (((""id"" = $1) AND (""slug"" = $2)) OR (""title"" = $3))"
  "SELECT ""id"" FROM ""table"" WHERE (((""id"" = :arg_1) AND (""slug"" = :arg_2)) OR (""title"" = :arg_3))"
  [(GInt KInt (1)); (GStr "foo"); (GStr "hello")].
Proof. vm_compute. repeat split. Qed.

(* TestSelect_WhereOperatorOrder Or with And nested with 4 subexpressions *)
Example TestSelect_WhereOperatorOrder_Or_with_And_nested_with_4_subexpressions : renders (do q1 <- lk_select [(GStr "id")]; (do s2 <- sel_step q1 (SelFrom [(GStr "table")]); (do c3 <- cmp_expr (lk_condition (GStr "id")) OpEqual (GInt KInt (1)); (do c4 <- cmp_expr (lk_condition (GStr "title")) OpEqual (GStr "hello"); (do s5 <- sel_step s2 (SelWhere (lk_or c3 c4)); (do c6 <- cmp_expr (lk_condition (GStr "slug")) OpEqual (GStr "foo"); (do c7 <- cmp_expr (lk_condition (GStr "active")) OpEqual (GBool true); (do s8 <- sel_step s5 (SelOr (lk_and c6 c7)); Ok (StSelect s8)))))))))
  "SELECT ""id"" FROM ""table"" WHERE (((""id"" = 1) OR (""title"" = 'hello')) OR ((""slug"" = 'foo') AND (""active"" = true)))"
  "SELECT ""id"" FROM ""table"" WHERE (((""id"" = $1) OR (""title"" = $2)) OR ((""slug"" = $3) AND (""active"" = $4)))"
  "SELECT ""id"" FROM ""table"" WHERE (((""id"" = :arg_1) OR (""title"" = :arg_2)) OR ((""slug"" = :arg_3) AND (""active"" = :arg_4)))"
  [(GInt KInt (1)); (GStr "hello"); (GStr "foo"); (GBool true)].
Proof. vm_compute. repeat split. Qed.

(* TestSelect_WhereOperatorOrder Simple And *)
Example TestSelect_WhereOperatorOrder_Simple_And_0 : renders (do q1 <- lk_select [(GStr "id")]; (do s2 <- sel_step q1 (SelFrom [(GStr "table")]); (do c3 <- cmp_expr (lk_condition (GStr "id")) OpEqual (GInt KInt (1)); (do c4 <- cmp_expr (lk_condition (GStr "title")) OpEqual (GStr "hello"); (do s5 <- sel_step s2 (SelWhere (lk_and c3 c4)); Ok (StSelect s5))))))
  "SELECT ""id"" FROM ""table"" WHERE ((""id"" = 1) AND (""title"" = 'hello'))"
  "SELECT ""id"" FROM ""table"" WHERE ((""id"" = $1) AND (""title"" = $2))"
  "SELECT ""id"" FROM ""table"" WHERE ((""id"" = :arg_1) AND (""title"" = :arg_2))"
  [(GInt KInt (1)); (GStr "hello")].
Proof. vm_compute. repeat split. Qed.

(* TestSelect_WhereOperatorOrder Simple And *)
Example TestSelect_WhereOperatorOrder_Simple_And_1 : renders (do q1 <- lk_select [(GStr "id")]; (do s2 <- sel_step q1 (SelFrom [(GStr "table")]); (do c3 <- cmp_expr (lk_condition (GStr "id")) OpEqual (GInt KInt (1)); (do s4 <- sel_step s2 (SelWhere c3); (do c5 <- cmp_expr (lk_condition (GStr "title")) OpEqual (GStr "hello"); (do s6 <- sel_step s4 (SelWhere c5); Ok (StSelect s6)))))))
  "SELECT ""id"" FROM ""table"" WHERE ((""id"" = 1) AND (""title"" = 'hello'))"
  "SELECT ""id"" FROM ""table"" WHERE ((""id"" = $1) AND (""title"" = $2))"
  "SELECT ""id"" FROM ""table"" WHERE ((""id"" = :arg_1) AND (""title"" = :arg_2))"
  [(GInt KInt (1)); (GStr "hello")].
Proof. vm_compute. repeat split. Qed.

(* TestSelect_WhereOperatorOrder Three wheres *)
Example TestSelect_WhereOperatorOrder_Three_wheres : renders (do q1 <- lk_select [(GStr "id")]; (do s2 <- sel_step q1 (SelFrom [(GStr "table")]); (do c3 <- cmp_expr (lk_condition (GStr "id")) OpEqual (GInt KInt (1)); (do s4 <- sel_step s2 (SelWhere c3); (do c5 <- cmp_expr (lk_condition (GStr "title")) OpEqual (GStr "hello"); (do s6 <- sel_step s4 (SelWhere c5); (do c7 <- cmp_expr (lk_condition (GStr "disable")) OpEqual (GBool false); (do s8 <- sel_step s6 (SelWhere c7); Ok (StSelect s8)))))))))
  "SELECT ""id"" FROM ""table"" WHERE (((""id"" = 1) AND (""title"" = 'hello')) AND (""disable"" = false))"
  "SELECT ""id"" FROM ""table"" WHERE (((""id"" = $1) AND (""title"" = $2)) AND (""disable"" = $3))"
  "SELECT ""id"" FROM ""table"" WHERE (((""id"" = :arg_1) AND (""title"" = :arg_2)) AND (""disable"" = :arg_3))"
  [(GInt KInt (1)); (GStr "hello"); (GBool false)].
Proof. vm_compute. repeat split. Qed.

(* TestSelect_WhereOperatorOrder Where Or *)
Example TestSelect_WhereOperatorOrder_Where_Or : renders (do q1 <- lk_select [(GStr "id")]; (do s2 <- sel_step q1 (SelFrom [(GStr "table")]); (do c3 <- cmp_expr (lk_condition (GStr "id")) OpEqual (GInt KInt (1)); (do s4 <- sel_step s2 (SelWhere c3); (do c5 <- cmp_expr (lk_condition (GStr "slug")) OpEqual (GStr "foo"); (do c6 <- cmp_expr (lk_condition (GStr "active")) OpEqual (GBool true); (do s7 <- sel_step s4 (SelOr (infix_and c5 c6)); Ok (StSelect s7))))))))
  "SELECT ""id"" FROM ""table"" WHERE ((""id"" = 1) OR ((""slug"" = 'foo') AND (""active"" = true)))"
  "SELECT ""id"" FROM ""table"" WHERE ((""id"" = $1) OR ((""slug"" = $2) AND (""active"" = $3)))"
  "SELECT ""id"" FROM ""table"" WHERE ((""id"" = :arg_1) OR ((""slug"" = :arg_2) AND (""active"" = :arg_3)))"
  [(GInt KInt (1)); (GStr "foo"); (GBool true)].
Proof. vm_compute. repeat split. Qed.

(* TestSelect_WhereOperatorOrder Or in Where And *)
Example TestSelect_WhereOperatorOrder_Or_in_Where_And : renders (do q1 <- lk_select [(GStr "id")]; (do s2 <- sel_step q1 (SelFrom [(GStr "table")]); (do c3 <- cmp_expr (lk_condition (GStr "id")) OpEqual (GInt KInt (1)); (do c4 <- cmp_expr (lk_condition (GStr "slug")) OpEqual (GStr "foo"); (do s5 <- sel_step s2 (SelWhere (infix_and c3 c4)); (do c6 <- cmp_expr (lk_condition (GStr "active")) OpEqual (GBool true); (do s7 <- sel_step s5 (SelOr c6); Ok (StSelect s7))))))))
  "SELECT ""id"" FROM ""table"" WHERE (((""id"" = 1) AND (""slug"" = 'foo')) OR (""active"" = true))"
  "SELECT ""id"" FROM ""table"" WHERE (((""id"" = $1) AND (""slug"" = $2)) OR (""active"" = $3))"
  "SELECT ""id"" FROM ""table"" WHERE (((""id"" = :arg_1) AND (""slug"" = :arg_2)) OR (""active"" = :arg_3))"
  [(GInt KInt (1)); (GStr "foo"); (GBool true)].
Proof. vm_compute. repeat split. Qed.

(* TestSelect_WhereEqual Equal *)
Example TestSelect_WhereEqual_Equal : renders (do q1 <- lk_select [(GStr "id")]; (do s2 <- sel_step q1 (SelFrom [(GStr "table")]); (do c3 <- cmp_expr (lk_condition (GStr "disabled")) OpEqual (GBool false); (do s4 <- sel_step s2 (SelWhere c3); Ok (StSelect s4)))))
  "SELECT ""id"" FROM ""table"" WHERE (""disabled"" = false)"
  "SELECT ""id"" FROM ""table"" WHERE (""disabled"" = $1)"
  "SELECT ""id"" FROM ""table"" WHERE (""disabled"" = :arg_1)"
  [(GBool false)].
Proof. vm_compute. repeat split. Qed.

(* TestSelect_WhereEqual Not Equal *)
Example TestSelect_WhereEqual_Not_Equal : renders (do q1 <- lk_select [(GStr "id")]; (do s2 <- sel_step q1 (SelFrom [(GStr "table")]); (do c3 <- cmp_expr (lk_condition (GStr "disabled")) OpNotEqual (GBool false); (do s4 <- sel_step s2 (SelWhere c3); Ok (StSelect s4)))))
  "SELECT ""id"" FROM ""table"" WHERE (""disabled"" != false)"
  "SELECT ""id"" FROM ""table"" WHERE (""disabled"" != $1)"
  "SELECT ""id"" FROM ""table"" WHERE (""disabled"" != :arg_1)"
  [(GBool false)].
Proof. vm_compute. repeat split. Qed.

(* TestSelect_WhereEqual Equal Subquery *)
Example TestSelect_WhereEqual_Equal_Subquery : renders (do q1 <- lk_select [(GStr "id")]; (do s2 <- sel_step q1 (SelFrom [(GStr "news")]); (do q3 <- lk_select [(GStr "id")]; (do s4 <- sel_step q3 (SelFrom [(GStr "users")]); (do c5 <- cmp_expr (lk_condition (GStr "public_id")) OpEqual (GStr "01C9TZXM678JR3GFZE1Y6494G3"); (do s6 <- sel_step s4 (SelWhere c5); (do c7 <- cmp_expr (lk_condition (GStr "user_id")) OpEqual (g_select s6); (do s8 <- sel_step s2 (SelWhere c7); Ok (StSelect s8)))))))))
  "SELECT ""id"" FROM ""news"" WHERE (""user_id"" = (SELECT ""id"" FROM ""users"" WHERE (""public_id"" = '01C9TZXM678JR3GFZE1Y6494G3')))"
  "SELECT ""id"" FROM ""news"" WHERE (""user_id"" = (SELECT ""id"" FROM ""users"" WHERE (""public_id"" = $1)))"
  "SELECT ""id"" FROM ""news"" WHERE (""user_id"" = (SELECT ""id"" FROM ""users"" WHERE (""public_id"" = :arg_1)))"
  [(GStr "01C9TZXM678JR3GFZE1Y6494G3")].
Proof. vm_compute. repeat split. Qed.

(* TestSelect_WhereEqual Not Equal Subquery *)
Example TestSelect_WhereEqual_Not_Equal_Subquery : renders (do q1 <- lk_select [(GStr "id")]; (do s2 <- sel_step q1 (SelFrom [(GStr "news")]); (do q3 <- lk_select [(GStr "id")]; (do s4 <- sel_step q3 (SelFrom [(GStr "users")]); (do c5 <- cmp_expr (lk_condition (GStr "public_id")) OpEqual (GStr "01C9TZXM678JR3GFZE1Y6494G3"); (do s6 <- sel_step s4 (SelWhere c5); (do c7 <- cmp_expr (lk_condition (GStr "user_id")) OpNotEqual (g_select s6); (do s8 <- sel_step s2 (SelWhere c7); Ok (StSelect s8)))))))))
  "SELECT ""id"" FROM ""news"" WHERE (""user_id"" != (SELECT ""id"" FROM ""users"" WHERE (""public_id"" = '01C9TZXM678JR3GFZE1Y6494G3')))"
  "SELECT ""id"" FROM ""news"" WHERE (""user_id"" != (SELECT ""id"" FROM ""users"" WHERE (""public_id"" = $1)))"
  "SELECT ""id"" FROM ""news"" WHERE (""user_id"" != (SELECT ""id"" FROM ""users"" WHERE (""public_id"" = :arg_1)))"
  [(GStr "01C9TZXM678JR3GFZE1Y6494G3")].
Proof. vm_compute. repeat split. Qed.

(* TestSelect_WhereEqual Call Equal *)
Example TestSelect_WhereEqual_Call_Equal : renders (do q1 <- lk_select [(GStr "id")]; (do s2 <- sel_step q1 (SelFrom [(GStr "table")]); (do c3 <- cmp_expr (new_call "upper" [(lk_condition (GStr "email"))]) OpEqual (GStr "FOO@EXAMPLE.ORG"); (do s4 <- sel_step s2 (SelWhere c3); Ok (StSelect s4)))))
  "SELECT ""id"" FROM ""table"" WHERE (upper(""email"") = 'FOO@EXAMPLE.ORG')"
  "SELECT ""id"" FROM ""table"" WHERE (upper(""email"") = $1)"
  "SELECT ""id"" FROM ""table"" WHERE (upper(""email"") = :arg_1)"
  [(GStr "FOO@EXAMPLE.ORG")].
Proof. vm_compute. repeat split. Qed.

(* TestSelect_WhereIs Null *)
Example TestSelect_WhereIs_Null : renders (do q1 <- lk_select [(GStr "id")]; (do s2 <- sel_step q1 (SelFrom [(GStr "table")]); (do c3 <- cmp_expr (lk_condition (GStr "disabled")) OpIs GNil; (do s4 <- sel_step s2 (SelWhere c3); Ok (StSelect s4)))))
  "SELECT ""id"" FROM ""table"" WHERE (""disabled"" IS NULL)"
  "SELECT ""id"" FROM ""table"" WHERE (""disabled"" IS NULL)"
  "SELECT ""id"" FROM ""table"" WHERE (""disabled"" IS NULL)"
  [].
Proof. vm_compute. repeat split. Qed.

(* TestSelect_WhereIs Not true *)
Example TestSelect_WhereIs_Not_true : renders (do q1 <- lk_select [(GStr "id")]; (do s2 <- sel_step q1 (SelFrom [(GStr "table")]); (do c3 <- cmp_expr (lk_condition (GStr "active")) OpIsNot (GBool true); (do s4 <- sel_step s2 (SelWhere c3); Ok (StSelect s4)))))
  "SELECT ""id"" FROM ""table"" WHERE (""active"" IS NOT true)"
  "SELECT ""id"" FROM ""table"" WHERE (""active"" IS NOT $1)"
  "SELECT ""id"" FROM ""table"" WHERE (""active"" IS NOT :arg_1)"
  [(GBool true)].
Proof. vm_compute. repeat split. Qed.

(* TestSelect_WhereGreaterThan Greater than 2 *)
Example TestSelect_WhereGreaterThan_Greater_than_2 : renders (do q1 <- lk_select [(GStr "id")]; (do s2 <- sel_step q1 (SelFrom [(GStr "table")]); (do c3 <- cmp_expr (lk_condition (GStr "count")) OpGreaterThan (GInt KInt (2)); (do s4 <- sel_step s2 (SelWhere c3); Ok (StSelect s4)))))
  "SELECT ""id"" FROM ""table"" WHERE (""count"" > 2)"
  "SELECT ""id"" FROM ""table"" WHERE (""count"" > $1)"
  "SELECT ""id"" FROM ""table"" WHERE (""count"" > :arg_1)"
  [(GInt KInt (2))].
Proof. vm_compute. repeat split. Qed.

(* TestSelect_WhereGreaterThan Greater than or equal to 4 *)
Example TestSelect_WhereGreaterThan_Greater_than_or_equal_to_4 : renders (do q1 <- lk_select [(GStr "id")]; (do s2 <- sel_step q1 (SelFrom [(GStr "table")]); (do c3 <- cmp_expr (lk_condition (GStr "count")) OpGreaterThanOrEqual (GInt KInt (4)); (do s4 <- sel_step s2 (SelWhere c3); Ok (StSelect s4)))))
  "SELECT ""id"" FROM ""table"" WHERE (""count"" >= 4)"
  "SELECT ""id"" FROM ""table"" WHERE (""count"" >= $1)"
  "SELECT ""id"" FROM ""table"" WHERE (""count"" >= :arg_1)"
  [(GInt KInt (4))].
Proof. vm_compute. repeat split. Qed.

(* TestSelect_WhereGreaterThan Greater than or equal to raw now *)
Example TestSelect_WhereGreaterThan_Greater_than_or_equal_to_raw_now : renders (do q1 <- lk_select [(GStr "id")]; (do s2 <- sel_step q1 (SelFrom [(GStr "table")]); (do c3 <- cmp_expr (lk_condition (GStr "updated_at")) OpGreaterThanOrEqual (GExpr (lk_raw "NOW()")); (do s4 <- sel_step s2 (SelWhere c3); Ok (StSelect s4)))))
  "SELECT ""id"" FROM ""table"" WHERE (""updated_at"" >= NOW())"
  "SELECT ""id"" FROM ""table"" WHERE (""updated_at"" >= NOW())"
  "SELECT ""id"" FROM ""table"" WHERE (""updated_at"" >= NOW())"
  [].
Proof. vm_compute. repeat split. Qed.

(* TestSelect_WhereGreaterThan Greater than subquery *)
Example TestSelect_WhereGreaterThan_Greater_than_subquery : renders (do q1 <- lk_select [(GStr "id")]; (do s2 <- sel_step q1 (SelFrom [(GStr "table")]); (do q3 <- lk_select [(GStr "counter")]; (do s4 <- sel_step q3 (SelFrom [(GStr "table")]); (do c5 <- cmp_expr (lk_condition (GStr "id")) OpEqual (GInt KInt (6598)); (do s6 <- sel_step s4 (SelWhere c5); (do c7 <- cmp_expr (lk_condition (GStr "counter")) OpGreaterThan (g_select s6); (do s8 <- sel_step s2 (SelWhere c7); Ok (StSelect s8)))))))))
  "SELECT ""id"" FROM ""table"" WHERE (""counter"" > (SELECT ""counter"" FROM ""table"" WHERE (""id"" = 6598)))"
  "SELECT ""id"" FROM ""table"" WHERE (""counter"" > (SELECT ""counter"" FROM ""table"" WHERE (""id"" = $1)))"
  "SELECT ""id"" FROM ""table"" WHERE (""counter"" > (SELECT ""counter"" FROM ""table"" WHERE (""id"" = :arg_1)))"
  [(GInt KInt (6598))].
Proof. vm_compute. repeat split. Qed.

(* TestSelect_WhereGreaterThan Greater than or equal to subquery *)
Example TestSelect_WhereGreaterThan_Greater_than_or_equal_to_subquery : renders (do q1 <- lk_select [(GStr "id")]; (do s2 <- sel_step q1 (SelFrom [(GStr "table")]); (do q3 <- lk_select [(GStr "counter")]; (do s4 <- sel_step q3 (SelFrom [(GStr "table")]); (do c5 <- cmp_expr (lk_condition (GStr "id")) OpEqual (GInt KInt (6598)); (do s6 <- sel_step s4 (SelWhere c5); (do c7 <- cmp_expr (lk_condition (GStr "counter")) OpGreaterThanOrEqual (g_select s6); (do s8 <- sel_step s2 (SelWhere c7); Ok (StSelect s8)))))))))
  "SELECT ""id"" FROM ""table"" WHERE (""counter"" >= (SELECT ""counter"" FROM ""table"" WHERE (""id"" = 6598)))"
  "SELECT ""id"" FROM ""table"" WHERE (""counter"" >= (SELECT ""counter"" FROM ""table"" WHERE (""id"" = $1)))"
  "SELECT ""id"" FROM ""table"" WHERE (""counter"" >= (SELECT ""counter"" FROM ""table"" WHERE (""id"" = :arg_1)))"
  [(GInt KInt (6598))].
Proof. vm_compute. repeat split. Qed.

(* TestSelect_WhereLessThan Less than 3 *)
Example TestSelect_WhereLessThan_Less_than_3 : renders (do q1 <- lk_select [(GStr "id")]; (do s2 <- sel_step q1 (SelFrom [(GStr "table")]); (do c3 <- cmp_expr (lk_condition (GStr "count")) OpLessThan (GInt KInt (3)); (do s4 <- sel_step s2 (SelWhere c3); Ok (StSelect s4)))))
  "SELECT ""id"" FROM ""table"" WHERE (""count"" < 3)"
  "SELECT ""id"" FROM ""table"" WHERE (""count"" < $1)"
  "SELECT ""id"" FROM ""table"" WHERE (""count"" < :arg_1)"
  [(GInt KInt (3))].
Proof. vm_compute. repeat split. Qed.

(* TestSelect_WhereLessThan Less than or equal to 6 *)
Example TestSelect_WhereLessThan_Less_than_or_equal_to_6 : renders (do q1 <- lk_select [(GStr "id")]; (do s2 <- sel_step q1 (SelFrom [(GStr "table")]); (do c3 <- cmp_expr (lk_condition (GStr "count")) OpLessThanOrEqual (GInt KInt (6)); (do s4 <- sel_step s2 (SelWhere c3); Ok (StSelect s4)))))
  "SELECT ""id"" FROM ""table"" WHERE (""count"" <= 6)"
  "SELECT ""id"" FROM ""table"" WHERE (""count"" <= $1)"
  "SELECT ""id"" FROM ""table"" WHERE (""count"" <= :arg_1)"
  [(GInt KInt (6))].
Proof. vm_compute. repeat split. Qed.

(* TestSelect_WhereLessThan Less than or equal to raw now *)
Example TestSelect_WhereLessThan_Less_than_or_equal_to_raw_now : renders (do q1 <- lk_select [(GStr "id")]; (do s2 <- sel_step q1 (SelFrom [(GStr "table")]); (do c3 <- cmp_expr (lk_condition (GStr "updated_at")) OpLessThanOrEqual (GExpr (lk_raw "NOW()")); (do s4 <- sel_step s2 (SelWhere c3); Ok (StSelect s4)))))
  "SELECT ""id"" FROM ""table"" WHERE (""updated_at"" <= NOW())"
  "SELECT ""id"" FROM ""table"" WHERE (""updated_at"" <= NOW())"
  "SELECT ""id"" FROM ""table"" WHERE (""updated_at"" <= NOW())"
  [].
Proof. vm_compute. repeat split. Qed.

(* TestSelect_WhereLessThan Less than subquery *)
Example TestSelect_WhereLessThan_Less_than_subquery : renders (do q1 <- lk_select [(GStr "id")]; (do s2 <- sel_step q1 (SelFrom [(GStr "table")]); (do q3 <- lk_select [(GStr "counter")]; (do s4 <- sel_step q3 (SelFrom [(GStr "table")]); (do c5 <- cmp_expr (lk_condition (GStr "id")) OpEqual (GInt KInt (6598)); (do s6 <- sel_step s4 (SelWhere c5); (do c7 <- cmp_expr (lk_condition (GStr "counter")) OpLessThan (g_select s6); (do s8 <- sel_step s2 (SelWhere c7); Ok (StSelect s8)))))))))
  "SELECT ""id"" FROM ""table"" WHERE (""counter"" < (SELECT ""counter"" FROM ""table"" WHERE (""id"" = 6598)))"
  "SELECT ""id"" FROM ""table"" WHERE (""counter"" < (SELECT ""counter"" FROM ""table"" WHERE (""id"" = $1)))"
  "SELECT ""id"" FROM ""table"" WHERE (""counter"" < (SELECT ""counter"" FROM ""table"" WHERE (""id"" = :arg_1)))"
  [(GInt KInt (6598))].
Proof. vm_compute. repeat split. Qed.

(* TestSelect_WhereLessThan Less than or equal to subquery *)
Example TestSelect_WhereLessThan_Less_than_or_equal_to_subquery : renders (do q1 <- lk_select [(GStr "id")]; (do s2 <- sel_step q1 (SelFrom [(GStr "table")]); (do q3 <- lk_select [(GStr "counter")]; (do s4 <- sel_step q3 (SelFrom [(GStr "table")]); (do c5 <- cmp_expr (lk_condition (GStr "id")) OpEqual (GInt KInt (6598)); (do s6 <- sel_step s4 (SelWhere c5); (do c7 <- cmp_expr (lk_condition (GStr "counter")) OpLessThanOrEqual (g_select s6); (do s8 <- sel_step s2 (SelWhere c7); Ok (StSelect s8)))))))))
  "SELECT ""id"" FROM ""table"" WHERE (""counter"" <= (SELECT ""counter"" FROM ""table"" WHERE (""id"" = 6598)))"
  "SELECT ""id"" FROM ""table"" WHERE (""counter"" <= (SELECT ""counter"" FROM ""table"" WHERE (""id"" = $1)))"
  "SELECT ""id"" FROM ""table"" WHERE (""counter"" <= (SELECT ""counter"" FROM ""table"" WHERE (""id"" = :arg_1)))"
  [(GInt KInt (6598))].
Proof. vm_compute. repeat split. Qed.

(* TestSelect_WhereLike Like *)
Example TestSelect_WhereLike_Like : renders (do q1 <- lk_select [(GStr "id")]; (do s2 <- sel_step q1 (SelFrom [(GStr "table")]); (do c3 <- cmp_expr (lk_condition (GStr "title")) OpLike (GStr "foo%"); (do s4 <- sel_step s2 (SelWhere c3); Ok (StSelect s4)))))
  "SELECT ""id"" FROM ""table"" WHERE (""title"" LIKE 'foo%')"
  "SELECT ""id"" FROM ""table"" WHERE (""title"" LIKE $1)"
  "SELECT ""id"" FROM ""table"" WHERE (""title"" LIKE :arg_1)"
  [(GStr "foo%")].
Proof. vm_compute. repeat split. Qed.

(* TestSelect_WhereLike Not like *)
Example TestSelect_WhereLike_Not_like : renders (do q1 <- lk_select [(GStr "id")]; (do s2 <- sel_step q1 (SelFrom [(GStr "table")]); (do c3 <- cmp_expr (lk_condition (GStr "title")) OpNotLike (GStr "foo%"); (do s4 <- sel_step s2 (SelWhere c3); Ok (StSelect s4)))))
  "SELECT ""id"" FROM ""table"" WHERE (""title"" NOT LIKE 'foo%')"
  "SELECT ""id"" FROM ""table"" WHERE (""title"" NOT LIKE $1)"
  "SELECT ""id"" FROM ""table"" WHERE (""title"" NOT LIKE :arg_1)"
  [(GStr "foo%")].
Proof. vm_compute. repeat split. Qed.

(* TestSelect_WhereLike Ilike *)
Example TestSelect_WhereLike_Ilike : renders (do q1 <- lk_select [(GStr "id")]; (do s2 <- sel_step q1 (SelFrom [(GStr "table")]); (do c3 <- cmp_expr (lk_condition (GStr "title")) OpILike (GStr "foo%"); (do s4 <- sel_step s2 (SelWhere c3); Ok (StSelect s4)))))
  "SELECT ""id"" FROM ""table"" WHERE (""title"" ILIKE 'foo%')"
  "SELECT ""id"" FROM ""table"" WHERE (""title"" ILIKE $1)"
  "SELECT ""id"" FROM ""table"" WHERE (""title"" ILIKE :arg_1)"
  [(GStr "foo%")].
Proof. vm_compute. repeat split. Qed.

(* TestSelect_WhereLike Not ilike *)
Example TestSelect_WhereLike_Not_ilike : renders (do q1 <- lk_select [(GStr "id")]; (do s2 <- sel_step q1 (SelFrom [(GStr "table")]); (do c3 <- cmp_expr (lk_condition (GStr "title")) OpNotILike (GStr "foo%"); (do s4 <- sel_step s2 (SelWhere c3); Ok (StSelect s4)))))
  "SELECT ""id"" FROM ""table"" WHERE (""title"" NOT ILIKE 'foo%')"
  "SELECT ""id"" FROM ""table"" WHERE (""title"" NOT ILIKE $1)"
  "SELECT ""id"" FROM ""table"" WHERE (""title"" NOT ILIKE :arg_1)"
  [(GStr "foo%")].
Proof. vm_compute. repeat split. Qed.

(* TestSelect_WhereBetween 10 and 20 *)
Example TestSelect_WhereBetween_10_and_20 : renders (do q1 <- lk_select [(GStr "id")]; (do s2 <- sel_step q1 (SelFrom [(GStr "table")]); (do c3 <- ident_between (GStr "count") (GInt KInt (10)) (GInt KInt (20)); (do s4 <- sel_step s2 (SelWhere c3); Ok (StSelect s4)))))
  "SELECT ""id"" FROM ""table"" WHERE (""count"" BETWEEN 10 AND 20)"
  "SELECT ""id"" FROM ""table"" WHERE (""count"" BETWEEN $1 AND $2)"
  "SELECT ""id"" FROM ""table"" WHERE (""count"" BETWEEN :arg_1 AND :arg_2)"
  [(GInt KInt (10)); (GInt KInt (20))].
Proof. vm_compute. repeat split. Qed.

(* TestSelect_WhereBetween 50 and 70 *)
Example TestSelect_WhereBetween_50_and_70 : renders (do q1 <- lk_select [(GStr "id")]; (do s2 <- sel_step q1 (SelFrom [(GStr "table")]); (do c3 <- ident_not_between (GStr "count") (GInt KInt (50)) (GInt KInt (70)); (do s4 <- sel_step s2 (SelWhere c3); Ok (StSelect s4)))))
  "SELECT ""id"" FROM ""table"" WHERE (""count"" NOT BETWEEN 50 AND 70)"
  "SELECT ""id"" FROM ""table"" WHERE (""count"" NOT BETWEEN $1 AND $2)"
  "SELECT ""id"" FROM ""table"" WHERE (""count"" NOT BETWEEN :arg_1 AND :arg_2)"
  [(GInt KInt (50)); (GInt KInt (70))].
Proof. vm_compute. repeat split. Qed.

(* TestSelect_WhereIsDistinctFrom IS DISTINCT FROM *)
Example TestSelect_WhereIsDistinctFrom_IS_DISTINCT_FROM : renders (do q1 <- lk_select [(GStr "id")]; (do s2 <- sel_step q1 (SelFrom [(GStr "table")]); (do c3 <- cmp_expr (lk_condition (GStr "col")) OpIsDistinctFrom (GInt KInt (10)); (do s4 <- sel_step s2 (SelWhere c3); Ok (StSelect s4)))))
  "SELECT ""id"" FROM ""table"" WHERE (""col"" IS DISTINCT FROM 10)"
  "SELECT ""id"" FROM ""table"" WHERE (""col"" IS DISTINCT FROM $1)"
  "SELECT ""id"" FROM ""table"" WHERE (""col"" IS DISTINCT FROM :arg_1)"
  [(GInt KInt (10))].
Proof. vm_compute. repeat split. Qed.

(* TestSelect_WhereIsDistinctFrom IS NOT DISTINCT FROM *)
Example TestSelect_WhereIsDistinctFrom_IS_NOT_DISTINCT_FROM : renders (do q1 <- lk_select [(GStr "id")]; (do s2 <- sel_step q1 (SelFrom [(GStr "table")]); (do c3 <- cmp_expr (lk_condition (GStr "col")) OpIsNotDistinctFrom (GInt KInt (10)); (do s4 <- sel_step s2 (SelWhere c3); Ok (StSelect s4)))))
  "SELECT ""id"" FROM ""table"" WHERE (""col"" IS NOT DISTINCT FROM 10)"
  "SELECT ""id"" FROM ""table"" WHERE (""col"" IS NOT DISTINCT FROM $1)"
  "SELECT ""id"" FROM ""table"" WHERE (""col"" IS NOT DISTINCT FROM :arg_1)"
  [(GInt KInt (10))].
Proof. vm_compute. repeat split. Qed.

(* TestSelect_WhereIn In integers *)
Example TestSelect_WhereIn_In_integers_0 : renders (do q1 <- lk_select [(GStr "id")]; (do s2 <- sel_step q1 (SelFrom [(GStr "table")]); (do c3 <- expr_in (lk_condition (GStr "id")) [(GInts KInt64 [(1); (2); (3)])]; (do s4 <- sel_step s2 (SelWhere c3); Ok (StSelect s4)))))
  "SELECT ""id"" FROM ""table"" WHERE (""id"" IN (1, 2, 3))"
  "SELECT ""id"" FROM ""table"" WHERE (""id"" IN ($1, $2, $3))"
  "SELECT ""id"" FROM ""table"" WHERE (""id"" IN (:arg_1, :arg_2, :arg_3))"
  [(GInt KInt64 (1)); (GInt KInt64 (2)); (GInt KInt64 (3))].
Proof. vm_compute. repeat split. Qed.

(* TestSelect_WhereIn In integers *)
Example TestSelect_WhereIn_In_integers_1 : renders (do q1 <- lk_select [(GStr "id")]; (do s2 <- sel_step q1 (SelFrom [(GStr "table")]); (do c3 <- expr_in (lk_condition (GStr "id")) [(GInt KInt64 (1)); (GInt KInt64 (2)); (GInt KInt64 (3))]; (do s4 <- sel_step s2 (SelWhere c3); Ok (StSelect s4)))))
  "SELECT ""id"" FROM ""table"" WHERE (""id"" IN (1, 2, 3))"
  "SELECT ""id"" FROM ""table"" WHERE (""id"" IN ($1, $2, $3))"
  "SELECT ""id"" FROM ""table"" WHERE (""id"" IN (:arg_1, :arg_2, :arg_3))"
  [(GInt KInt64 (1)); (GInt KInt64 (2)); (GInt KInt64 (3))].
Proof. vm_compute. repeat split. Qed.

(* TestSelect_WhereIn Not in integers *)
Example TestSelect_WhereIn_Not_in_integers_0 : renders (do q1 <- lk_select [(GStr "id")]; (do s2 <- sel_step q1 (SelFrom [(GStr "table")]); (do c3 <- expr_not_in (lk_condition (GStr "id")) [(GInts KInt [(1); (2); (3)])]; (do s4 <- sel_step s2 (SelWhere c3); Ok (StSelect s4)))))
  "SELECT ""id"" FROM ""table"" WHERE (""id"" NOT IN (1, 2, 3))"
  "SELECT ""id"" FROM ""table"" WHERE (""id"" NOT IN ($1, $2, $3))"
  "SELECT ""id"" FROM ""table"" WHERE (""id"" NOT IN (:arg_1, :arg_2, :arg_3))"
  [(GInt KInt (1)); (GInt KInt (2)); (GInt KInt (3))].
Proof. vm_compute. repeat split. Qed.

(* TestSelect_WhereIn Not in integers *)
Example TestSelect_WhereIn_Not_in_integers_1 : renders (do q1 <- lk_select [(GStr "id")]; (do s2 <- sel_step q1 (SelFrom [(GStr "table")]); (do c3 <- expr_not_in (lk_condition (GStr "id")) [(GInt KInt (1)); (GInt KInt (2)); (GInt KInt (3))]; (do s4 <- sel_step s2 (SelWhere c3); Ok (StSelect s4)))))
  "SELECT ""id"" FROM ""table"" WHERE (""id"" NOT IN (1, 2, 3))"
  "SELECT ""id"" FROM ""table"" WHERE (""id"" NOT IN ($1, $2, $3))"
  "SELECT ""id"" FROM ""table"" WHERE (""id"" NOT IN (:arg_1, :arg_2, :arg_3))"
  [(GInt KInt (1)); (GInt KInt (2)); (GInt KInt (3))].
Proof. vm_compute. repeat split. Qed.

(* TestSelect_WhereIn In strings *)
Example TestSelect_WhereIn_In_strings_0 : renders (do q1 <- lk_select [(GStr "id")]; (do s2 <- sel_step q1 (SelFrom [(GStr "table")]); (do c3 <- expr_in (lk_condition (GStr "status")) [(GStrs ["read"; "unread"])]; (do s4 <- sel_step s2 (SelWhere c3); Ok (StSelect s4)))))
  "SELECT ""id"" FROM ""table"" WHERE (""status"" IN ('read', 'unread'))"
  "SELECT ""id"" FROM ""table"" WHERE (""status"" IN ($1, $2))"
  "SELECT ""id"" FROM ""table"" WHERE (""status"" IN (:arg_1, :arg_2))"
  [(GStr "read"); (GStr "unread")].
Proof. vm_compute. repeat split. Qed.

(* TestSelect_WhereIn In strings *)
Example TestSelect_WhereIn_In_strings_1 : renders (do q1 <- lk_select [(GStr "id")]; (do s2 <- sel_step q1 (SelFrom [(GStr "table")]); (do c3 <- expr_in (lk_condition (GStr "status")) [(GStr "read"); (GStr "unread")]; (do s4 <- sel_step s2 (SelWhere c3); Ok (StSelect s4)))))
  "SELECT ""id"" FROM ""table"" WHERE (""status"" IN ('read', 'unread'))"
  "SELECT ""id"" FROM ""table"" WHERE (""status"" IN ($1, $2))"
  "SELECT ""id"" FROM ""table"" WHERE (""status"" IN (:arg_1, :arg_2))"
  [(GStr "read"); (GStr "unread")].
Proof. vm_compute. repeat split. Qed.

(* TestSelect_WhereIn Not in strings *)
Example TestSelect_WhereIn_Not_in_strings_0 : renders (do q1 <- lk_select [(GStr "id")]; (do s2 <- sel_step q1 (SelFrom [(GStr "table")]); (do c3 <- expr_not_in (lk_condition (GStr "status")) [(GStrs ["read"; "unread"])]; (do s4 <- sel_step s2 (SelWhere c3); Ok (StSelect s4)))))
  "SELECT ""id"" FROM ""table"" WHERE (""status"" NOT IN ('read', 'unread'))"
  "SELECT ""id"" FROM ""table"" WHERE (""status"" NOT IN ($1, $2))"
  "SELECT ""id"" FROM ""table"" WHERE (""status"" NOT IN (:arg_1, :arg_2))"
  [(GStr "read"); (GStr "unread")].
Proof. vm_compute. repeat split. Qed.

(* TestSelect_WhereIn Not in strings *)
Example TestSelect_WhereIn_Not_in_strings_1 : renders (do q1 <- lk_select [(GStr "id")]; (do s2 <- sel_step q1 (SelFrom [(GStr "table")]); (do c3 <- expr_not_in (lk_condition (GStr "status")) [(GStr "read"); (GStr "unread")]; (do s4 <- sel_step s2 (SelWhere c3); Ok (StSelect s4)))))
  "SELECT ""id"" FROM ""table"" WHERE (""status"" NOT IN ('read', 'unread'))"
  "SELECT ""id"" FROM ""table"" WHERE (""status"" NOT IN ($1, $2))"
  "SELECT ""id"" FROM ""table"" WHERE (""status"" NOT IN (:arg_1, :arg_2))"
  [(GStr "read"); (GStr "unread")].
Proof. vm_compute. repeat split. Qed.

(* TestSelect_WhereIn In single string *)
Example TestSelect_WhereIn_In_single_string_0 : renders (do q1 <- lk_select [(GStr "id")]; (do s2 <- sel_step q1 (SelFrom [(GStr "table")]); (do c3 <- expr_in (lk_condition (GStr "status")) [(GStr "read")]; (do s4 <- sel_step s2 (SelWhere c3); Ok (StSelect s4)))))
  "SELECT ""id"" FROM ""table"" WHERE (""status"" IN ('read'))"
  "SELECT ""id"" FROM ""table"" WHERE (""status"" IN ($1))"
  "SELECT ""id"" FROM ""table"" WHERE (""status"" IN (:arg_1))"
  [(GStr "read")].
Proof. vm_compute. repeat split. Qed.

(* TestSelect_WhereIn In single string *)
Example TestSelect_WhereIn_In_single_string_1 : renders (do q1 <- lk_select [(GStr "id")]; (do s2 <- sel_step q1 (SelFrom [(GStr "table")]); (do c3 <- expr_in (lk_condition (GStr "status")) [(GStrs ["read"])]; (do s4 <- sel_step s2 (SelWhere c3); Ok (StSelect s4)))))
  "SELECT ""id"" FROM ""table"" WHERE (""status"" IN ('read'))"
  "SELECT ""id"" FROM ""table"" WHERE (""status"" IN ($1))"
  "SELECT ""id"" FROM ""table"" WHERE (""status"" IN (:arg_1))"
  [(GStr "read")].
Proof. vm_compute. repeat split. Qed.

(* TestSelect_WhereIn Not in single string *)
Example TestSelect_WhereIn_Not_in_single_string_0 : renders (do q1 <- lk_select [(GStr "id")]; (do s2 <- sel_step q1 (SelFrom [(GStr "table")]); (do c3 <- expr_not_in (lk_condition (GStr "status")) [(GStr "read")]; (do s4 <- sel_step s2 (SelWhere c3); Ok (StSelect s4)))))
  "SELECT ""id"" FROM ""table"" WHERE (""status"" NOT IN ('read'))"
  "SELECT ""id"" FROM ""table"" WHERE (""status"" NOT IN ($1))"
  "SELECT ""id"" FROM ""table"" WHERE (""status"" NOT IN (:arg_1))"
  [(GStr "read")].
Proof. vm_compute. repeat split. Qed.

(* TestSelect_WhereIn Not in single string *)
Example TestSelect_WhereIn_Not_in_single_string_1 : renders (do q1 <- lk_select [(GStr "id")]; (do s2 <- sel_step q1 (SelFrom [(GStr "table")]); (do c3 <- expr_not_in (lk_condition (GStr "status")) [(GStrs ["read"])]; (do s4 <- sel_step s2 (SelWhere c3); Ok (StSelect s4)))))
  "SELECT ""id"" FROM ""table"" WHERE (""status"" NOT IN ('read'))"
  "SELECT ""id"" FROM ""table"" WHERE (""status"" NOT IN ($1))"
  "SELECT ""id"" FROM ""table"" WHERE (""status"" NOT IN (:arg_1))"
  [(GStr "read")].
Proof. vm_compute. repeat split. Qed.

(* TestSelect_WhereIn In Raw *)
Example TestSelect_WhereIn_In_Raw : renders (do q1 <- lk_select [(GStr "name")]; (do s2 <- sel_step q1 (SelFrom [(GStr "users")]); (do c3 <- expr_in (lk_condition (GStr "id")) [(GExpr (lk_raw "?"))]; (do s4 <- sel_step s2 (SelWhere c3); Ok (StSelect s4)))))
  "SELECT ""name"" FROM ""users"" WHERE (""id"" IN (?))"
  "SELECT ""name"" FROM ""users"" WHERE (""id"" IN (?))"
  "SELECT ""name"" FROM ""users"" WHERE (""id"" IN (?))"
  [].
Proof. vm_compute. repeat split. Qed.

(* TestSelect_WhereIn In subquery *)
Example TestSelect_WhereIn_In_subquery : renders (do q1 <- lk_select [(GStr "id")]; (do s2 <- sel_step q1 (SelFrom [(GStr "table")]); (do q3 <- lk_select [(GStr "id")]; (do s4 <- sel_step q3 (SelFrom [(GStr "table")]); (do c5 <- cmp_expr (lk_condition (GStr "id")) OpEqual (GInt KInt (1)); (do s6 <- sel_step s4 (SelWhere c5); (do c7 <- expr_in (lk_condition (GStr "id")) [(g_select s6)]; (do s8 <- sel_step s2 (SelWhere c7); Ok (StSelect s8)))))))))
  "SELECT ""id"" FROM ""table"" WHERE (""id"" IN (SELECT ""id"" FROM ""table"" WHERE (""id"" = 1)))"
  "SELECT ""id"" FROM ""table"" WHERE (""id"" IN (SELECT ""id"" FROM ""table"" WHERE (""id"" = $1)))"
  "SELECT ""id"" FROM ""table"" WHERE (""id"" IN (SELECT ""id"" FROM ""table"" WHERE (""id"" = :arg_1)))"
  [(GInt KInt (1))].
Proof. vm_compute. repeat split. Qed.

(* TestSelect_WhereIn Not in subquery *)
Example TestSelect_WhereIn_Not_in_subquery : renders (do q1 <- lk_select [(GStr "id")]; (do s2 <- sel_step q1 (SelFrom [(GStr "table")]); (do q3 <- lk_select [(GStr "id")]; (do s4 <- sel_step q3 (SelFrom [(GStr "table")]); (do c5 <- cmp_expr (lk_condition (GStr "id")) OpEqual (GInt KInt (1)); (do s6 <- sel_step s4 (SelWhere c5); (do c7 <- expr_not_in (lk_condition (GStr "id")) [(g_select s6)]; (do s8 <- sel_step s2 (SelWhere c7); Ok (StSelect s8)))))))))
  "SELECT ""id"" FROM ""table"" WHERE (""id"" NOT IN (SELECT ""id"" FROM ""table"" WHERE (""id"" = 1)))"
  "SELECT ""id"" FROM ""table"" WHERE (""id"" NOT IN (SELECT ""id"" FROM ""table"" WHERE (""id"" = $1)))"
  "SELECT ""id"" FROM ""table"" WHERE (""id"" NOT IN (SELECT ""id"" FROM ""table"" WHERE (""id"" = :arg_1)))"
  [(GInt KInt (1))].
Proof. vm_compute. repeat split. Qed.

(* TestSelect_WhereIn In empty slice *)
Example TestSelect_WhereIn_In_empty_slice : renders (do q1 <- lk_select [(GStr "id")]; (do s2 <- sel_step q1 (SelFrom [(GStr "table")]); (do c3 <- expr_in (lk_condition (GStr "id")) [(GInts KInt [])]; (do s4 <- sel_step s2 (SelWhere c3); Ok (StSelect s4)))))
  "SELECT ""id"" FROM ""table"" WHERE (""id"" IN ())"
  "SELECT ""id"" FROM ""table"" WHERE (""id"" IN ())"
  "SELECT ""id"" FROM ""table"" WHERE (""id"" IN ())"
  [].
Proof. vm_compute. repeat split. Qed.

(* TestSelect_WhereIn In nil slice *)
Example TestSelect_WhereIn_In_nil_slice : renders (do q1 <- lk_select [(GStr "id")]; (do s2 <- sel_step q1 (SelFrom [(GStr "table")]); (do c3 <- expr_in (lk_condition (GStr "id")) [GNil]; (do s4 <- sel_step s2 (SelWhere c3); Ok (StSelect s4)))))
  "SELECT ""id"" FROM ""table"" WHERE (""id"" IN ())"
  "SELECT ""id"" FROM ""table"" WHERE (""id"" IN ())"
  "SELECT ""id"" FROM ""table"" WHERE (""id"" IN ())"
  [].
Proof. vm_compute. repeat split. Qed.

(* TestSelect_WhereIn Call In *)
Example TestSelect_WhereIn_Call_In : renders (do q1 <- lk_select [(GStr "id")]; (do s2 <- sel_step q1 (SelFrom [(GStr "table")]); (do c3 <- expr_in (new_call "upper" [(lk_condition (GStr "email"))]) [(GStrs ["FOO@EXAMPLE.ORG"; "BAR@EXAMPLE.ORG"])]; (do s4 <- sel_step s2 (SelWhere c3); Ok (StSelect s4)))))
  "SELECT ""id"" FROM ""table"" WHERE (upper(""email"") IN ('FOO@EXAMPLE.ORG', 'BAR@EXAMPLE.ORG'))"
  "SELECT ""id"" FROM ""table"" WHERE (upper(""email"") IN ($1, $2))"
  "SELECT ""id"" FROM ""table"" WHERE (upper(""email"") IN (:arg_1, :arg_2))"
  [(GStr "FOO@EXAMPLE.ORG"); (GStr "BAR@EXAMPLE.ORG")].
Proof. vm_compute. repeat split. Qed.

(* TestSelect_Exists Where clause *)
Example TestSelect_Exists_Where_clause : renders (do q1 <- lk_select [(GStr "id")]; (do s2 <- sel_step q1 (SelFrom [(GStr "users")]); (do c3 <- is_null (lk_condition (GStr "deleted_at")) true; (do s4 <- sel_step s2 (SelWhere c3); (do q5 <- lk_select [(GExpr (lk_raw "1"))]; (do s6 <- sel_step q5 (SelFrom [(GStr "news")]); (do c7 <- cmp_expr (lk_condition (GStr "news.created_at")) OpGreaterThan (GInt KInt (2)); (do s8 <- sel_step s6 (SelWhere c7); (do x9 <- lk_exists (g_select s8); (do s10 <- sel_step s4 (SelAnd x9); Ok (StSelect s10)))))))))))
  "SELECT ""id"" FROM ""users"" WHERE ((""deleted_at"" IS NULL) AND (EXISTS (SELECT 1 FROM ""news"" WHERE (""news"".""created_at"" > 2))))"
  "SELECT ""id"" FROM ""users"" WHERE ((""deleted_at"" IS NULL) AND (EXISTS (SELECT 1 FROM ""news"" WHERE (""news"".""created_at"" > $1))))"
  "SELECT ""id"" FROM ""users"" WHERE ((""deleted_at"" IS NULL) AND (EXISTS (SELECT 1 FROM ""news"" WHERE (""news"".""created_at"" > :arg_1))))"
  [(GInt KInt (2))].
Proof. vm_compute. repeat split. Qed.

(* TestSelect_NotExists Where clause *)
Example TestSelect_NotExists_Where_clause : renders (do q1 <- lk_select [(GStr "id")]; (do s2 <- sel_step q1 (SelFrom [(GStr "users")]); (do c3 <- is_null (lk_condition (GStr "deleted_at")) true; (do s4 <- sel_step s2 (SelWhere c3); (do q5 <- lk_select [(GExpr (lk_raw "1"))]; (do s6 <- sel_step q5 (SelFrom [(GStr "news")]); (do c7 <- cmp_expr (lk_condition (GStr "news.created_at")) OpGreaterThan (GInt KInt (2)); (do s8 <- sel_step s6 (SelWhere c7); (do x9 <- lk_not_exists (g_select s8); (do s10 <- sel_step s4 (SelAnd x9); Ok (StSelect s10)))))))))))
  "SELECT ""id"" FROM ""users"" WHERE ((""deleted_at"" IS NULL) AND (NOT EXISTS (SELECT 1 FROM ""news"" WHERE (""news"".""created_at"" > 2))))"
  "SELECT ""id"" FROM ""users"" WHERE ((""deleted_at"" IS NULL) AND (NOT EXISTS (SELECT 1 FROM ""news"" WHERE (""news"".""created_at"" > $1))))"
  "SELECT ""id"" FROM ""users"" WHERE ((""deleted_at"" IS NULL) AND (NOT EXISTS (SELECT 1 FROM ""news"" WHERE (""news"".""created_at"" > :arg_1))))"
  [(GInt KInt (2))].
Proof. vm_compute. repeat split. Qed.

(* TestSelect_GroupBy One column *)
Example TestSelect_GroupBy_One_column_0 : renders (do q1 <- lk_select [(GStr "name"); (GExpr (lk_raw "COUNT(*)"))]; (do s2 <- sel_step q1 (SelFrom [(GStr "user")]); (do c3 <- is_null (lk_condition (GStr "disabled")) false; (do s4 <- sel_step s2 (SelWhere c3); (do s5 <- sel_step s4 (SelGroupBy [(GStr "name")]); Ok (StSelect s5))))))
  "SELECT ""name"", COUNT(*) FROM ""user"" WHERE (""disabled"" IS NOT NULL) GROUP BY ""name"""
  "SELECT ""name"", COUNT(*) FROM ""user"" WHERE (""disabled"" IS NOT NULL) GROUP BY ""name"""
  "SELECT ""name"", COUNT(*) FROM ""user"" WHERE (""disabled"" IS NOT NULL) GROUP BY ""name"""
  [].
Proof. vm_compute. repeat split. Qed.

(* TestSelect_GroupBy One column *)
Example TestSelect_GroupBy_One_column_1 : renders (do q1 <- lk_select [(GStr "name"); (GExpr (lk_raw "COUNT(*)"))]; (do s2 <- sel_step q1 (SelFrom [(GStr "user")]); (do c3 <- is_null (lk_condition (GStr "disabled")) false; (do s4 <- sel_step s2 (SelWhere c3); (do s5 <- sel_step s4 (SelGroupBy [(GColumn (lk_column "name"))]); Ok (StSelect s5))))))
  "SELECT ""name"", COUNT(*) FROM ""user"" WHERE (""disabled"" IS NOT NULL) GROUP BY ""name"""
  "SELECT ""name"", COUNT(*) FROM ""user"" WHERE (""disabled"" IS NOT NULL) GROUP BY ""name"""
  "SELECT ""name"", COUNT(*) FROM ""user"" WHERE (""disabled"" IS NOT NULL) GROUP BY ""name"""
  [].
Proof. vm_compute. repeat split. Qed.

(* TestSelect_GroupBy Two columns *)
Example TestSelect_GroupBy_Two_columns_0 : renders (do q1 <- lk_select [(GStr "name"); (GStr "locale"); (GExpr (lk_raw "COUNT(*)"))]; (do s2 <- sel_step q1 (SelFrom [(GStr "user")]); (do c3 <- is_null (lk_condition (GStr "disabled")) false; (do s4 <- sel_step s2 (SelWhere c3); (do s5 <- sel_step s4 (SelGroupBy [(GStr "name"); (GStr "locale")]); Ok (StSelect s5))))))
  "SELECT ""name"", ""locale"", COUNT(*) FROM ""user"" WHERE (""disabled"" IS NOT NULL) GROUP BY ""name"", ""locale"""
  "SELECT ""name"", ""locale"", COUNT(*) FROM ""user"" WHERE (""disabled"" IS NOT NULL) GROUP BY ""name"", ""locale"""
  "SELECT ""name"", ""locale"", COUNT(*) FROM ""user"" WHERE (""disabled"" IS NOT NULL) GROUP BY ""name"", ""locale"""
  [].
Proof. vm_compute. repeat split. Qed.

(* TestSelect_GroupBy Two columns *)
Example TestSelect_GroupBy_Two_columns_1 : renders (do q1 <- lk_select [(GStr "name"); (GStr "locale"); (GExpr (lk_raw "COUNT(*)"))]; (do s2 <- sel_step q1 (SelFrom [(GStr "user")]); (do c3 <- is_null (lk_condition (GStr "disabled")) false; (do s4 <- sel_step s2 (SelWhere c3); (do s5 <- sel_step s4 (SelGroupBy [(GColumn (lk_column "name")); (GColumn (lk_column "locale"))]); Ok (StSelect s5))))))
  "SELECT ""name"", ""locale"", COUNT(*) FROM ""user"" WHERE (""disabled"" IS NOT NULL) GROUP BY ""name"", ""locale"""
  "SELECT ""name"", ""locale"", COUNT(*) FROM ""user"" WHERE (""disabled"" IS NOT NULL) GROUP BY ""name"", ""locale"""
  "SELECT ""name"", ""locale"", COUNT(*) FROM ""user"" WHERE (""disabled"" IS NOT NULL) GROUP BY ""name"", ""locale"""
  [].
Proof. vm_compute. repeat split. Qed.

(* TestSelect_GroupBy Three columns *)
Example TestSelect_GroupBy_Three_columns_0 : renders (do q1 <- lk_select [(GStr "name"); (GStr "locale"); (GStr "country"); (GExpr (lk_raw "COUNT(*)"))]; (do s2 <- sel_step q1 (SelFrom [(GStr "user")]); (do c3 <- is_null (lk_condition (GStr "disabled")) false; (do s4 <- sel_step s2 (SelWhere c3); (do s5 <- sel_step s4 (SelGroupBy [(GStr "name"); (GStr "locale"); (GStr "country")]); Ok (StSelect s5))))))
  "SELECT ""name"", ""locale"", ""country"", COUNT(*) FROM ""user"" WHERE (""disabled"" IS NOT NULL) GROUP BY ""name"", ""locale"", ""country"""
  "SELECT ""name"", ""locale"", ""country"", COUNT(*) FROM ""user"" WHERE (""disabled"" IS NOT NULL) GROUP BY ""name"", ""locale"", ""country"""
  "SELECT ""name"", ""locale"", ""country"", COUNT(*) FROM ""user"" WHERE (""disabled"" IS NOT NULL) GROUP BY ""name"", ""locale"", ""country"""
  [].
Proof. vm_compute. repeat split. Qed.

(* TestSelect_GroupBy Three columns *)
Example TestSelect_GroupBy_Three_columns_1 : renders (do q1 <- lk_select [(GStr "name"); (GStr "locale"); (GStr "country"); (GExpr (lk_raw "COUNT(*)"))]; (do s2 <- sel_step q1 (SelFrom [(GStr "user")]); (do c3 <- is_null (lk_condition (GStr "disabled")) false; (do s4 <- sel_step s2 (SelWhere c3); (do s5 <- sel_step s4 (SelGroupBy [(GColumn (lk_column "name")); (GColumn (lk_column "locale")); (GColumn (lk_column "country"))]); Ok (StSelect s5))))))
  "SELECT ""name"", ""locale"", ""country"", COUNT(*) FROM ""user"" WHERE (""disabled"" IS NOT NULL) GROUP BY ""name"", ""locale"", ""country"""
  "SELECT ""name"", ""locale"", ""country"", COUNT(*) FROM ""user"" WHERE (""disabled"" IS NOT NULL) GROUP BY ""name"", ""locale"", ""country"""
  "SELECT ""name"", ""locale"", ""country"", COUNT(*) FROM ""user"" WHERE (""disabled"" IS NOT NULL) GROUP BY ""name"", ""locale"", ""country"""
  [].
Proof. vm_compute. repeat split. Qed.

(* TestSelect_Having One condition *)
Example TestSelect_Having_One_condition : renders (do q1 <- lk_select [(GStr "name"); (GExpr (lk_raw "COUNT(*)"))]; (do s2 <- sel_step q1 (SelFrom [(GStr "user")]); (do c3 <- is_null (lk_condition (GStr "disabled")) false; (do s4 <- sel_step s2 (SelWhere c3); (do s5 <- sel_step s4 (SelGroupBy [(GStr "name")]); (do c6 <- cmp_expr (new_call "COUNT" [(lk_raw "*")]) OpGreaterThan (GInt KInt (10)); (do s7 <- sel_step s5 (SelHaving c6); Ok (StSelect s7))))))))
  "SELECT ""name"", COUNT(*) FROM ""user"" WHERE (""disabled"" IS NOT NULL) GROUP BY ""name"" HAVING (COUNT(*) > 10)"
  "SELECT ""name"", COUNT(*) FROM ""user"" WHERE (""disabled"" IS NOT NULL) GROUP BY ""name"" HAVING (COUNT(*) > $1)"
  "SELECT ""name"", COUNT(*) FROM ""user"" WHERE (""disabled"" IS NOT NULL) GROUP BY ""name"" HAVING (COUNT(*) > :arg_1)"
  [(GInt KInt (10))].
Proof. vm_compute. repeat split. Qed.

(* TestSelect_Having Two conditions *)
Example TestSelect_Having_Two_conditions : renders (do q1 <- lk_select [(GStr "name"); (GExpr (lk_raw "COUNT(*)"))]; (do s2 <- sel_step q1 (SelFrom [(GStr "user")]); (do c3 <- is_null (lk_condition (GStr "disabled")) false; (do s4 <- sel_step s2 (SelWhere c3); (do s5 <- sel_step s4 (SelGroupBy [(GStr "name")]); (do c6 <- cmp_expr (new_call "COUNT" [(lk_raw "*")]) OpGreaterThan (GInt KInt (10)); (do c7 <- cmp_expr (new_call "COUNT" [(lk_raw "*")]) OpLessThan (GInt KInt (500)); (do s8 <- sel_step s5 (SelHaving (infix_and c6 c7)); Ok (StSelect s8)))))))))
  "SELECT ""name"", COUNT(*) FROM ""user"" WHERE (""disabled"" IS NOT NULL) GROUP BY ""name"" HAVING ((COUNT(*) > 10) AND (COUNT(*) < 500))"
  "SELECT ""name"", COUNT(*) FROM ""user"" WHERE (""disabled"" IS NOT NULL) GROUP BY ""name"" HAVING ((COUNT(*) > $1) AND (COUNT(*) < $2))"
  "SELECT ""name"", COUNT(*) FROM ""user"" WHERE (""disabled"" IS NOT NULL) GROUP BY ""name"" HAVING ((COUNT(*) > :arg_1) AND (COUNT(*) < :arg_2))"
  [(GInt KInt (10)); (GInt KInt (500))].
Proof. vm_compute. repeat split. Qed.

(* TestSelect_OrderBy With order asc *)
Example TestSelect_OrderBy_With_order_asc_0 : renders (do q1 <- lk_select [(GStr "name")]; (do s2 <- sel_step q1 (SelFrom [(GStr "user")]); (do s3 <- sel_step s2 (SelOrderBy [(lk_order "id" [])]); Ok (StSelect s3))))
  "SELECT ""name"" FROM ""user"" ORDER BY id ASC"
  "SELECT ""name"" FROM ""user"" ORDER BY id ASC"
  "SELECT ""name"" FROM ""user"" ORDER BY id ASC"
  [].
Proof. vm_compute. repeat split. Qed.

(* TestSelect_OrderBy With order asc *)
Example TestSelect_OrderBy_With_order_asc_1 : renders (do q1 <- lk_select [(GStr "name")]; (do s2 <- sel_step q1 (SelFrom [(GStr "user")]); (do s3 <- sel_step s2 (SelOrderBy [(lk_order "id" ["ASC"])]); Ok (StSelect s3))))
  "SELECT ""name"" FROM ""user"" ORDER BY id ASC"
  "SELECT ""name"" FROM ""user"" ORDER BY id ASC"
  "SELECT ""name"" FROM ""user"" ORDER BY id ASC"
  [].
Proof. vm_compute. repeat split. Qed.

(* TestSelect_OrderBy With order asc *)
Example TestSelect_OrderBy_With_order_asc_2 : renders (do q1 <- lk_select [(GStr "name")]; (do s2 <- sel_step q1 (SelFrom [(GStr "user")]); (do s3 <- sel_step s2 (SelOrderBy [(column_order (lk_column "id") "ASC")]); Ok (StSelect s3))))
  "SELECT ""name"" FROM ""user"" ORDER BY id ASC"
  "SELECT ""name"" FROM ""user"" ORDER BY id ASC"
  "SELECT ""name"" FROM ""user"" ORDER BY id ASC"
  [].
Proof. vm_compute. repeat split. Qed.

(* TestSelect_OrderBy With order desc *)
Example TestSelect_OrderBy_With_order_desc_0 : renders (do q1 <- lk_select [(GStr "name")]; (do s2 <- sel_step q1 (SelFrom [(GStr "user")]); (do s3 <- sel_step s2 (SelOrderBy [(lk_order "id" ["DESC"])]); Ok (StSelect s3))))
  "SELECT ""name"" FROM ""user"" ORDER BY id DESC"
  "SELECT ""name"" FROM ""user"" ORDER BY id DESC"
  "SELECT ""name"" FROM ""user"" ORDER BY id DESC"
  [].
Proof. vm_compute. repeat split. Qed.

(* TestSelect_OrderBy With order desc *)
Example TestSelect_OrderBy_With_order_desc_1 : renders (do q1 <- lk_select [(GStr "name")]; (do s2 <- sel_step q1 (SelFrom [(GStr "user")]); (do s3 <- sel_step s2 (SelOrderBy [(column_order (lk_column "id") "DESC")]); Ok (StSelect s3))))
  "SELECT ""name"" FROM ""user"" ORDER BY id DESC"
  "SELECT ""name"" FROM ""user"" ORDER BY id DESC"
  "SELECT ""name"" FROM ""user"" ORDER BY id DESC"
  [].
Proof. vm_compute. repeat split. Qed.

(* TestSelect_OrderBy With order desc and asc *)
Example TestSelect_OrderBy_With_order_desc_and_asc_0 : renders (do q1 <- lk_select [(GStr "name")]; (do s2 <- sel_step q1 (SelFrom [(GStr "user")]); (do s3 <- sel_step s2 (SelOrderBy [(lk_order "locale" []); (lk_order "id" ["DESC"])]); Ok (StSelect s3))))
  "SELECT ""name"" FROM ""user"" ORDER BY locale ASC, id DESC"
  "SELECT ""name"" FROM ""user"" ORDER BY locale ASC, id DESC"
  "SELECT ""name"" FROM ""user"" ORDER BY locale ASC, id DESC"
  [].
Proof. vm_compute. repeat split. Qed.

(* TestSelect_OrderBy With order desc and asc *)
Example TestSelect_OrderBy_With_order_desc_and_asc_1 : renders (do q1 <- lk_select [(GStr "name")]; (do s2 <- sel_step q1 (SelFrom [(GStr "user")]); (do s3 <- sel_step s2 (SelOrderBy [(lk_order "locale" [])]); (do s4 <- sel_step s3 (SelOrderBy [(lk_order "id" ["DESC"])]); Ok (StSelect s4)))))
  "SELECT ""name"" FROM ""user"" ORDER BY locale ASC, id DESC"
  "SELECT ""name"" FROM ""user"" ORDER BY locale ASC, id DESC"
  "SELECT ""name"" FROM ""user"" ORDER BY locale ASC, id DESC"
  [].
Proof. vm_compute. repeat split. Qed.

(* TestSelect_OrderBy With order desc and asc *)
Example TestSelect_OrderBy_With_order_desc_and_asc_2 : renders (do q1 <- lk_select [(GStr "name")]; (do s2 <- sel_step q1 (SelFrom [(GStr "user")]); (do s3 <- sel_step s2 (SelOrderBy [(column_order (lk_column "locale") "ASC"); (column_order (lk_column "id") "DESC")]); Ok (StSelect s3))))
  "SELECT ""name"" FROM ""user"" ORDER BY locale ASC, id DESC"
  "SELECT ""name"" FROM ""user"" ORDER BY locale ASC, id DESC"
  "SELECT ""name"" FROM ""user"" ORDER BY locale ASC, id DESC"
  [].
Proof. vm_compute. repeat split. Qed.

(* TestSelect_OrderBy With order desc and asc *)
Example TestSelect_OrderBy_With_order_desc_and_asc_3 : renders (do q1 <- lk_select [(GStr "name")]; (do s2 <- sel_step q1 (SelFrom [(GStr "user")]); (do s3 <- sel_step s2 (SelOrderBy [(column_order (lk_column "locale") "ASC")]); (do s4 <- sel_step s3 (SelOrderBy [(column_order (lk_column "id") "DESC")]); Ok (StSelect s4)))))
  "SELECT ""name"" FROM ""user"" ORDER BY locale ASC, id DESC"
  "SELECT ""name"" FROM ""user"" ORDER BY locale ASC, id DESC"
  "SELECT ""name"" FROM ""user"" ORDER BY locale ASC, id DESC"
  [].
Proof. vm_compute. repeat split. Qed.

(* TestSelect_Limit int 10 *)
Example TestSelect_Limit_int_10 : renders (do q1 <- lk_select [(GStr "name")]; (do s2 <- sel_step q1 (SelFrom [(GStr "user")]); (do s3 <- sel_step s2 (SelLimit (GInt KInt (10))); Ok (StSelect s3))))
  "SELECT ""name"" FROM ""user"" LIMIT 10"
  "SELECT ""name"" FROM ""user"" LIMIT 10"
  "SELECT ""name"" FROM ""user"" LIMIT 10"
  [].
Proof. vm_compute. repeat split. Qed.

(* TestSelect_Limit string 50 *)
Example TestSelect_Limit_string_50 : renders (do q1 <- lk_select [(GStr "name")]; (do s2 <- sel_step q1 (SelFrom [(GStr "user")]); (do s3 <- sel_step s2 (SelLimit (GStr "50")); Ok (StSelect s3))))
  "SELECT ""name"" FROM ""user"" LIMIT 50"
  "SELECT ""name"" FROM ""user"" LIMIT 50"
  "SELECT ""name"" FROM ""user"" LIMIT 50"
  [].
Proof. vm_compute. repeat split. Qed.

(* TestSelect_Limit uint64 700 *)
Example TestSelect_Limit_uint64_700 : renders (do q1 <- lk_select [(GStr "name")]; (do s2 <- sel_step q1 (SelFrom [(GStr "user")]); (do s3 <- sel_step s2 (SelLimit (GInt KUint64 (700))); Ok (StSelect s3))))
  "SELECT ""name"" FROM ""user"" LIMIT 700"
  "SELECT ""name"" FROM ""user"" LIMIT 700"
  "SELECT ""name"" FROM ""user"" LIMIT 700"
  [].
Proof. vm_compute. repeat split. Qed.

(* TestSelect_Limit Corner case 0 *)
Example TestSelect_Limit_Corner_case_0 : fails (do q1 <- lk_select [(GStr "name")]; (do s2 <- sel_step q1 (SelFrom [(GStr "user")]); (do s3 <- sel_step s2 (SelLimit (GFloat F64 7002)); Ok (StSelect s3)))).
Proof. vm_compute. repeat split. Qed.

(* TestSelect_Limit Corner case 1 *)
Example TestSelect_Limit_Corner_case_1 : fails (do q1 <- lk_select [(GStr "name")]; (do s2 <- sel_step q1 (SelFrom [(GStr "user")]); (do s3 <- sel_step s2 (SelLimit (GFloat F32 7002)); Ok (StSelect s3)))).
Proof. vm_compute. repeat split. Qed.

(* TestSelect_Limit Corner case 2 *)
Example TestSelect_Limit_Corner_case_2 : fails (do q1 <- lk_select [(GStr "name")]; (do s2 <- sel_step q1 (SelFrom [(GStr "user")]); (do s3 <- sel_step s2 (SelLimit (GInt KInt (-700))); Ok (StSelect s3)))).
Proof. vm_compute. repeat split. Qed.

(* TestSelect_Offset int 10 *)
Example TestSelect_Offset_int_10 : renders (do q1 <- lk_select [(GStr "name")]; (do s2 <- sel_step q1 (SelFrom [(GStr "user")]); (do s3 <- sel_step s2 (SelOffset (GInt KInt (10))); Ok (StSelect s3))))
  "SELECT ""name"" FROM ""user"" OFFSET 10"
  "SELECT ""name"" FROM ""user"" OFFSET 10"
  "SELECT ""name"" FROM ""user"" OFFSET 10"
  [].
Proof. vm_compute. repeat split. Qed.

(* TestSelect_Offset string 50 *)
Example TestSelect_Offset_string_50 : renders (do q1 <- lk_select [(GStr "name")]; (do s2 <- sel_step q1 (SelFrom [(GStr "user")]); (do s3 <- sel_step s2 (SelOffset (GStr "50")); Ok (StSelect s3))))
  "SELECT ""name"" FROM ""user"" OFFSET 50"
  "SELECT ""name"" FROM ""user"" OFFSET 50"
  "SELECT ""name"" FROM ""user"" OFFSET 50"
  [].
Proof. vm_compute. repeat split. Qed.

(* TestSelect_Offset uint64 700 *)
Example TestSelect_Offset_uint64_700 : renders (do q1 <- lk_select [(GStr "name")]; (do s2 <- sel_step q1 (SelFrom [(GStr "user")]); (do s3 <- sel_step s2 (SelOffset (GInt KUint64 (700))); Ok (StSelect s3))))
  "SELECT ""name"" FROM ""user"" OFFSET 700"
  "SELECT ""name"" FROM ""user"" OFFSET 700"
  "SELECT ""name"" FROM ""user"" OFFSET 700"
  [].
Proof. vm_compute. repeat split. Qed.

(* TestSelect_Offset Corner case 0 *)
Example TestSelect_Offset_Corner_case_0 : fails (do q1 <- lk_select [(GStr "name")]; (do s2 <- sel_step q1 (SelFrom [(GStr "user")]); (do s3 <- sel_step s2 (SelOffset (GFloat F64 7002)); Ok (StSelect s3)))).
Proof. vm_compute. repeat split. Qed.

(* TestSelect_Offset Corner case 1 *)
Example TestSelect_Offset_Corner_case_1 : fails (do q1 <- lk_select [(GStr "name")]; (do s2 <- sel_step q1 (SelFrom [(GStr "user")]); (do s3 <- sel_step s2 (SelOffset (GFloat F32 7002)); Ok (StSelect s3)))).
Proof. vm_compute. repeat split. Qed.

(* TestSelect_Offset Corner case 2 *)
Example TestSelect_Offset_Corner_case_2 : fails (do q1 <- lk_select [(GStr "name")]; (do s2 <- sel_step q1 (SelFrom [(GStr "user")]); (do s3 <- sel_step s2 (SelOffset (GInt KInt (-700))); Ok (StSelect s3)))).
Proof. vm_compute. repeat split. Qed.

(* TestSelect_With Count with simple with statement *)
Example TestSelect_With_Count_with_simple_with_statement : renders (do q1 <- lk_select [(GExpr (lk_raw "AVG(COUNT)"))]; (do s2 <- sel_step q1 (SelFrom [(GStr "members")]); (do q3 <- lk_select [(GExpr (lk_raw "COUNT(*)"))]; (do s4 <- sel_step q3 (SelFrom [(GStr "table")]); (do c5 <- is_null (lk_condition (GStr "deleted_at")) true; (do s6 <- sel_step s4 (SelWhere c5); (do s7 <- sel_step s6 (SelGroupBy [(GStr "group_id")]); (do w8 <- lk_with "members" (g_select s7); (do s9 <- sel_step s2 (SelWith [w8]); Ok (StSelect s9))))))))))
  "WITH members AS (SELECT COUNT(*) FROM ""table"" WHERE (""deleted_at"" IS NULL) GROUP BY ""group_id"") SELECT AVG(COUNT) FROM ""members"""
  "WITH members AS (SELECT COUNT(*) FROM ""table"" WHERE (""deleted_at"" IS NULL) GROUP BY ""group_id"") SELECT AVG(COUNT) FROM ""members"""
  "WITH members AS (SELECT COUNT(*) FROM ""table"" WHERE (""deleted_at"" IS NULL) GROUP BY ""group_id"") SELECT AVG(COUNT) FROM ""members"""
  [].
Proof. vm_compute. repeat split. Qed.

(* TestSelect_With Sum with simple with statement *)
Example TestSelect_With_Sum_with_simple_with_statement : renders (do q1 <- lk_select [(GExpr (lk_raw "SUM(project.amount_raised - withdrawn.amount)"))]; (do s2 <- sel_step q1 (SelFrom [(GStr "project")]); (do s3 <- sel_step s2 (SelJoin [(GStr "withdrawn"); (GExpr (lk_on "withdrawn.project_id" "project.id")); (GJoinType "LEFT JOIN")]); (do q4 <- lk_select [(GExpr (lk_raw "SUM(amount) AS amount")); (GStr "project_id")]; (do s5 <- sel_step q4 (SelFrom [(GStr "withdrawal")]); (do s6 <- sel_step s5 (SelGroupBy [(GStr "project_id")]); (do w7 <- lk_with "withdrawn" (g_select s6); (do s8 <- sel_step s3 (SelWith [w7]); (do c9 <- cmp_expr (lk_condition (GStr "project.amount_raised")) OpGreaterThan (GInt KInt (0)); (do s10 <- sel_step s8 (SelWhere c9); (do c11 <- is_null (lk_condition (GStr "project.deleted_at")) true; (do s12 <- sel_step s10 (SelWhere c11); (do c13 <- cmp_expr (lk_condition (GStr "project.amount_raised")) OpGreaterThan (GExpr (lk_raw "withdrawn.amount")); (do s14 <- sel_step s12 (SelWhere c13); Ok (StSelect s14)))))))))))))))
  "WITH withdrawn AS (SELECT SUM(amount) AS amount, ""project_id"" FROM ""withdrawal"" GROUP BY ""project_id"") SELECT SUM(project.amount_raised - withdrawn.amount) FROM ""project"" LEFT JOIN ""withdrawn"" ON ""withdrawn"".""project_id"" = ""project"".""id"" WHERE (((""project"".""amount_raised"" > 0) AND (""project"".""deleted_at"" IS NULL)) AND (""project"".""amount_raised"" > withdrawn.amount))"
  "WITH withdrawn AS (SELECT SUM(amount) AS amount, ""project_id"" FROM ""withdrawal"" GROUP BY ""project_id"") SELECT SUM(project.amount_raised - withdrawn.amount) FROM ""project"" LEFT JOIN ""withdrawn"" ON ""withdrawn"".""project_id"" = ""project"".""id"" WHERE (((""project"".""amount_raised"" > $1) AND (""project"".""deleted_at"" IS NULL)) AND (""project"".""amount_raised"" > withdrawn.amount))"
  "WITH withdrawn AS (SELECT SUM(amount) AS amount, ""project_id"" FROM ""withdrawal"" GROUP BY ""project_id"") SELECT SUM(project.amount_raised - withdrawn.amount) FROM ""project"" LEFT JOIN ""withdrawn"" ON ""withdrawn"".""project_id"" = ""project"".""id"" WHERE (((""project"".""amount_raised"" > :arg_1) AND (""project"".""deleted_at"" IS NULL)) AND (""project"".""amount_raised"" > withdrawn.amount))"
  [(GInt KInt (0))].
Proof. vm_compute. repeat split. Qed.

(* TestSelect_With Multiple with statement *)
Example TestSelect_With_Multiple_with_statement : renders (do q1 <- lk_select [(GExpr (lk_raw "SUM(project.amount_raised - withdrawn.amount)"))]; (do s2 <- sel_step q1 (SelFrom [(GStr "project")]); (do q3 <- lk_select [(GExpr (lk_raw "SUM(amount) AS amount")); (GStr "project_id")]; (do s4 <- sel_step q3 (SelFrom [(GStr "withdrawal")]); (do s5 <- sel_step s4 (SelGroupBy [(GStr "project_id")]); (do w6 <- lk_with "withdrawn" (g_select s5); (do s7 <- sel_step s2 (SelWith [w6]); (do q8 <- lk_select [(GExpr (lk_raw "COUNT(*) AS count")); (GStr "project_id")]; (do s9 <- sel_step q8 (SelFrom [(GStr "contribution")]); (do s10 <- sel_step s9 (SelGroupBy [(GStr "project_id")]); (do w11 <- lk_with "contributions" (g_select s10); (do s12 <- sel_step s7 (SelWith [w11]); (do s13 <- sel_step s12 (SelJoin [(GStr "withdrawn"); (GExpr (lk_on "withdrawn.project_id" "project.id")); (GJoinType "LEFT JOIN")]); (do s14 <- sel_step s13 (SelJoin [(GStr "contributions"); (GExpr (lk_on "contributions.project_id" "project.id")); (GJoinType "LEFT JOIN")]); (do c15 <- cmp_expr (lk_condition (GStr "project.amount_raised")) OpGreaterThan (GInt KInt (0)); (do s16 <- sel_step s14 (SelWhere c15); (do c17 <- cmp_expr (lk_condition (GStr "contributions.count")) OpGreaterThan (GInt KInt (10)); (do s18 <- sel_step s16 (SelWhere c17); (do c19 <- is_null (lk_condition (GStr "project.deleted_at")) true; (do s20 <- sel_step s18 (SelWhere c19); (do c21 <- cmp_expr (lk_condition (GStr "project.amount_raised")) OpGreaterThan (GExpr (lk_raw "withdrawn.amount")); (do s22 <- sel_step s20 (SelWhere c21); Ok (StSelect s22)))))))))))))))))))))))
  "WITH withdrawn AS (SELECT SUM(amount) AS amount, ""project_id"" FROM ""withdrawal"" GROUP BY ""project_id""), contributions AS (SELECT COUNT(*) AS count, ""project_id"" FROM ""contribution"" GROUP BY ""project_id"") SELECT SUM(project.amount_raised - withdrawn.amount) FROM ""project"" LEFT JOIN ""withdrawn"" ON ""withdrawn"".""project_id"" = ""project"".""id"" LEFT JOIN ""contributions"" ON ""contributions"".""project_id"" = ""project"".""id"" WHERE ((((""project"".""amount_raised"" > 0) AND (""contributions"".""count"" > 10)) AND (""project"".""deleted_at"" IS NULL)) AND (""project"".""amount_raised"" > withdrawn.amount))"
  "WITH withdrawn AS (SELECT SUM(amount) AS amount, ""project_id"" FROM ""withdrawal"" GROUP BY ""project_id""), contributions AS (SELECT COUNT(*) AS count, ""project_id"" FROM ""contribution"" GROUP BY ""project_id"") SELECT SUM(project.amount_raised - withdrawn.amount) FROM ""project"" LEFT JOIN ""withdrawn"" ON ""withdrawn"".""project_id"" = ""project"".""id"" LEFT JOIN ""contributions"" ON ""contributions"".""project_id"" = ""project"".""id"" WHERE ((((""project"".""amount_raised"" > $1) AND (""contributions"".""count"" > $2)) AND (""project"".""deleted_at"" IS NULL)) AND (""project"".""amount_raised"" > withdrawn.amount))"
  "WITH withdrawn AS (SELECT SUM(amount) AS amount, ""project_id"" FROM ""withdrawal"" GROUP BY ""project_id""), contributions AS (SELECT COUNT(*) AS count, ""project_id"" FROM ""contribution"" GROUP BY ""project_id"") SELECT SUM(project.amount_raised - withdrawn.amount) FROM ""project"" LEFT JOIN ""withdrawn"" ON ""withdrawn"".""project_id"" = ""project"".""id"" LEFT JOIN ""contributions"" ON ""contributions"".""project_id"" = ""project"".""id"" WHERE ((((""project"".""amount_raised"" > :arg_1) AND (""contributions"".""count"" > :arg_2)) AND (""project"".""deleted_at"" IS NULL)) AND (""project"".""amount_raised"" > withdrawn.amount))"
  [(GInt KInt (0)); (GInt KInt (10))].
Proof. vm_compute. repeat split. Qed.

(* TestSelect_Extra Prefix *)
Example TestSelect_Extra_Prefix : renders (do q1 <- lk_select [(GStr "name")]; (do s2 <- sel_step q1 (SelFrom [(GStr "user")]); (do s3 <- sel_step s2 (SelPrefix (GStr "EXPLAIN ANALYZE")); Ok (StSelect s3))))
  "EXPLAIN ANALYZE SELECT ""name"" FROM ""user"""
  "EXPLAIN ANALYZE SELECT ""name"" FROM ""user"""
  "EXPLAIN ANALYZE SELECT ""name"" FROM ""user"""
  [].
Proof. vm_compute. repeat split. Qed.

(* TestSelect_Extra Suffix *)
Example TestSelect_Extra_Suffix : renders (do q1 <- lk_select [(GStr "name")]; (do s2 <- sel_step q1 (SelFrom [(GStr "user")]); (do s3 <- sel_step s2 (SelSuffix (GStr "FOR UPDATE")); Ok (StSelect s3))))
  "SELECT ""name"" FROM ""user"" FOR UPDATE"
  "SELECT ""name"" FROM ""user"" FOR UPDATE"
  "SELECT ""name"" FROM ""user"" FOR UPDATE"
  [].
Proof. vm_compute. repeat split. Qed.

(* TestSelect_RawValue Prefix *)
Example TestSelect_RawValue_Prefix : renders (do q1 <- lk_select [(GStr "name")]; (do s2 <- sel_step q1 (SelFrom [(GStr "user")]); (do c3 <- cmp_expr (lk_condition (GExpr (lk_raw "COALESCE(contributed_at, created_at)"))) OpEqual (GStr "2021-09-13"); (do s4 <- sel_step s2 (SelWhere c3); Ok (StSelect s4)))))
  "SELECT ""name"" FROM ""user"" WHERE (COALESCE(contributed_at, created_at) = '2021-09-13')"
  "SELECT ""name"" FROM ""user"" WHERE (COALESCE(contributed_at, created_at) = $1)"
  "SELECT ""name"" FROM ""user"" WHERE (COALESCE(contributed_at, created_at) = :arg_1)"
  [(GStr "2021-09-13")].
Proof. vm_compute. repeat split. Qed.
