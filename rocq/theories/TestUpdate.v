(* The unit tests of builder/update_test.go, run on the model. Each example is one entry of the tables of that file:
   the builder expression written with the functions of the model, and the expected texts and
   arguments. Machine-translated. These are tests: they check the model, they prove no property. *)
From Coq Require Import String List ZArith.
From Verif Require Import Ast Format Ctx Write Api Parser Build Sort Harness.
Import ListNotations.
Local Open Scope string_scope.
Local Open Scope list_scope.
Local Open Scope Z_scope.
#[local] Existing Instance go_oracle.

(* TestUpdate_Set_Undefined panic if set clause is empty 0 *)
Example TestUpdate_Set_Undefined_panic_if_set_clause_is_empty_0 : fails (do u1 <- lk_update (GStr "table"); Ok (StUpdate u1)).
Proof. vm_compute. repeat split. Qed.

(* TestUpdate_Set_Undefined panic if set clause is empty 1 *)
Example TestUpdate_Set_Undefined_panic_if_set_clause_is_empty_1 : fails (do u1 <- lk_update (GStr "table"); (do u2 <- upd_step u1 (UpdSet [(GStr "")]); Ok (StUpdate u2))).
Proof. vm_compute. repeat split. Qed.

(* TestUpdate_Comment Complex *)
Example TestUpdate_Comment_Complex : renders (do u1 <- lk_update (GStr "users"); (do u2 <- upd_step u1 (UpdSet [(GPair (GStr "username") (GStr "novln"))]); (do c3 <- cmp_expr (lk_condition (GStr "username")) OpEqual (GStr "thoas"); (do u4 <- upd_step u2 (UpdWhere c3); (do u5 <- upd_step u4 (UpdComment "/foo"); Ok (StUpdate u5))))))
  "UPDATE ""users"" SET ""username"" = 'novln' WHERE (""username"" = 'thoas'); -- /foo"
  "UPDATE ""users"" SET ""username"" = $1 WHERE (""username"" = $2); -- /foo"
  "UPDATE ""users"" SET ""username"" = :arg_1 WHERE (""username"" = :arg_2); -- /foo"
  [(GStr "novln"); (GStr "thoas")].
Proof. vm_compute. repeat split. Qed.

(* TestUpdate_Set_Map Set variadic *)
Example TestUpdate_Set_Map_Set_variadic_0 : renders (do u1 <- lk_update (GStr "table"); (do u2 <- upd_step u1 (UpdSet [(GMap [((GStr "a"), (GInt KInt (1))); ((GStr "b"), (GInt KInt (2)))]); (GMap [((GStr "c"), (GInt KInt (3))); ((GStr "d"), (GInt KInt (4)))])]); Ok (StUpdate u2)))
  "UPDATE ""table"" SET ""a"" = 1, ""b"" = 2, ""c"" = 3, ""d"" = 4"
  "UPDATE ""table"" SET ""a"" = $1, ""b"" = $2, ""c"" = $3, ""d"" = $4"
  "UPDATE ""table"" SET ""a"" = :arg_1, ""b"" = :arg_2, ""c"" = :arg_3, ""d"" = :arg_4"
  [(GInt KInt (1)); (GInt KInt (2)); (GInt KInt (3)); (GInt KInt (4))].
Proof. vm_compute. repeat split. Qed.

(* TestUpdate_Set_Map Set variadic *)
Example TestUpdate_Set_Map_Set_variadic_1 : renders (do u1 <- lk_update (GStr "table"); (do u2 <- upd_step u1 (UpdSet [(GMapAny [("a", (GInt KInt (1))); ("b", (GInt KInt (2)))]); (GMapAny [("c", (GInt KInt (3))); ("d", (GInt KInt (4)))])]); Ok (StUpdate u2)))
  "UPDATE ""table"" SET ""a"" = 1, ""b"" = 2, ""c"" = 3, ""d"" = 4"
  "UPDATE ""table"" SET ""a"" = $1, ""b"" = $2, ""c"" = $3, ""d"" = $4"
  "UPDATE ""table"" SET ""a"" = :arg_1, ""b"" = :arg_2, ""c"" = :arg_3, ""d"" = :arg_4"
  [(GInt KInt (1)); (GInt KInt (2)); (GInt KInt (3)); (GInt KInt (4))].
Proof. vm_compute. repeat split. Qed.

(* TestUpdate_Set_Map With column instance *)
Example TestUpdate_Set_Map_With_column_instance : renders (do u1 <- lk_update (GStr "table"); (do u2 <- upd_step u1 (UpdSet [(GMap [((GColumn (lk_column "foo")), (GInt KInt (2))); ((GStr "a"), (GInt KInt (1)))])]); Ok (StUpdate u2)))
  "UPDATE ""table"" SET ""a"" = 1, ""foo"" = 2"
  "UPDATE ""table"" SET ""a"" = $1, ""foo"" = $2"
  "UPDATE ""table"" SET ""a"" = :arg_1, ""foo"" = :arg_2"
  [(GInt KInt (1)); (GInt KInt (2))].
Proof. vm_compute. repeat split. Qed.

(* TestUpdate_Set_Map Multiple Set() calls with *)
Example TestUpdate_Set_Map_Multiple_Set_calls_with_0 : renders (do u1 <- lk_update (GStr "table"); (do u2 <- upd_step u1 (UpdSet [(GMap [((GStr "a"), (GInt KInt (1)))])]); (do u3 <- upd_step u2 (UpdSet [(GMap [((GStr "b"), (GInt KInt (2)))])]); (do u4 <- upd_step u3 (UpdSet [(GMap [((GStr "c"), (GInt KInt (3)))])]); (do u5 <- upd_step u4 (UpdSet [(GMap [((GStr "d"), (GInt KInt (4))); ((GStr "e"), (GInt KInt (5)))])]); Ok (StUpdate u5))))))
  "UPDATE ""table"" SET ""a"" = 1, ""b"" = 2, ""c"" = 3, ""d"" = 4, ""e"" = 5"
  "UPDATE ""table"" SET ""a"" = $1, ""b"" = $2, ""c"" = $3, ""d"" = $4, ""e"" = $5"
  "UPDATE ""table"" SET ""a"" = :arg_1, ""b"" = :arg_2, ""c"" = :arg_3, ""d"" = :arg_4, ""e"" = :arg_5"
  [(GInt KInt (1)); (GInt KInt (2)); (GInt KInt (3)); (GInt KInt (4)); (GInt KInt (5))].
Proof. vm_compute. repeat split. Qed.

(* TestUpdate_Set_Map Multiple Set() calls with *)
Example TestUpdate_Set_Map_Multiple_Set_calls_with_1 : renders (do u1 <- lk_update (GStr "table"); (do u2 <- upd_step u1 (UpdSet [(GMapAny [("a", (GInt KInt (1)))])]); (do u3 <- upd_step u2 (UpdSet [(GMapAny [("b", (GInt KInt (2)))])]); (do u4 <- upd_step u3 (UpdSet [(GMapAny [("c", (GInt KInt (3)))])]); (do u5 <- upd_step u4 (UpdSet [(GMapAny [("d", (GInt KInt (4))); ("e", (GInt KInt (5)))])]); Ok (StUpdate u5))))))
  "UPDATE ""table"" SET ""a"" = 1, ""b"" = 2, ""c"" = 3, ""d"" = 4, ""e"" = 5"
  "UPDATE ""table"" SET ""a"" = $1, ""b"" = $2, ""c"" = $3, ""d"" = $4, ""e"" = $5"
  "UPDATE ""table"" SET ""a"" = :arg_1, ""b"" = :arg_2, ""c"" = :arg_3, ""d"" = :arg_4, ""e"" = :arg_5"
  [(GInt KInt (1)); (GInt KInt (2)); (GInt KInt (3)); (GInt KInt (4)); (GInt KInt (5))].
Proof. vm_compute. repeat split. Qed.

(* TestUpdate_Set_Map Multiple Set() calls with *)
Example TestUpdate_Set_Map_Multiple_Set_calls_with_2 : renders (do u1 <- lk_update (GStr "table"); (do u2 <- upd_step u1 (UpdSet [(GMap [((GStr "a"), (GInt KInt (1)))])]); (do u3 <- upd_step u2 (UpdSet [(GMapAny [("b", (GInt KInt (2)))])]); (do u4 <- upd_step u3 (UpdSet [(GMap [((GStr "c"), (GInt KInt (3)))])]); (do u5 <- upd_step u4 (UpdSet [(GMapAny [("d", (GInt KInt (4))); ("e", (GInt KInt (5)))])]); Ok (StUpdate u5))))))
  "UPDATE ""table"" SET ""a"" = 1, ""b"" = 2, ""c"" = 3, ""d"" = 4, ""e"" = 5"
  "UPDATE ""table"" SET ""a"" = $1, ""b"" = $2, ""c"" = $3, ""d"" = $4, ""e"" = $5"
  "UPDATE ""table"" SET ""a"" = :arg_1, ""b"" = :arg_2, ""c"" = :arg_3, ""d"" = :arg_4, ""e"" = :arg_5"
  [(GInt KInt (1)); (GInt KInt (2)); (GInt KInt (3)); (GInt KInt (4)); (GInt KInt (5))].
Proof. vm_compute. repeat split. Qed.

(* TestUpdate_Set_Map_Uniqueness Simple *)
Example TestUpdate_Set_Map_Uniqueness_Simple_0 : renders (do u1 <- lk_update (GStr "table"); (do u2 <- upd_step u1 (UpdSet [(GMap [((GStr "a"), (GInt KInt (1))); ((GStr "b"), (GInt KInt (2)))]); (GMap [((GStr "b"), (GInt KInt (2)))])]); Ok (StUpdate u2)))
  "UPDATE ""table"" SET ""a"" = 1, ""b"" = 2"
  "UPDATE ""table"" SET ""a"" = $1, ""b"" = $2"
  "UPDATE ""table"" SET ""a"" = :arg_1, ""b"" = :arg_2"
  [(GInt KInt (1)); (GInt KInt (2))].
Proof. vm_compute. repeat split. Qed.

(* TestUpdate_Set_Map_Uniqueness Simple *)
Example TestUpdate_Set_Map_Uniqueness_Simple_1 : renders (do u1 <- lk_update (GStr "table"); (do u2 <- upd_step u1 (UpdSet [(GMapAny [("a", (GInt KInt (1))); ("b", (GInt KInt (2)))]); (GMapAny [("b", (GInt KInt (2)))])]); Ok (StUpdate u2)))
  "UPDATE ""table"" SET ""a"" = 1, ""b"" = 2"
  "UPDATE ""table"" SET ""a"" = $1, ""b"" = $2"
  "UPDATE ""table"" SET ""a"" = :arg_1, ""b"" = :arg_2"
  [(GInt KInt (1)); (GInt KInt (2))].
Proof. vm_compute. repeat split. Qed.

(* TestUpdate_Set_Map_Uniqueness Simple *)
Example TestUpdate_Set_Map_Uniqueness_Simple_2 : renders (do u1 <- lk_update (GStr "table"); (do u2 <- upd_step u1 (UpdSet [(GMap [((GStr "a"), (GInt KInt (1))); ((GStr "b"), (GInt KInt (2)))])]); (do u3 <- upd_step u2 (UpdSet [(GMap [((GStr "b"), (GInt KInt (2)))])]); Ok (StUpdate u3))))
  "UPDATE ""table"" SET ""a"" = 1, ""b"" = 2"
  "UPDATE ""table"" SET ""a"" = $1, ""b"" = $2"
  "UPDATE ""table"" SET ""a"" = :arg_1, ""b"" = :arg_2"
  [(GInt KInt (1)); (GInt KInt (2))].
Proof. vm_compute. repeat split. Qed.

(* TestUpdate_Set_Map_Uniqueness Simple *)
Example TestUpdate_Set_Map_Uniqueness_Simple_3 : renders (do u1 <- lk_update (GStr "table"); (do u2 <- upd_step u1 (UpdSet [(GMapAny [("a", (GInt KInt (1))); ("b", (GInt KInt (2)))])]); (do u3 <- upd_step u2 (UpdSet [(GMapAny [("b", (GInt KInt (2)))])]); Ok (StUpdate u3))))
  "UPDATE ""table"" SET ""a"" = 1, ""b"" = 2"
  "UPDATE ""table"" SET ""a"" = $1, ""b"" = $2"
  "UPDATE ""table"" SET ""a"" = :arg_1, ""b"" = :arg_2"
  [(GInt KInt (1)); (GInt KInt (2))].
Proof. vm_compute. repeat split. Qed.

(* TestUpdate_Set_Map_Uniqueness Simple *)
Example TestUpdate_Set_Map_Uniqueness_Simple_4 : renders (do u1 <- lk_update (GStr "table"); (do u2 <- upd_step u1 (UpdSet [(GMap [((GStr "a"), (GInt KInt (1))); ((GStr "b"), (GInt KInt (2)))])]); (do u3 <- upd_step u2 (UpdSet [(GMapAny [("b", (GInt KInt (2)))])]); Ok (StUpdate u3))))
  "UPDATE ""table"" SET ""a"" = 1, ""b"" = 2"
  "UPDATE ""table"" SET ""a"" = $1, ""b"" = $2"
  "UPDATE ""table"" SET ""a"" = :arg_1, ""b"" = :arg_2"
  [(GInt KInt (1)); (GInt KInt (2))].
Proof. vm_compute. repeat split. Qed.

(* TestUpdate_Set_Map_LastWriteWins Simple *)
Example TestUpdate_Set_Map_LastWriteWins_Simple_0 : renders (do u1 <- lk_update (GStr "table"); (do u2 <- upd_step u1 (UpdSet [(GMap [((GStr "a"), (GInt KInt (1))); ((GStr "b"), (GInt KInt (2)))]); (GMap [((GStr "a"), (GInt KInt (3)))])]); Ok (StUpdate u2)))
  "UPDATE ""table"" SET ""a"" = 3, ""b"" = 2"
  "UPDATE ""table"" SET ""a"" = $1, ""b"" = $2"
  "UPDATE ""table"" SET ""a"" = :arg_1, ""b"" = :arg_2"
  [(GInt KInt (3)); (GInt KInt (2))].
Proof. vm_compute. repeat split. Qed.

(* TestUpdate_Set_Map_LastWriteWins Simple *)
Example TestUpdate_Set_Map_LastWriteWins_Simple_1 : renders (do u1 <- lk_update (GStr "table"); (do u2 <- upd_step u1 (UpdSet [(GMapAny [("a", (GInt KInt (1))); ("b", (GInt KInt (2)))]); (GMapAny [("a", (GInt KInt (3)))])]); Ok (StUpdate u2)))
  "UPDATE ""table"" SET ""a"" = 3, ""b"" = 2"
  "UPDATE ""table"" SET ""a"" = $1, ""b"" = $2"
  "UPDATE ""table"" SET ""a"" = :arg_1, ""b"" = :arg_2"
  [(GInt KInt (3)); (GInt KInt (2))].
Proof. vm_compute. repeat split. Qed.

(* TestUpdate_Set_Map_LastWriteWins Simple *)
Example TestUpdate_Set_Map_LastWriteWins_Simple_2 : renders (do u1 <- lk_update (GStr "table"); (do u2 <- upd_step u1 (UpdSet [(GMap [((GStr "a"), (GInt KInt (1))); ((GStr "b"), (GInt KInt (2)))])]); (do u3 <- upd_step u2 (UpdSet [(GMap [((GStr "a"), (GInt KInt (3)))])]); Ok (StUpdate u3))))
  "UPDATE ""table"" SET ""a"" = 3, ""b"" = 2"
  "UPDATE ""table"" SET ""a"" = $1, ""b"" = $2"
  "UPDATE ""table"" SET ""a"" = :arg_1, ""b"" = :arg_2"
  [(GInt KInt (3)); (GInt KInt (2))].
Proof. vm_compute. repeat split. Qed.

(* TestUpdate_Set_Map_LastWriteWins Simple *)
Example TestUpdate_Set_Map_LastWriteWins_Simple_3 : renders (do u1 <- lk_update (GStr "table"); (do u2 <- upd_step u1 (UpdSet [(GMapAny [("a", (GInt KInt (1))); ("b", (GInt KInt (2)))])]); (do u3 <- upd_step u2 (UpdSet [(GMapAny [("a", (GInt KInt (3)))])]); Ok (StUpdate u3))))
  "UPDATE ""table"" SET ""a"" = 3, ""b"" = 2"
  "UPDATE ""table"" SET ""a"" = $1, ""b"" = $2"
  "UPDATE ""table"" SET ""a"" = :arg_1, ""b"" = :arg_2"
  [(GInt KInt (3)); (GInt KInt (2))].
Proof. vm_compute. repeat split. Qed.

(* TestUpdate_Set_Map_LastWriteWins Simple *)
Example TestUpdate_Set_Map_LastWriteWins_Simple_4 : renders (do u1 <- lk_update (GStr "table"); (do u2 <- upd_step u1 (UpdSet [(GMap [((GStr "a"), (GInt KInt (1))); ((GStr "b"), (GInt KInt (2)))])]); (do u3 <- upd_step u2 (UpdSet [(GMapAny [("a", (GInt KInt (3)))])]); Ok (StUpdate u3))))
  "UPDATE ""table"" SET ""a"" = 3, ""b"" = 2"
  "UPDATE ""table"" SET ""a"" = $1, ""b"" = $2"
  "UPDATE ""table"" SET ""a"" = :arg_1, ""b"" = :arg_2"
  [(GInt KInt (3)); (GInt KInt (2))].
Proof. vm_compute. repeat split. Qed.

(* TestUpdate_Set_Pair Single Pair *)
Example TestUpdate_Set_Pair_Single_Pair : renders (do u1 <- lk_update (GStr "table"); (do u2 <- upd_step u1 (UpdSet [(GPair (GStr "a") (GInt KInt (1)))]); Ok (StUpdate u2)))
  "UPDATE ""table"" SET ""a"" = 1"
  "UPDATE ""table"" SET ""a"" = $1"
  "UPDATE ""table"" SET ""a"" = :arg_1"
  [(GInt KInt (1))].
Proof. vm_compute. repeat split. Qed.

(* TestUpdate_Set_Pair Simple *)
Example TestUpdate_Set_Pair_Simple_0 : renders (do u1 <- lk_update (GStr "table"); (do u2 <- upd_step u1 (UpdSet [(GPair (GStr "a") (GInt KInt (1))); (GPair (GStr "b") (GInt KInt (2)))]); Ok (StUpdate u2)))
  "UPDATE ""table"" SET ""a"" = 1, ""b"" = 2"
  "UPDATE ""table"" SET ""a"" = $1, ""b"" = $2"
  "UPDATE ""table"" SET ""a"" = :arg_1, ""b"" = :arg_2"
  [(GInt KInt (1)); (GInt KInt (2))].
Proof. vm_compute. repeat split. Qed.

(* TestUpdate_Set_Pair Simple *)
Example TestUpdate_Set_Pair_Simple_1 : renders (do u1 <- lk_update (GStr "table"); (do u2 <- upd_step u1 (UpdSet [(GPair (GStr "a") (GInt KInt (1)))]); (do u3 <- upd_step u2 (UpdSet [(GPair (GStr "b") (GInt KInt (2)))]); Ok (StUpdate u3))))
  "UPDATE ""table"" SET ""a"" = 1, ""b"" = 2"
  "UPDATE ""table"" SET ""a"" = $1, ""b"" = $2"
  "UPDATE ""table"" SET ""a"" = :arg_1, ""b"" = :arg_2"
  [(GInt KInt (1)); (GInt KInt (2))].
Proof. vm_compute. repeat split. Qed.

(* TestUpdate_Set_Pair Simple *)
Example TestUpdate_Set_Pair_Simple_2 : renders (do u1 <- lk_update (GStr "table"); (do u2 <- upd_step u1 (UpdSet [(GPair (GColumn (lk_column "a")) (GInt KInt (1))); (GPair (GStr "b") (GInt KInt (2)))]); Ok (StUpdate u2)))
  "UPDATE ""table"" SET ""a"" = 1, ""b"" = 2"
  "UPDATE ""table"" SET ""a"" = $1, ""b"" = $2"
  "UPDATE ""table"" SET ""a"" = :arg_1, ""b"" = :arg_2"
  [(GInt KInt (1)); (GInt KInt (2))].
Proof. vm_compute. repeat split. Qed.

(* TestUpdate_Set_Pair_Uniqueness Simple *)
Example TestUpdate_Set_Pair_Uniqueness_Simple_0 : renders (do u1 <- lk_update (GStr "table"); (do u2 <- upd_step u1 (UpdSet [(GPair (GStr "a") (GInt KInt (1))); (GPair (GStr "a") (GInt KInt (1)))]); Ok (StUpdate u2)))
  "UPDATE ""table"" SET ""a"" = 1"
  "UPDATE ""table"" SET ""a"" = $1"
  "UPDATE ""table"" SET ""a"" = :arg_1"
  [(GInt KInt (1))].
Proof. vm_compute. repeat split. Qed.

(* TestUpdate_Set_Pair_Uniqueness Simple *)
Example TestUpdate_Set_Pair_Uniqueness_Simple_1 : renders (do u1 <- lk_update (GStr "table"); (do u2 <- upd_step u1 (UpdSet [(GPair (GStr "a") (GInt KInt (1))); (GPair (GStr "a") (GInt KInt (1)))]); (do u3 <- upd_step u2 (UpdSet [(GPair (GStr "a") (GInt KInt (1))); (GPair (GStr "a") (GInt KInt (1)))]); Ok (StUpdate u3))))
  "UPDATE ""table"" SET ""a"" = 1"
  "UPDATE ""table"" SET ""a"" = $1"
  "UPDATE ""table"" SET ""a"" = :arg_1"
  [(GInt KInt (1))].
Proof. vm_compute. repeat split. Qed.

(* TestUpdate_Set_Pair_Uniqueness Last write *)
Example TestUpdate_Set_Pair_Uniqueness_Last_write_0 : renders (do u1 <- lk_update (GStr "table"); (do u2 <- upd_step u1 (UpdSet [(GPair (GStr "a") (GInt KInt (1))); (GPair (GStr "b") (GInt KInt (2))); (GPair (GStr "b") (GInt KInt (5))); (GPair (GStr "c") (GInt KInt (3))); (GPair (GStr "a") (GInt KInt (4)))]); Ok (StUpdate u2)))
  "UPDATE ""table"" SET ""a"" = 4, ""b"" = 5, ""c"" = 3"
  "UPDATE ""table"" SET ""a"" = $1, ""b"" = $2, ""c"" = $3"
  "UPDATE ""table"" SET ""a"" = :arg_1, ""b"" = :arg_2, ""c"" = :arg_3"
  [(GInt KInt (4)); (GInt KInt (5)); (GInt KInt (3))].
Proof. vm_compute. repeat split. Qed.

(* TestUpdate_Set_Pair_Uniqueness Last write *)
Example TestUpdate_Set_Pair_Uniqueness_Last_write_1 : renders (do u1 <- lk_update (GStr "table"); (do u2 <- upd_step u1 (UpdSet [(GPair (GStr "a") (GInt KInt (1))); (GPair (GStr "b") (GInt KInt (2)))]); (do u3 <- upd_step u2 (UpdSet [(GPair (GStr "b") (GInt KInt (5))); (GPair (GStr "c") (GInt KInt (3)))]); (do u4 <- upd_step u3 (UpdSet [(GPair (GStr "a") (GInt KInt (4)))]); Ok (StUpdate u4)))))
  "UPDATE ""table"" SET ""a"" = 4, ""b"" = 5, ""c"" = 3"
  "UPDATE ""table"" SET ""a"" = $1, ""b"" = $2, ""c"" = $3"
  "UPDATE ""table"" SET ""a"" = :arg_1, ""b"" = :arg_2, ""c"" = :arg_3"
  [(GInt KInt (4)); (GInt KInt (5)); (GInt KInt (3))].
Proof. vm_compute. repeat split. Qed.

(* TestUpdate_Set_Pair_LastWriteWins Simple *)
Example TestUpdate_Set_Pair_LastWriteWins_Simple_0 : renders (do u1 <- lk_update (GStr "table"); (do u2 <- upd_step u1 (UpdSet [(GPair (GStr "a") (GInt KInt (1))); (GPair (GStr "b") (GInt KInt (2))); (GPair (GStr "b") (GInt KInt (5))); (GPair (GStr "c") (GInt KInt (3))); (GPair (GStr "a") (GInt KInt (4)))]); Ok (StUpdate u2)))
  "UPDATE ""table"" SET ""a"" = 4, ""b"" = 5, ""c"" = 3"
  "UPDATE ""table"" SET ""a"" = $1, ""b"" = $2, ""c"" = $3"
  "UPDATE ""table"" SET ""a"" = :arg_1, ""b"" = :arg_2, ""c"" = :arg_3"
  [(GInt KInt (4)); (GInt KInt (5)); (GInt KInt (3))].
Proof. vm_compute. repeat split. Qed.

(* TestUpdate_Set_Pair_LastWriteWins Simple *)
Example TestUpdate_Set_Pair_LastWriteWins_Simple_1 : renders (do u1 <- lk_update (GStr "table"); (do u2 <- upd_step u1 (UpdSet [(GPair (GStr "a") (GInt KInt (1))); (GPair (GStr "b") (GInt KInt (2)))]); (do u3 <- upd_step u2 (UpdSet [(GPair (GStr "b") (GInt KInt (5))); (GPair (GStr "c") (GInt KInt (3)))]); (do u4 <- upd_step u3 (UpdSet [(GPair (GStr "a") (GInt KInt (4)))]); Ok (StUpdate u4)))))
  "UPDATE ""table"" SET ""a"" = 4, ""b"" = 5, ""c"" = 3"
  "UPDATE ""table"" SET ""a"" = $1, ""b"" = $2, ""c"" = $3"
  "UPDATE ""table"" SET ""a"" = :arg_1, ""b"" = :arg_2, ""c"" = :arg_3"
  [(GInt KInt (4)); (GInt KInt (5)); (GInt KInt (3))].
Proof. vm_compute. repeat split. Qed.

(* TestUpdate_Set_MapAndPair Simple *)
Example TestUpdate_Set_MapAndPair_Simple_0 : renders (do u1 <- lk_update (GStr "table"); (do u2 <- upd_step u1 (UpdSet [(GMap [((GStr "a"), (GInt KInt (1))); ((GStr "b"), (GInt KInt (2)))]); (GPair (GStr "d") (GInt KInt (4))); (GMap [((GStr "c"), (GInt KInt (3)))]); (GPair (GStr "e") (GInt KInt (5)))]); Ok (StUpdate u2)))
  "UPDATE ""table"" SET ""a"" = 1, ""b"" = 2, ""c"" = 3, ""d"" = 4, ""e"" = 5"
  "UPDATE ""table"" SET ""a"" = $1, ""b"" = $2, ""c"" = $3, ""d"" = $4, ""e"" = $5"
  "UPDATE ""table"" SET ""a"" = :arg_1, ""b"" = :arg_2, ""c"" = :arg_3, ""d"" = :arg_4, ""e"" = :arg_5"
  [(GInt KInt (1)); (GInt KInt (2)); (GInt KInt (3)); (GInt KInt (4)); (GInt KInt (5))].
Proof. vm_compute. repeat split. Qed.

(* TestUpdate_Set_MapAndPair Simple *)
Example TestUpdate_Set_MapAndPair_Simple_1 : renders (do u1 <- lk_update (GStr "table"); (do u2 <- upd_step u1 (UpdSet [(GMap [((GStr "a"), (GInt KInt (1))); ((GStr "b"), (GInt KInt (2)))]); (GPair (GStr "d") (GInt KInt (4)))]); (do u3 <- upd_step u2 (UpdSet [(GMap [((GStr "c"), (GInt KInt (3)))]); (GPair (GStr "e") (GInt KInt (5)))]); Ok (StUpdate u3))))
  "UPDATE ""table"" SET ""a"" = 1, ""b"" = 2, ""c"" = 3, ""d"" = 4, ""e"" = 5"
  "UPDATE ""table"" SET ""a"" = $1, ""b"" = $2, ""c"" = $3, ""d"" = $4, ""e"" = $5"
  "UPDATE ""table"" SET ""a"" = :arg_1, ""b"" = :arg_2, ""c"" = :arg_3, ""d"" = :arg_4, ""e"" = :arg_5"
  [(GInt KInt (1)); (GInt KInt (2)); (GInt KInt (3)); (GInt KInt (4)); (GInt KInt (5))].
Proof. vm_compute. repeat split. Qed.

(* TestUpdate_Set_MapAndPair With column instances *)
Example TestUpdate_Set_MapAndPair_With_column_instances : renders (do u1 <- lk_update (GStr "table"); (do u2 <- upd_step u1 (UpdSet [(GMap [((GColumn (lk_column "foo")), (GInt KInt (2))); ((GStr "a"), (GInt KInt (1)))])]); Ok (StUpdate u2)))
  "UPDATE ""table"" SET ""a"" = 1, ""foo"" = 2"
  "UPDATE ""table"" SET ""a"" = $1, ""foo"" = $2"
  "UPDATE ""table"" SET ""a"" = :arg_1, ""foo"" = :arg_2"
  [(GInt KInt (1)); (GInt KInt (2))].
Proof. vm_compute. repeat split. Qed.

(* TestUpdate_Set_MapAndPair_Uniqueness Simple *)
Example TestUpdate_Set_MapAndPair_Uniqueness_Simple_0 : renders (do u1 <- lk_update (GStr "table"); (do u2 <- upd_step u1 (UpdSet [(GMap [((GStr "a"), (GInt KInt (1))); ((GStr "b"), (GInt KInt (2)))]); (GPair (GStr "a") (GInt KInt (1))); (GMap [((GStr "b"), (GInt KInt (2)))]); (GPair (GStr "c") (GInt KInt (3)))]); Ok (StUpdate u2)))
  "UPDATE ""table"" SET ""a"" = 1, ""b"" = 2, ""c"" = 3"
  "UPDATE ""table"" SET ""a"" = $1, ""b"" = $2, ""c"" = $3"
  "UPDATE ""table"" SET ""a"" = :arg_1, ""b"" = :arg_2, ""c"" = :arg_3"
  [(GInt KInt (1)); (GInt KInt (2)); (GInt KInt (3))].
Proof. vm_compute. repeat split. Qed.

(* TestUpdate_Set_MapAndPair_Uniqueness Simple *)
Example TestUpdate_Set_MapAndPair_Uniqueness_Simple_1 : renders (do u1 <- lk_update (GStr "table"); (do u2 <- upd_step u1 (UpdSet [(GMap [((GStr "a"), (GInt KInt (1))); ((GStr "b"), (GInt KInt (2)))]); (GPair (GStr "a") (GInt KInt (1)))]); (do u3 <- upd_step u2 (UpdSet [(GMap [((GStr "b"), (GInt KInt (2)))]); (GPair (GStr "b") (GInt KInt (2)))]); (do u4 <- upd_step u3 (UpdSet [(GMap [((GStr "c"), (GInt KInt (3)))]); (GPair (GStr "c") (GInt KInt (3)))]); Ok (StUpdate u4)))))
  "UPDATE ""table"" SET ""a"" = 1, ""b"" = 2, ""c"" = 3"
  "UPDATE ""table"" SET ""a"" = $1, ""b"" = $2, ""c"" = $3"
  "UPDATE ""table"" SET ""a"" = :arg_1, ""b"" = :arg_2, ""c"" = :arg_3"
  [(GInt KInt (1)); (GInt KInt (2)); (GInt KInt (3))].
Proof. vm_compute. repeat split. Qed.

(* TestUpdate_Set_MapAndPair_LastWriteWins Simple *)
Example TestUpdate_Set_MapAndPair_LastWriteWins_Simple_0 : renders (do u1 <- lk_update (GStr "table"); (do u2 <- upd_step u1 (UpdSet [(GMap [((GStr "a"), (GInt KInt (1))); ((GStr "b"), (GInt KInt (2)))]); (GPair (GStr "a") (GInt KInt (2))); (GMap [((GStr "b"), (GInt KInt (3)))]); (GPair (GStr "c") (GInt KInt (4)))]); Ok (StUpdate u2)))
  "UPDATE ""table"" SET ""a"" = 2, ""b"" = 3, ""c"" = 4"
  "UPDATE ""table"" SET ""a"" = $1, ""b"" = $2, ""c"" = $3"
  "UPDATE ""table"" SET ""a"" = :arg_1, ""b"" = :arg_2, ""c"" = :arg_3"
  [(GInt KInt (2)); (GInt KInt (3)); (GInt KInt (4))].
Proof. vm_compute. repeat split. Qed.

(* TestUpdate_Set_MapAndPair_LastWriteWins Simple *)
Example TestUpdate_Set_MapAndPair_LastWriteWins_Simple_1 : renders (do u1 <- lk_update (GStr "table"); (do u2 <- upd_step u1 (UpdSet [(GMap [((GStr "a"), (GInt KInt (1))); ((GStr "b"), (GInt KInt (2)))]); (GPair (GStr "a") (GInt KInt (2)))]); (do u3 <- upd_step u2 (UpdSet [(GMap [((GStr "b"), (GInt KInt (2)))]); (GPair (GStr "b") (GInt KInt (3)))]); (do u4 <- upd_step u3 (UpdSet [(GMap [((GStr "c"), (GInt KInt (3)))]); (GPair (GStr "c") (GInt KInt (4)))]); Ok (StUpdate u4)))))
  "UPDATE ""table"" SET ""a"" = 2, ""b"" = 3, ""c"" = 4"
  "UPDATE ""table"" SET ""a"" = $1, ""b"" = $2, ""c"" = $3"
  "UPDATE ""table"" SET ""a"" = :arg_1, ""b"" = :arg_2, ""c"" = :arg_3"
  [(GInt KInt (2)); (GInt KInt (3)); (GInt KInt (4))].
Proof. vm_compute. repeat split. Qed.

(* TestUpdate_Set_Valuer pq.NullTime not null *)
Example TestUpdate_Set_Valuer_pq_NullTime_not_null : renders (do u1 <- lk_update (GStr "table"); (do u2 <- upd_step u1 (UpdSet [(GMap [((GStr "created_at"), (GValuer (GTime {| tm_sec := 1511455647; tm_nsec := 0 |})))])]); Ok (StUpdate u2)))
  "UPDATE ""table"" SET ""created_at"" = '2017-11-23 16:47:27+00'"
  "UPDATE ""table"" SET ""created_at"" = $1"
  "UPDATE ""table"" SET ""created_at"" = :arg_1"
  [(GValuer (GTime {| tm_sec := 1511455647; tm_nsec := 0 |}))].
Proof. vm_compute. repeat split. Qed.

(* TestUpdate_Set_Valuer pq.NullTime null *)
Example TestUpdate_Set_Valuer_pq_NullTime_null : renders (do u1 <- lk_update (GStr "table"); (do u2 <- upd_step u1 (UpdSet [(GMap [((GStr "created_at"), (GValuer GNil))])]); Ok (StUpdate u2)))
  "UPDATE ""table"" SET ""created_at"" = NULL"
  "UPDATE ""table"" SET ""created_at"" = $1"
  "UPDATE ""table"" SET ""created_at"" = :arg_1"
  [(GValuer GNil)].
Proof. vm_compute. repeat split. Qed.

(* TestUpdate_Set_Valuer pq.NullString not null *)
Example TestUpdate_Set_Valuer_pq_NullString_not_null : renders (do u1 <- lk_update (GStr "table"); (do u2 <- upd_step u1 (UpdSet [(GMap [((GStr "message"), (GValuer (GStr "ok")))])]); Ok (StUpdate u2)))
  "UPDATE ""table"" SET ""message"" = 'ok'"
  "UPDATE ""table"" SET ""message"" = $1"
  "UPDATE ""table"" SET ""message"" = :arg_1"
  [(GValuer (GStr "ok"))].
Proof. vm_compute. repeat split. Qed.

(* TestUpdate_Set_Valuer pq.NullString null *)
Example TestUpdate_Set_Valuer_pq_NullString_null : renders (do u1 <- lk_update (GStr "table"); (do u2 <- upd_step u1 (UpdSet [(GMap [((GStr "message"), (GValuer GNil))])]); Ok (StUpdate u2)))
  "UPDATE ""table"" SET ""message"" = NULL"
  "UPDATE ""table"" SET ""message"" = $1"
  "UPDATE ""table"" SET ""message"" = :arg_1"
  [(GValuer GNil)].
Proof. vm_compute. repeat split. Qed.

(* TestUpdate_Set_Valuer sql.NullInt64 not null *)
Example TestUpdate_Set_Valuer_sql_NullInt64_not_null : renders (do u1 <- lk_update (GStr "table"); (do u2 <- upd_step u1 (UpdSet [(GMap [((GStr "count"), (GValuer (GInt KInt64 (30))))])]); Ok (StUpdate u2)))
  "UPDATE ""table"" SET ""count"" = 30"
  "UPDATE ""table"" SET ""count"" = $1"
  "UPDATE ""table"" SET ""count"" = :arg_1"
  [(GValuer (GInt KInt64 (30)))].
Proof. vm_compute. repeat split. Qed.

(* TestUpdate_Set_Valuer sql.NullInt64 null *)
Example TestUpdate_Set_Valuer_sql_NullInt64_null : renders (do u1 <- lk_update (GStr "table"); (do u2 <- upd_step u1 (UpdSet [(GMap [((GStr "count"), (GValuer GNil))])]); Ok (StUpdate u2)))
  "UPDATE ""table"" SET ""count"" = NULL"
  "UPDATE ""table"" SET ""count"" = $1"
  "UPDATE ""table"" SET ""count"" = :arg_1"
  [(GValuer GNil)].
Proof. vm_compute. repeat split. Qed.

(* TestUpdate_Set_Subquery Coalesce *)
Example TestUpdate_Set_Subquery_Coalesce : renders (do u1 <- lk_update (GStr "test1"); (do q2 <- lk_select [(GExpr (lk_raw "COALESCE(COUNT(*), 0)"))]; (do s3 <- sel_step q2 (SelFrom [(GStr "test2")]); (do c4 <- cmp_expr (lk_condition (GStr "disabled")) OpEqual (GBool false); (do s5 <- sel_step s3 (SelWhere c4); (do u6 <- upd_step u1 (UpdSet [(GPair (GStr "count") (g_select s5))]); Ok (StUpdate u6)))))))
  "UPDATE ""test1"" SET ""count"" = (SELECT COALESCE(COUNT(*), 0) FROM ""test2"" WHERE (""disabled"" = false))"
  "UPDATE ""test1"" SET ""count"" = (SELECT COALESCE(COUNT(*), 0) FROM ""test2"" WHERE (""disabled"" = $1))"
  "UPDATE ""test1"" SET ""count"" = (SELECT COALESCE(COUNT(*), 0) FROM ""test2"" WHERE (""disabled"" = :arg_1))"
  [(GBool false)].
Proof. vm_compute. repeat split. Qed.

(* TestUpdate_Set_Using Invoking Using() without any argument must panic *)
Example TestUpdate_Set_Using_Invoking_Using_without_any_argument_must_panic : fails (do u1 <- lk_update (GStr "table"); (do u2 <- upd_step u1 (UpdSet [(GStr "a"); (GStr "b"); (GStr "c")]); (do u3 <- upd_step u2 (UpdUsing []); Ok (StUpdate u3)))).
Proof. vm_compute. repeat split. Qed.

(* TestUpdate_Set_Using Invoking Using() without any columns must panic *)
Example TestUpdate_Set_Using_Invoking_Using_without_any_columns_must_panic : fails (do u1 <- lk_update (GStr "table"); (do u2 <- upd_step u1 (UpdSet [(GPair (GStr "a") (GInt KInt (30)))]); (do u3 <- upd_step u2 (UpdUsing []); Ok (StUpdate u3)))).
Proof. vm_compute. repeat split. Qed.

(* TestUpdate_Set_Using Multi-values *)
Example TestUpdate_Set_Using_Multi_values_0 : renders (do u1 <- lk_update (GStr "table"); (do u2 <- upd_step u1 (UpdSet [(GStr "a"); (GStr "b"); (GStr "c")]); (do u3 <- upd_step u2 (UpdUsing [(GStr "d"); (GStr "e"); (GStr "f")]); Ok (StUpdate u3))))
  "UPDATE ""table"" SET (""a"", ""b"", ""c"") = ('d', 'e', 'f')"
  "UPDATE ""table"" SET (""a"", ""b"", ""c"") = ($1, $2, $3)"
  "UPDATE ""table"" SET (""a"", ""b"", ""c"") = (:arg_1, :arg_2, :arg_3)"
  [(GStr "d"); (GStr "e"); (GStr "f")].
Proof. vm_compute. repeat split. Qed.

(* TestUpdate_Set_Using Multi-values *)
Example TestUpdate_Set_Using_Multi_values_1 : renders (do u1 <- lk_update (GStr "table"); (do u2 <- upd_step u1 (UpdSet [(GStr "a")]); (do u3 <- upd_step u2 (UpdSet [(GStr "b")]); (do u4 <- upd_step u3 (UpdSet [(GStr "c")]); (do u5 <- upd_step u4 (UpdUsing [(GStr "d"); (GStr "e"); (GStr "f")]); Ok (StUpdate u5))))))
  "UPDATE ""table"" SET (""a"", ""b"", ""c"") = ('d', 'e', 'f')"
  "UPDATE ""table"" SET (""a"", ""b"", ""c"") = ($1, $2, $3)"
  "UPDATE ""table"" SET (""a"", ""b"", ""c"") = (:arg_1, :arg_2, :arg_3)"
  [(GStr "d"); (GStr "e"); (GStr "f")].
Proof. vm_compute. repeat split. Qed.

(* TestUpdate_Set_Using Columns to columns *)
Example TestUpdate_Set_Using_Columns_to_columns : renders (do u1 <- lk_update (GStr "table"); (do u2 <- upd_step u1 (UpdSet [(GStr "a"); (GStr "b"); (GStr "c")]); (do u3 <- upd_step u2 (UpdUsing [(GExpr (lk_raw "d+1")); (GExpr (lk_raw "e+1")); (GExpr (lk_raw "f+1"))]); Ok (StUpdate u3))))
  "UPDATE ""table"" SET (""a"", ""b"", ""c"") = (d+1, e+1, f+1)"
  "UPDATE ""table"" SET (""a"", ""b"", ""c"") = (d+1, e+1, f+1)"
  "UPDATE ""table"" SET (""a"", ""b"", ""c"") = (d+1, e+1, f+1)"
  [].
Proof. vm_compute. repeat split. Qed.

(* TestUpdate_Set_Using Sub-select *)
Example TestUpdate_Set_Using_Sub_select : renders (do u1 <- lk_update (GStr "table"); (do u2 <- upd_step u1 (UpdSet [(GStr "a"); (GStr "b"); (GStr "c")]); (do q3 <- lk_select [(GStr "a"); (GStr "b"); (GStr "c")]; (do s4 <- sel_step q3 (SelFrom [(GStr "table")]); (do c5 <- cmp_expr (lk_condition (GStr "disabled")) OpEqual (GBool false); (do s6 <- sel_step s4 (SelWhere c5); (do u7 <- upd_step u2 (UpdUsing [(g_select s6)]); Ok (StUpdate u7))))))))
  "UPDATE ""table"" SET (""a"", ""b"", ""c"") = (SELECT ""a"", ""b"", ""c"" FROM ""table"" WHERE (""disabled"" = false))"
  "UPDATE ""table"" SET (""a"", ""b"", ""c"") = (SELECT ""a"", ""b"", ""c"" FROM ""table"" WHERE (""disabled"" = $1))"
  "UPDATE ""table"" SET (""a"", ""b"", ""c"") = (SELECT ""a"", ""b"", ""c"" FROM ""table"" WHERE (""disabled"" = :arg_1))"
  [(GBool false)].
Proof. vm_compute. repeat split. Qed.

(* TestUpdate_OnlyTable Simple *)
Example TestUpdate_OnlyTable_Simple : renders (do u1 <- lk_update (GStr "table"); (do u2 <- upd_step u1 (UpdOnly); (do u3 <- upd_step u2 (UpdSet [(GMap [((GStr "a"), (GInt KInt (1)))])]); Ok (StUpdate u3))))
  "UPDATE ONLY ""table"" SET ""a"" = 1"
  "UPDATE ONLY ""table"" SET ""a"" = $1"
  "UPDATE ONLY ""table"" SET ""a"" = :arg_1"
  [(GInt KInt (1))].
Proof. vm_compute. repeat split. Qed.

(* TestUpdate_Where Simple *)
Example TestUpdate_Where_Simple : renders (do u1 <- lk_update (GStr "table"); (do u2 <- upd_step u1 (UpdSet [(GMap [((GStr "a"), (GInt KInt (1)))])]); (do c3 <- cmp_expr (lk_condition (GStr "id")) OpEqual (GInt KInt (1)); (do u4 <- upd_step u2 (UpdWhere c3); Ok (StUpdate u4)))))
  "UPDATE ""table"" SET ""a"" = 1 WHERE (""id"" = 1)"
  "UPDATE ""table"" SET ""a"" = $1 WHERE (""id"" = $2)"
  "UPDATE ""table"" SET ""a"" = :arg_1 WHERE (""id"" = :arg_2)"
  [(GInt KInt (1)); (GInt KInt (1))].
Proof. vm_compute. repeat split. Qed.

(* TestUpdate_Where AND *)
Example TestUpdate_Where_AND : renders (do u1 <- lk_update (GStr "table"); (do u2 <- upd_step u1 (UpdSet [(GMap [((GStr "a"), (GInt KInt (1)))])]); (do c3 <- cmp_expr (lk_condition (GStr "id")) OpEqual (GInt KInt (1)); (do u4 <- upd_step u2 (UpdWhere c3); (do c5 <- cmp_expr (lk_condition (GStr "status")) OpEqual (GStr "online"); (do u6 <- upd_step u4 (UpdAnd c5); Ok (StUpdate u6)))))))
  "UPDATE ""table"" SET ""a"" = 1 WHERE ((""id"" = 1) AND (""status"" = 'online'))"
  "UPDATE ""table"" SET ""a"" = $1 WHERE ((""id"" = $2) AND (""status"" = $3))"
  "UPDATE ""table"" SET ""a"" = :arg_1 WHERE ((""id"" = :arg_2) AND (""status"" = :arg_3))"
  [(GInt KInt (1)); (GInt KInt (1)); (GStr "online")].
Proof. vm_compute. repeat split. Qed.

(* TestUpdate_Where OR *)
Example TestUpdate_Where_OR : renders (do u1 <- lk_update (GStr "table"); (do u2 <- upd_step u1 (UpdSet [(GMap [((GStr "a"), (GInt KInt (1)))])]); (do c3 <- cmp_expr (lk_condition (GStr "id")) OpEqual (GInt KInt (1)); (do u4 <- upd_step u2 (UpdWhere c3); (do c5 <- cmp_expr (lk_condition (GStr "status")) OpEqual (GStr "online"); (do u6 <- upd_step u4 (UpdOr c5); Ok (StUpdate u6)))))))
  "UPDATE ""table"" SET ""a"" = 1 WHERE ((""id"" = 1) OR (""status"" = 'online'))"
  "UPDATE ""table"" SET ""a"" = $1 WHERE ((""id"" = $2) OR (""status"" = $3))"
  "UPDATE ""table"" SET ""a"" = :arg_1 WHERE ((""id"" = :arg_2) OR (""status"" = :arg_3))"
  [(GInt KInt (1)); (GInt KInt (1)); (GStr "online")].
Proof. vm_compute. repeat split. Qed.

(* TestUpdate_From Simple *)
Example TestUpdate_From_Simple : renders (do u1 <- lk_update (GStr "table1"); (do u2 <- upd_step u1 (UpdSet [(GMap [((GStr "a"), (GInt KInt (1)))])]); (do u3 <- upd_step u2 (UpdFrom (GStr "table2")); (do c4 <- cmp_expr (lk_condition (GStr "table2.id")) OpEqual (GExpr (lk_raw "table1.id")); (do u5 <- upd_step u3 (UpdWhere c4); Ok (StUpdate u5))))))
  "UPDATE ""table1"" SET ""a"" = 1 FROM ""table2"" WHERE (""table2"".""id"" = table1.id)"
  "UPDATE ""table1"" SET ""a"" = $1 FROM ""table2"" WHERE (""table2"".""id"" = table1.id)"
  "UPDATE ""table1"" SET ""a"" = :arg_1 FROM ""table2"" WHERE (""table2"".""id"" = table1.id)"
  [(GInt KInt (1))].
Proof. vm_compute. repeat split. Qed.

(* TestUpdate_Returning * *)
Example TestUpdate_Returning : renders (do u1 <- lk_update (GStr "table"); (do u2 <- upd_step u1 (UpdSet [(GMap [((GStr "a"), (GInt KInt (1)))])]); (do u3 <- upd_step u2 (UpdReturning [(GExpr (lk_raw "*"))]); Ok (StUpdate u3))))
  "UPDATE ""table"" SET ""a"" = 1 RETURNING *"
  "UPDATE ""table"" SET ""a"" = $1 RETURNING *"
  "UPDATE ""table"" SET ""a"" = :arg_1 RETURNING *"
  [(GInt KInt (1))].
Proof. vm_compute. repeat split. Qed.

(* TestUpdate_With Simple with statement with select distinct *)
Example TestUpdate_With_Simple_with_statement_with_select_distinct : renders (do u1 <- lk_update (GStr "users"); (do q2 <- lk_select [(GStr "user_id")]; (do s3 <- sel_step q2 (SelDistinct); (do s4 <- sel_step s3 (SelFrom [(GStr "contribution")]); (do c5 <- is_null (lk_condition (GStr "deleted_at")) true; (do s6 <- sel_step s4 (SelWhere c5); (do w7 <- lk_with "contributors" (g_select s6); (do u8 <- upd_step u1 (UpdWith [w7]); (do u9 <- upd_step u8 (UpdSet [(GPair (GStr "newsletter_subscribed") (GBool true))]); (do u10 <- upd_step u9 (UpdFrom (GStr "contributors")); (do c11 <- cmp_expr (lk_condition (GStr "users.id")) OpEqual (GExpr (lk_raw "contributors.user_id")); (do u12 <- upd_step u10 (UpdWhere c11); Ok (StUpdate u12)))))))))))))
  "WITH contributors AS (SELECT DISTINCT ""user_id"" FROM ""contribution"" WHERE (""deleted_at"" IS NULL)) UPDATE ""users"" SET ""newsletter_subscribed"" = true FROM ""contributors"" WHERE (""users"".""id"" = contributors.user_id)"
  "WITH contributors AS (SELECT DISTINCT ""user_id"" FROM ""contribution"" WHERE (""deleted_at"" IS NULL)) UPDATE ""users"" SET ""newsletter_subscribed"" = $1 FROM ""contributors"" WHERE (""users"".""id"" = contributors.user_id)"
  "WITH contributors AS (SELECT DISTINCT ""user_id"" FROM ""contribution"" WHERE (""deleted_at"" IS NULL)) UPDATE ""users"" SET ""newsletter_subscribed"" = :arg_1 FROM ""contributors"" WHERE (""users"".""id"" = contributors.user_id)"
  [(GBool true)].
Proof. vm_compute. repeat split. Qed.

(* TestUpdate_With Multiple with statements with select distinct *)
Example TestUpdate_With_Multiple_with_statements_with_select_distinct : renders (do u1 <- lk_update (GStr "users"); (do q2 <- lk_select [(GStr "user_id")]; (do s3 <- sel_step q2 (SelDistinct); (do s4 <- sel_step s3 (SelFrom [(GStr "contribution")]); (do c5 <- is_null (lk_condition (GStr "deleted_at")) true; (do s6 <- sel_step s4 (SelWhere c5); (do w7 <- lk_with "contributors" (g_select s6); (do u8 <- upd_step u1 (UpdWith [w7]); (do q9 <- lk_select [(GStr "user_id")]; (do s10 <- sel_step q9 (SelDistinct); (do s11 <- sel_step s10 (SelFrom [(GStr "comment")]); (do c12 <- is_null (lk_condition (GStr "deleted_at")) true; (do s13 <- sel_step s11 (SelWhere c12); (do w14 <- lk_with "commentators" (g_select s13); (do u15 <- upd_step u8 (UpdWith [w14]); (do u16 <- upd_step u15 (UpdSet [(GPair (GStr "newsletter_subscribed") (GBool true))]); (do q17 <- lk_select [(GStr "user_id")]; (do s18 <- sel_step q17 (SelFrom [(GStr "contributors")]); (do c19 <- expr_in (lk_condition (GStr "users.id")) [(g_select s18)]; (do u20 <- upd_step u16 (UpdWhere c19); (do q21 <- lk_select [(GStr "user_id")]; (do s22 <- sel_step q21 (SelFrom [(GStr "commentators")]); (do c23 <- expr_in (lk_condition (GStr "users.id")) [(g_select s22)]; (do u24 <- upd_step u20 (UpdOr c23); Ok (StUpdate u24)))))))))))))))))))))))))
  "WITH contributors AS (SELECT DISTINCT ""user_id"" FROM ""contribution"" WHERE (""deleted_at"" IS NULL)), commentators AS (SELECT DISTINCT ""user_id"" FROM ""comment"" WHERE (""deleted_at"" IS NULL)) UPDATE ""users"" SET ""newsletter_subscribed"" = true WHERE ((""users"".""id"" IN (SELECT ""user_id"" FROM ""contributors"")) OR (""users"".""id"" IN (SELECT ""user_id"" FROM ""commentators"")))"
  "WITH contributors AS (SELECT DISTINCT ""user_id"" FROM ""contribution"" WHERE (""deleted_at"" IS NULL)), commentators AS (SELECT DISTINCT ""user_id"" FROM ""comment"" WHERE (""deleted_at"" IS NULL)) UPDATE ""users"" SET ""newsletter_subscribed"" = $1 WHERE ((""users"".""id"" IN (SELECT ""user_id"" FROM ""contributors"")) OR (""users"".""id"" IN (SELECT ""user_id"" FROM ""commentators"")))"
  "WITH contributors AS (SELECT DISTINCT ""user_id"" FROM ""contribution"" WHERE (""deleted_at"" IS NULL)), commentators AS (SELECT DISTINCT ""user_id"" FROM ""comment"" WHERE (""deleted_at"" IS NULL)) UPDATE ""users"" SET ""newsletter_subscribed"" = :arg_1 WHERE ((""users"".""id"" IN (SELECT ""user_id"" FROM ""contributors"")) OR (""users"".""id"" IN (SELECT ""user_id"" FROM ""commentators"")))"
  [(GBool true)].
Proof. vm_compute. repeat split. Qed.
