(* The unit tests of builder/insert_test.go, run on the model. Each example is one entry of the tables of that file:
   the builder expression written with the functions of the model, and the expected texts and
   arguments. Machine-translated. These are tests: they check the model, they prove no property. *)
From Coq Require Import String List ZArith.
From Verif Require Import Ast Format Ctx Write Api Parser Build Sort Harness.
Import ListNotations.
Local Open Scope string_scope.
Local Open Scope list_scope.
Local Open Scope Z_scope.
#[local] Existing Instance go_oracle.

(* TestInsert_Columns With columns *)
Example TestInsert_Columns_With_columns : renders (do i1 <- lk_insert (GStr "table"); (do i2 <- ins_step i1 (InsColumns [(GStr "a"); (GStr "b"); (GStr "c")]); Ok (StInsert i2)))
  "INSERT INTO ""table"" (""a"", ""b"", ""c"")"
  "INSERT INTO ""table"" (""a"", ""b"", ""c"")"
  "INSERT INTO ""table"" (""a"", ""b"", ""c"")"
  [].
Proof. vm_compute. repeat split. Qed.

(* TestInsert_Columns Without columns *)
Example TestInsert_Columns_Without_columns : renders (do i1 <- lk_insert (GStr "table"); Ok (StInsert i1))
  "INSERT INTO ""table"""
  "INSERT INTO ""table"""
  "INSERT INTO ""table"""
  [].
Proof. vm_compute. repeat split. Qed.

(* TestInsert_Comment With columns *)
Example TestInsert_Comment_With_columns : renders (do i1 <- lk_insert (GStr "table"); (do i2 <- ins_step i1 (InsColumns [(GStr "a"); (GStr "b"); (GStr "c")]); (do i3 <- ins_step i2 (InsComment "/foo"); Ok (StInsert i3))))
  "INSERT INTO ""table"" (""a"", ""b"", ""c""); -- /foo"
  "INSERT INTO ""table"" (""a"", ""b"", ""c""); -- /foo"
  "INSERT INTO ""table"" (""a"", ""b"", ""c""); -- /foo"
  [].
Proof. vm_compute. repeat split. Qed.

(* TestInsert_Comment Without columns *)
Example TestInsert_Comment_Without_columns : renders (do i1 <- lk_insert (GStr "table"); (do i2 <- ins_step i1 (InsComment "/foo"); Ok (StInsert i2)))
  "INSERT INTO ""table""; -- /foo"
  "INSERT INTO ""table""; -- /foo"
  "INSERT INTO ""table""; -- /foo"
  [].
Proof. vm_compute. repeat split. Qed.

(* TestInsert_Values With columns *)
Example TestInsert_Values_With_columns_0 : renders (do i1 <- lk_insert (GStr "table"); (do i2 <- ins_step i1 (InsColumns [(GStr "a"); (GStr "b"); (GStr "c")]); (do i3 <- ins_step i2 (InsValues [(GStrs ["va"; "vb"; "vc"])]); Ok (StInsert i3))))
  "INSERT INTO ""table"" (""a"", ""b"", ""c"") VALUES ('va', 'vb', 'vc')"
  "INSERT INTO ""table"" (""a"", ""b"", ""c"") VALUES ($1, $2, $3)"
  "INSERT INTO ""table"" (""a"", ""b"", ""c"") VALUES (:arg_1, :arg_2, :arg_3)"
  [(GStr "va"); (GStr "vb"); (GStr "vc")].
Proof. vm_compute. repeat split. Qed.

(* TestInsert_Values With columns *)
Example TestInsert_Values_With_columns_1 : renders (do i1 <- lk_insert (GStr "table"); (do i2 <- ins_step i1 (InsColumns [(GStr "a"); (GStr "b"); (GStr "c")]); (do i3 <- ins_step i2 (InsValues [(GStr "va"); (GStr "vb"); (GStr "vc")]); Ok (StInsert i3))))
  "INSERT INTO ""table"" (""a"", ""b"", ""c"") VALUES ('va', 'vb', 'vc')"
  "INSERT INTO ""table"" (""a"", ""b"", ""c"") VALUES ($1, $2, $3)"
  "INSERT INTO ""table"" (""a"", ""b"", ""c"") VALUES (:arg_1, :arg_2, :arg_3)"
  [(GStr "va"); (GStr "vb"); (GStr "vc")].
Proof. vm_compute. repeat split. Qed.

(* TestInsert_Values Without columns *)
Example TestInsert_Values_Without_columns_0 : renders (do i1 <- lk_insert (GStr "table"); (do i2 <- ins_step i1 (InsValues [(GStrs ["va"; "vb"; "vc"])]); Ok (StInsert i2)))
  "INSERT INTO ""table"" VALUES ('va', 'vb', 'vc')"
  "INSERT INTO ""table"" VALUES ($1, $2, $3)"
  "INSERT INTO ""table"" VALUES (:arg_1, :arg_2, :arg_3)"
  [(GStr "va"); (GStr "vb"); (GStr "vc")].
Proof. vm_compute. repeat split. Qed.

(* TestInsert_Values Without columns *)
Example TestInsert_Values_Without_columns_1 : renders (do i1 <- lk_insert (GStr "table"); (do i2 <- ins_step i1 (InsValues [(GStr "va"); (GStr "vb"); (GStr "vc")]); Ok (StInsert i2)))
  "INSERT INTO ""table"" VALUES ('va', 'vb', 'vc')"
  "INSERT INTO ""table"" VALUES ($1, $2, $3)"
  "INSERT INTO ""table"" VALUES (:arg_1, :arg_2, :arg_3)"
  [(GStr "va"); (GStr "vb"); (GStr "vc")].
Proof. vm_compute. repeat split. Qed.

(* TestInsert_Values With raw values *)
Example TestInsert_Values_With_raw_values_0 : renders (do i1 <- lk_insert (GStr "table"); (do i2 <- ins_step i1 (InsColumns [(GStr "email"); (GStr "enabled"); (GStr "created_at")]); (do i3 <- ins_step i2 (InsValues [(GStr "tech@ulule.com"); (GBool true); (GExpr (lk_raw "NOW()"))]); Ok (StInsert i3))))
  "INSERT INTO ""table"" (""email"", ""enabled"", ""created_at"") VALUES ('tech@ulule.com', true, NOW())"
  "INSERT INTO ""table"" (""email"", ""enabled"", ""created_at"") VALUES ($1, $2, NOW())"
  "INSERT INTO ""table"" (""email"", ""enabled"", ""created_at"") VALUES (:arg_1, :arg_2, NOW())"
  [(GStr "tech@ulule.com"); (GBool true)].
Proof. vm_compute. repeat split. Qed.

(* TestInsert_Values With raw values *)
Example TestInsert_Values_With_raw_values_1 : renders (do i1 <- lk_insert (GStr "table"); (do i2 <- ins_step i1 (InsColumns [(GStr "email"); (GStr "enabled"); (GStr "created_at")]); (do i3 <- ins_step i2 (InsValues [(GAnys [(GStr "tech@ulule.com"); (GBool true); (GExpr (lk_raw "NOW()"))])]); Ok (StInsert i3))))
  "INSERT INTO ""table"" (""email"", ""enabled"", ""created_at"") VALUES ('tech@ulule.com', true, NOW())"
  "INSERT INTO ""table"" (""email"", ""enabled"", ""created_at"") VALUES ($1, $2, NOW())"
  "INSERT INTO ""table"" (""email"", ""enabled"", ""created_at"") VALUES (:arg_1, :arg_2, NOW())"
  [(GStr "tech@ulule.com"); (GBool true)].
Proof. vm_compute. repeat split. Qed.

(* TestInsert_Values With byte slice *)
Example TestInsert_Values_With_byte_slice_0 : renders (do i1 <- lk_insert (GStr "table"); (do i2 <- ins_step i1 (InsSet [(GPair (GStr "data") (GBytes (String "001" (String "002" (String "003" "")))))]); Ok (StInsert i2)))
  "INSERT INTO ""table"" (""data"") VALUES (decode('010203', 'hex'))"
  "INSERT INTO ""table"" (""data"") VALUES ($1)"
  "INSERT INTO ""table"" (""data"") VALUES (:arg_1)"
  [(GBytes (String "001" (String "002" (String "003" ""))))].
Proof. vm_compute. repeat split. Qed.

(* TestInsert_Values With byte slice *)
Example TestInsert_Values_With_byte_slice_1 : renders (do i1 <- lk_insert (GStr "table"); (do i2 <- ins_step i1 (InsColumns [(GStr "data")]); (do i3 <- ins_step i2 (InsValues [(GBytes (String "001" (String "002" (String "003" ""))))]); Ok (StInsert i3))))
  "INSERT INTO ""table"" (""data"") VALUES (decode('010203', 'hex'))"
  "INSERT INTO ""table"" (""data"") VALUES ($1)"
  "INSERT INTO ""table"" (""data"") VALUES (:arg_1)"
  [(GBytes (String "001" (String "002" (String "003" ""))))].
Proof. vm_compute. repeat split. Qed.

(* TestInsert_Values With byte slice *)
Example TestInsert_Values_With_byte_slice_2 : renders (do i1 <- lk_insert (GStr "table"); (do i2 <- ins_step i1 (InsColumns [(GStr "data")]); (do i3 <- ins_step i2 (InsValues [(GBytess [(String "001" (String "002" (String "003" "")))])]); Ok (StInsert i3))))
  "INSERT INTO ""table"" (""data"") VALUES (decode('010203', 'hex'))"
  "INSERT INTO ""table"" (""data"") VALUES ($1)"
  "INSERT INTO ""table"" (""data"") VALUES (:arg_1)"
  [(GBytes (String "001" (String "002" (String "003" ""))))].
Proof. vm_compute. repeat split. Qed.

(* TestInsert_Values With multiple values *)
Example TestInsert_Values_With_multiple_values_0 : renders (do i1 <- lk_insert (GStr "table"); (do i2 <- ins_step i1 (InsValues [(GStrss [["va"; "vb"; "vc"]; ["wa"; "wb"; "wc"]])]); Ok (StInsert i2)))
  "INSERT INTO ""table"" VALUES ('va', 'vb', 'vc'), ('wa', 'wb', 'wc')"
  "INSERT INTO ""table"" VALUES ($1, $2, $3), ($4, $5, $6)"
  "INSERT INTO ""table"" VALUES (:arg_1, :arg_2, :arg_3), (:arg_4, :arg_5, :arg_6)"
  [(GStr "va"); (GStr "vb"); (GStr "vc"); (GStr "wa"); (GStr "wb"); (GStr "wc")].
Proof. vm_compute. repeat split. Qed.

(* TestInsert_Values With multiple values *)
Example TestInsert_Values_With_multiple_values_1 : renders (do i1 <- lk_insert (GStr "table"); (do i2 <- ins_step i1 (InsValues [(GAnyss [[(GStr "va"); (GStr "vb"); (GStr "vc")]; [(GStr "wa"); (GStr "wb"); (GStr "wc")]])]); Ok (StInsert i2)))
  "INSERT INTO ""table"" VALUES ('va', 'vb', 'vc'), ('wa', 'wb', 'wc')"
  "INSERT INTO ""table"" VALUES ($1, $2, $3), ($4, $5, $6)"
  "INSERT INTO ""table"" VALUES (:arg_1, :arg_2, :arg_3), (:arg_4, :arg_5, :arg_6)"
  [(GStr "va"); (GStr "vb"); (GStr "vc"); (GStr "wa"); (GStr "wb"); (GStr "wc")].
Proof. vm_compute. repeat split. Qed.

(* TestInsert_OnConflict Do nothing without target *)
Example TestInsert_OnConflict_Do_nothing_without_target : renders (do i1 <- lk_insert (GStr "table"); (do i2 <- ins_step i1 (InsColumns [(GStr "email"); (GStr "enabled"); (GStr "created_at")]); (do i3 <- ins_step i2 (InsValues [(GStr "tech@ulule.com"); (GBool true); (GExpr (lk_raw "NOW()"))]); (do i4 <- ins_step i3 (InsOnConflict [lk_do_nothing]); Ok (StInsert i4)))))
  "INSERT INTO ""table"" (""email"", ""enabled"", ""created_at"") VALUES ('tech@ulule.com', true, NOW()) ON CONFLICT DO NOTHING"
  "INSERT INTO ""table"" (""email"", ""enabled"", ""created_at"") VALUES ($1, $2, NOW()) ON CONFLICT DO NOTHING"
  "INSERT INTO ""table"" (""email"", ""enabled"", ""created_at"") VALUES (:arg_1, :arg_2, NOW()) ON CONFLICT DO NOTHING"
  [(GStr "tech@ulule.com"); (GBool true)].
Proof. vm_compute. repeat split. Qed.

(* TestInsert_OnConflict Do nothing *)
Example TestInsert_OnConflict_Do_nothing_0 : renders (do i1 <- lk_insert (GStr "table"); (do i2 <- ins_step i1 (InsColumns [(GStr "email"); (GStr "enabled"); (GStr "created_at")]); (do i3 <- ins_step i2 (InsValues [(GStr "tech@ulule.com"); (GBool true); (GExpr (lk_raw "NOW()"))]); (do i4 <- ins_step i3 (InsOnConflict [(GStr "email"); lk_do_nothing]); Ok (StInsert i4)))))
  "INSERT INTO ""table"" (""email"", ""enabled"", ""created_at"") VALUES ('tech@ulule.com', true, NOW()) ON CONFLICT (""email"") DO NOTHING"
  "INSERT INTO ""table"" (""email"", ""enabled"", ""created_at"") VALUES ($1, $2, NOW()) ON CONFLICT (""email"") DO NOTHING"
  "INSERT INTO ""table"" (""email"", ""enabled"", ""created_at"") VALUES (:arg_1, :arg_2, NOW()) ON CONFLICT (""email"") DO NOTHING"
  [(GStr "tech@ulule.com"); (GBool true)].
Proof. vm_compute. repeat split. Qed.

(* TestInsert_OnConflict Do nothing *)
Example TestInsert_OnConflict_Do_nothing_1 : renders (do i1 <- lk_insert (GStr "table"); (do i2 <- ins_step i1 (InsColumns [(GStr "email"); (GStr "enabled"); (GStr "created_at")]); (do i3 <- ins_step i2 (InsValues [(GStr "tech@ulule.com"); (GBool true); (GExpr (lk_raw "NOW()"))]); (do i4 <- ins_step i3 (InsOnConflict [(GColumn (lk_column "email")); lk_do_nothing]); Ok (StInsert i4)))))
  "INSERT INTO ""table"" (""email"", ""enabled"", ""created_at"") VALUES ('tech@ulule.com', true, NOW()) ON CONFLICT (""email"") DO NOTHING"
  "INSERT INTO ""table"" (""email"", ""enabled"", ""created_at"") VALUES ($1, $2, NOW()) ON CONFLICT (""email"") DO NOTHING"
  "INSERT INTO ""table"" (""email"", ""enabled"", ""created_at"") VALUES (:arg_1, :arg_2, NOW()) ON CONFLICT (""email"") DO NOTHING"
  [(GStr "tech@ulule.com"); (GBool true)].
Proof. vm_compute. repeat split. Qed.

(* TestInsert_OnConflict Do nothing with multiple targets *)
Example TestInsert_OnConflict_Do_nothing_with_multiple_targets : renders (do i1 <- lk_insert (GStr "table"); (do i2 <- ins_step i1 (InsColumns [(GStr "email"); (GStr "enabled"); (GStr "created_at")]); (do i3 <- ins_step i2 (InsValues [(GStr "tech@ulule.com"); (GBool true); (GExpr (lk_raw "NOW()"))]); (do i4 <- ins_step i3 (InsOnConflict [(GStr "email"); (GColumn (lk_column "uuid")); (GStr "reference"); lk_do_nothing]); Ok (StInsert i4)))))
  "INSERT INTO ""table"" (""email"", ""enabled"", ""created_at"") VALUES ('tech@ulule.com', true, NOW()) ON CONFLICT (""email"", ""uuid"", ""reference"") DO NOTHING"
  "INSERT INTO ""table"" (""email"", ""enabled"", ""created_at"") VALUES ($1, $2, NOW()) ON CONFLICT (""email"", ""uuid"", ""reference"") DO NOTHING"
  "INSERT INTO ""table"" (""email"", ""enabled"", ""created_at"") VALUES (:arg_1, :arg_2, NOW()) ON CONFLICT (""email"", ""uuid"", ""reference"") DO NOTHING"
  [(GStr "tech@ulule.com"); (GBool true)].
Proof. vm_compute. repeat split. Qed.

(* TestInsert_OnConflict Do update *)
Example TestInsert_OnConflict_Do_update_0 : renders (do i1 <- lk_insert (GStr "table"); (do i2 <- ins_step i1 (InsColumns [(GStr "email"); (GStr "enabled"); (GStr "created_at")]); (do i3 <- ins_step i2 (InsValues [(GStr "tech@ulule.com"); (GBool true); (GExpr (lk_raw "NOW()"))]); (do x4 <- lk_do_update [(GPair (GStr "created_at") (GExpr (lk_raw "NOW()"))); (GPair (GStr "enabled") (GBool true))]; (do i5 <- ins_step i3 (InsOnConflict [(GStr "email"); x4]); Ok (StInsert i5))))))
  "INSERT INTO ""table"" (""email"", ""enabled"", ""created_at"") VALUES ('tech@ulule.com', true, NOW()) ON CONFLICT (""email"") DO UPDATE SET ""created_at"" = NOW(), ""enabled"" = true"
  "INSERT INTO ""table"" (""email"", ""enabled"", ""created_at"") VALUES ($1, $2, NOW()) ON CONFLICT (""email"") DO UPDATE SET ""created_at"" = NOW(), ""enabled"" = $3"
  "INSERT INTO ""table"" (""email"", ""enabled"", ""created_at"") VALUES (:arg_1, :arg_2, NOW()) ON CONFLICT (""email"") DO UPDATE SET ""created_at"" = NOW(), ""enabled"" = :arg_3"
  [(GStr "tech@ulule.com"); (GBool true); (GBool true)].
Proof. vm_compute. repeat split. Qed.

(* TestInsert_OnConflict Do update *)
Example TestInsert_OnConflict_Do_update_1 : renders (do i1 <- lk_insert (GStr "table"); (do i2 <- ins_step i1 (InsColumns [(GStr "email"); (GStr "enabled"); (GStr "created_at")]); (do i3 <- ins_step i2 (InsValues [(GStr "tech@ulule.com"); (GBool true); (GExpr (lk_raw "NOW()"))]); (do x4 <- lk_do_update [(GPair (GStr "created_at") (GExpr (lk_raw "NOW()"))); (GPair (GStr "enabled") (GBool true))]; (do i5 <- ins_step i3 (InsOnConflict [(GColumn (lk_column "email")); x4]); Ok (StInsert i5))))))
  "INSERT INTO ""table"" (""email"", ""enabled"", ""created_at"") VALUES ('tech@ulule.com', true, NOW()) ON CONFLICT (""email"") DO UPDATE SET ""created_at"" = NOW(), ""enabled"" = true"
  "INSERT INTO ""table"" (""email"", ""enabled"", ""created_at"") VALUES ($1, $2, NOW()) ON CONFLICT (""email"") DO UPDATE SET ""created_at"" = NOW(), ""enabled"" = $3"
  "INSERT INTO ""table"" (""email"", ""enabled"", ""created_at"") VALUES (:arg_1, :arg_2, NOW()) ON CONFLICT (""email"") DO UPDATE SET ""created_at"" = NOW(), ""enabled"" = :arg_3"
  [(GStr "tech@ulule.com"); (GBool true); (GBool true)].
Proof. vm_compute. repeat split. Qed.

(* TestInsert_OnConflict Do update with two targets *)
Example TestInsert_OnConflict_Do_update_with_two_targets : renders (do i1 <- lk_insert (GStr "table"); (do i2 <- ins_step i1 (InsColumns [(GStr "email"); (GStr "enabled"); (GStr "created_at")]); (do i3 <- ins_step i2 (InsValues [(GStr "tech@ulule.com"); (GBool true); (GExpr (lk_raw "NOW()"))]); (do x4 <- lk_do_update [(GPair (GStr "created_at") (GExpr (lk_raw "NOW()"))); (GPair (GStr "enabled") (GBool true))]; (do i5 <- ins_step i3 (InsOnConflict [(GStr "email"); (GStr "uuid"); x4]); Ok (StInsert i5))))))
  "INSERT INTO ""table"" (""email"", ""enabled"", ""created_at"") VALUES ('tech@ulule.com', true, NOW()) ON CONFLICT (""email"", ""uuid"") DO UPDATE SET ""created_at"" = NOW(), ""enabled"" = true"
  "INSERT INTO ""table"" (""email"", ""enabled"", ""created_at"") VALUES ($1, $2, NOW()) ON CONFLICT (""email"", ""uuid"") DO UPDATE SET ""created_at"" = NOW(), ""enabled"" = $3"
  "INSERT INTO ""table"" (""email"", ""enabled"", ""created_at"") VALUES (:arg_1, :arg_2, NOW()) ON CONFLICT (""email"", ""uuid"") DO UPDATE SET ""created_at"" = NOW(), ""enabled"" = :arg_3"
  [(GStr "tech@ulule.com"); (GBool true); (GBool true)].
Proof. vm_compute. repeat split. Qed.

(* TestInsert_OnConflict Do update with 3 targets *)
Example TestInsert_OnConflict_Do_update_with_3_targets : renders (do i1 <- lk_insert (GStr "table"); (do i2 <- ins_step i1 (InsColumns [(GStr "email"); (GStr "enabled"); (GStr "created_at")]); (do i3 <- ins_step i2 (InsValues [(GStr "tech@ulule.com"); (GBool true); (GExpr (lk_raw "NOW()"))]); (do x4 <- lk_do_update [(GPair (GStr "created_at") (GExpr (lk_raw "NOW()"))); (GPair (GStr "enabled") (GBool true))]; (do i5 <- ins_step i3 (InsOnConflict [(GStr "email"); (GColumn (lk_column "uuid")); (GStr "reference"); x4]); Ok (StInsert i5))))))
  "INSERT INTO ""table"" (""email"", ""enabled"", ""created_at"") VALUES ('tech@ulule.com', true, NOW()) ON CONFLICT (""email"", ""uuid"", ""reference"") DO UPDATE SET ""created_at"" = NOW(), ""enabled"" = true"
  "INSERT INTO ""table"" (""email"", ""enabled"", ""created_at"") VALUES ($1, $2, NOW()) ON CONFLICT (""email"", ""uuid"", ""reference"") DO UPDATE SET ""created_at"" = NOW(), ""enabled"" = $3"
  "INSERT INTO ""table"" (""email"", ""enabled"", ""created_at"") VALUES (:arg_1, :arg_2, NOW()) ON CONFLICT (""email"", ""uuid"", ""reference"") DO UPDATE SET ""created_at"" = NOW(), ""enabled"" = :arg_3"
  [(GStr "tech@ulule.com"); (GBool true); (GBool true)].
Proof. vm_compute. repeat split. Qed.

(* TestInsert_OnConflict Corner case 0 *)
Example TestInsert_OnConflict_Corner_case_0 : fails (do i1 <- lk_insert (GStr "table"); (do i2 <- ins_step i1 (InsColumns [(GStr "email"); (GStr "enabled"); (GStr "created_at")]); (do i3 <- ins_step i2 (InsValues [(GStr "tech@ulule.com"); (GBool true); (GExpr (lk_raw "NOW()"))]); (do i4 <- ins_step i3 (InsOnConflict []); Ok (StInsert i4))))).
Proof. vm_compute. repeat split. Qed.

(* TestInsert_OnConflict Corner case 1 *)
Example TestInsert_OnConflict_Corner_case_1 : fails (do i1 <- lk_insert (GStr "table"); (do i2 <- ins_step i1 (InsColumns [(GStr "email"); (GStr "enabled"); (GStr "created_at")]); (do i3 <- ins_step i2 (InsValues [(GStr "tech@ulule.com"); (GBool true); (GExpr (lk_raw "NOW()"))]); (do i4 <- ins_step i3 (InsOnConflict [(GStr "email")]); Ok (StInsert i4))))).
Proof. vm_compute. repeat split. Qed.

(* TestInsert_OnConflict Corner case 2 *)
Example TestInsert_OnConflict_Corner_case_2 : fails (do i1 <- lk_insert (GStr "table"); (do i2 <- ins_step i1 (InsColumns [(GStr "email"); (GStr "enabled"); (GStr "created_at")]); (do i3 <- ins_step i2 (InsValues [(GStr "tech@ulule.com"); (GBool true); (GExpr (lk_raw "NOW()"))]); (do x4 <- lk_do_update [(GPair (GStr "created_at") (GExpr (lk_raw "NOW()"))); (GPair (GStr "enabled") (GBool true))]; (do i5 <- ins_step i3 (InsOnConflict [x4]); Ok (StInsert i5)))))).
Proof. vm_compute. repeat split. Qed.

(* TestInsert_OnConflict Corner case 3 *)
Example TestInsert_OnConflict_Corner_case_3 : fails (do i1 <- lk_insert (GStr "table"); (do i2 <- ins_step i1 (InsColumns [(GStr "email"); (GStr "enabled"); (GStr "created_at")]); (do i3 <- ins_step i2 (InsValues [(GStr "tech@ulule.com"); (GBool true); (GExpr (lk_raw "NOW()"))]); (do i4 <- ins_step i3 (InsOnConflict [(GStr "email"); (GInt KInt (6700))]); Ok (StInsert i4))))).
Proof. vm_compute. repeat split. Qed.

(* TestInsert_OnConflict Corner case 4 *)
Example TestInsert_OnConflict_Corner_case_4 : fails (do i1 <- lk_insert (GStr "table"); (do i2 <- ins_step i1 (InsColumns [(GStr "email"); (GStr "enabled"); (GStr "created_at")]); (do i3 <- ins_step i2 (InsValues [(GStr "tech@ulule.com"); (GBool true); (GExpr (lk_raw "NOW()"))]); (do i4 <- ins_step i3 (InsOnConflict [(GInt KInt (569))]); Ok (StInsert i4))))).
Proof. vm_compute. repeat split. Qed.

(* TestInsert_OnConflict Corner case 5 *)
Example TestInsert_OnConflict_Corner_case_5 : fails (do i1 <- lk_insert (GStr "table"); (do i2 <- ins_step i1 (InsColumns [(GStr "email"); (GStr "enabled"); (GStr "created_at")]); (do i3 <- ins_step i2 (InsValues [(GStr "tech@ulule.com"); (GBool true); (GExpr (lk_raw "NOW()"))]); (do i4 <- ins_step i3 (InsOnConflict [(GStr "email"); (GStr "uuid")]); Ok (StInsert i4))))).
Proof. vm_compute. repeat split. Qed.

(* TestInsert_OnConflict Corner case 6 *)
Example TestInsert_OnConflict_Corner_case_6 : fails (do i1 <- lk_insert (GStr "table"); (do i2 <- ins_step i1 (InsColumns [(GStr "email"); (GStr "enabled"); (GStr "created_at")]); (do i3 <- ins_step i2 (InsValues [(GStr "tech@ulule.com"); (GBool true); (GExpr (lk_raw "NOW()"))]); (do i4 <- ins_step i3 (InsOnConflict [(GColumn (lk_column "email")); (GColumn (lk_column "uuid")); (GColumn (lk_column "reference"))]); Ok (StInsert i4))))).
Proof. vm_compute. repeat split. Qed.

(* TestInsert_Returning One column *)
Example TestInsert_Returning_One_column : renders (do i1 <- lk_insert (GStr "table"); (do i2 <- ins_step i1 (InsColumns [(GStr "a"); (GStr "b"); (GStr "c")]); (do i3 <- ins_step i2 (InsValues [(GStrs ["va"; "vb"; "vc"])]); (do i4 <- ins_step i3 (InsReturning [(GStr "a")]); Ok (StInsert i4)))))
  "INSERT INTO ""table"" (""a"", ""b"", ""c"") VALUES ('va', 'vb', 'vc') RETURNING ""a"""
  "INSERT INTO ""table"" (""a"", ""b"", ""c"") VALUES ($1, $2, $3) RETURNING ""a"""
  "INSERT INTO ""table"" (""a"", ""b"", ""c"") VALUES (:arg_1, :arg_2, :arg_3) RETURNING ""a"""
  [(GStr "va"); (GStr "vb"); (GStr "vc")].
Proof. vm_compute. repeat split. Qed.

(* TestInsert_Returning Two columns *)
Example TestInsert_Returning_Two_columns : renders (do i1 <- lk_insert (GStr "table"); (do i2 <- ins_step i1 (InsColumns [(GStr "a"); (GStr "b"); (GStr "c")]); (do i3 <- ins_step i2 (InsValues [(GStrs ["va"; "vb"; "vc"])]); (do i4 <- ins_step i3 (InsReturning [(GStr "b"); (GStr "a")]); Ok (StInsert i4)))))
  "INSERT INTO ""table"" (""a"", ""b"", ""c"") VALUES ('va', 'vb', 'vc') RETURNING ""b"", ""a"""
  "INSERT INTO ""table"" (""a"", ""b"", ""c"") VALUES ($1, $2, $3) RETURNING ""b"", ""a"""
  "INSERT INTO ""table"" (""a"", ""b"", ""c"") VALUES (:arg_1, :arg_2, :arg_3) RETURNING ""b"", ""a"""
  [(GStr "va"); (GStr "vb"); (GStr "vc")].
Proof. vm_compute. repeat split. Qed.

(* TestInsert_Returning Three columns *)
Example TestInsert_Returning_Three_columns : renders (do i1 <- lk_insert (GStr "table"); (do i2 <- ins_step i1 (InsColumns [(GStr "a"); (GStr "b"); (GStr "c")]); (do i3 <- ins_step i2 (InsValues [(GStrs ["va"; "vb"; "vc"])]); (do i4 <- ins_step i3 (InsReturning [(GStr "b"); (GStr "a"); (GStr "c")]); Ok (StInsert i4)))))
  "INSERT INTO ""table"" (""a"", ""b"", ""c"") VALUES ('va', 'vb', 'vc') RETURNING ""b"", ""a"", ""c"""
  "INSERT INTO ""table"" (""a"", ""b"", ""c"") VALUES ($1, $2, $3) RETURNING ""b"", ""a"", ""c"""
  "INSERT INTO ""table"" (""a"", ""b"", ""c"") VALUES (:arg_1, :arg_2, :arg_3) RETURNING ""b"", ""a"", ""c"""
  [(GStr "va"); (GStr "vb"); (GStr "vc")].
Proof. vm_compute. repeat split. Qed.

(* TestInsert_Returning With alias *)
Example TestInsert_Returning_With_alias : renders (do i1 <- lk_insert (GStr "table"); (do i2 <- ins_step i1 (InsColumns [(GStr "a"); (GStr "b"); (GStr "c")]); (do i3 <- ins_step i2 (InsValues [(GStrs ["va"; "vb"; "vc"])]); (do i4 <- ins_step i3 (InsReturning [(GColumn (column_as (lk_column "a") "alias_a"))]); Ok (StInsert i4)))))
  "INSERT INTO ""table"" (""a"", ""b"", ""c"") VALUES ('va', 'vb', 'vc') RETURNING ""a"" AS ""alias_a"""
  "INSERT INTO ""table"" (""a"", ""b"", ""c"") VALUES ($1, $2, $3) RETURNING ""a"" AS ""alias_a"""
  "INSERT INTO ""table"" (""a"", ""b"", ""c"") VALUES (:arg_1, :arg_2, :arg_3) RETURNING ""a"" AS ""alias_a"""
  [(GStr "va"); (GStr "vb"); (GStr "vc")].
Proof. vm_compute. repeat split. Qed.

(* TestInsert_Returning With two aliases *)
Example TestInsert_Returning_With_two_aliases : renders (do i1 <- lk_insert (GStr "table"); (do i2 <- ins_step i1 (InsColumns [(GStr "a"); (GStr "b"); (GStr "c")]); (do i3 <- ins_step i2 (InsValues [(GStrs ["va"; "vb"; "vc"])]); (do i4 <- ins_step i3 (InsReturning [(GColumn (column_as (lk_column "b") "alias_b")); (GColumn (column_as (lk_column "a") "alias_a"))]); Ok (StInsert i4)))))
  "INSERT INTO ""table"" (""a"", ""b"", ""c"") VALUES ('va', 'vb', 'vc') RETURNING ""b"" AS ""alias_b"", ""a"" AS ""alias_a"""
  "INSERT INTO ""table"" (""a"", ""b"", ""c"") VALUES ($1, $2, $3) RETURNING ""b"" AS ""alias_b"", ""a"" AS ""alias_a"""
  "INSERT INTO ""table"" (""a"", ""b"", ""c"") VALUES (:arg_1, :arg_2, :arg_3) RETURNING ""b"" AS ""alias_b"", ""a"" AS ""alias_a"""
  [(GStr "va"); (GStr "vb"); (GStr "vc")].
Proof. vm_compute. repeat split. Qed.

(* TestInsert_Returning With three aliases *)
Example TestInsert_Returning_With_three_aliases : renders (do i1 <- lk_insert (GStr "table"); (do i2 <- ins_step i1 (InsColumns [(GStr "a"); (GStr "b"); (GStr "c")]); (do i3 <- ins_step i2 (InsValues [(GStrs ["va"; "vb"; "vc"])]); (do i4 <- ins_step i3 (InsReturning [(GColumn (column_as (lk_column "a") "alias_a")); (GColumn (column_as (lk_column "b") "alias_b")); (GColumn (column_as (lk_column "c") "alias_c"))]); Ok (StInsert i4)))))
  "INSERT INTO ""table"" (""a"", ""b"", ""c"") VALUES ('va', 'vb', 'vc') RETURNING ""a"" AS ""alias_a"", ""b"" AS ""alias_b"", ""c"" AS ""alias_c"""
  "INSERT INTO ""table"" (""a"", ""b"", ""c"") VALUES ($1, $2, $3) RETURNING ""a"" AS ""alias_a"", ""b"" AS ""alias_b"", ""c"" AS ""alias_c"""
  "INSERT INTO ""table"" (""a"", ""b"", ""c"") VALUES (:arg_1, :arg_2, :arg_3) RETURNING ""a"" AS ""alias_a"", ""b"" AS ""alias_b"", ""c"" AS ""alias_c"""
  [(GStr "va"); (GStr "vb"); (GStr "vc")].
Proof. vm_compute. repeat split. Qed.

(* TestInsert_Valuer pq.NullTime not null *)
Example TestInsert_Valuer_pq_NullTime_not_null : renders (do i1 <- lk_insert (GStr "table"); (do i2 <- ins_step i1 (InsColumns [(GStr "email"); (GStr "enabled"); (GStr "created_at")]); (do i3 <- ins_step i2 (InsValues [(GStr "tech@ulule.com"); (GBool true); (GValuer (GTime {| tm_sec := 1511455647; tm_nsec := 0 |}))]); Ok (StInsert i3))))
  "INSERT INTO ""table"" (""email"", ""enabled"", ""created_at"") VALUES ('tech@ulule.com', true, '2017-11-23 16:47:27+00')"
  "INSERT INTO ""table"" (""email"", ""enabled"", ""created_at"") VALUES ($1, $2, $3)"
  "INSERT INTO ""table"" (""email"", ""enabled"", ""created_at"") VALUES (:arg_1, :arg_2, :arg_3)"
  [(GStr "tech@ulule.com"); (GBool true); (GValuer (GTime {| tm_sec := 1511455647; tm_nsec := 0 |}))].
Proof. vm_compute. repeat split. Qed.

(* TestInsert_Valuer pq.NullTime null *)
Example TestInsert_Valuer_pq_NullTime_null : renders (do i1 <- lk_insert (GStr "table"); (do i2 <- ins_step i1 (InsColumns [(GStr "email"); (GStr "enabled"); (GStr "created_at")]); (do i3 <- ins_step i2 (InsValues [(GStr "tech@ulule.com"); (GBool true); (GValuer GNil)]); Ok (StInsert i3))))
  "INSERT INTO ""table"" (""email"", ""enabled"", ""created_at"") VALUES ('tech@ulule.com', true, NULL)"
  "INSERT INTO ""table"" (""email"", ""enabled"", ""created_at"") VALUES ($1, $2, $3)"
  "INSERT INTO ""table"" (""email"", ""enabled"", ""created_at"") VALUES (:arg_1, :arg_2, :arg_3)"
  [(GStr "tech@ulule.com"); (GBool true); (GValuer GNil)].
Proof. vm_compute. repeat split. Qed.

(* TestInsert_Valuer sql.NullString not null *)
Example TestInsert_Valuer_sql_NullString_not_null : renders (do i1 <- lk_insert (GStr "table"); (do i2 <- ins_step i1 (InsColumns [(GStr "email"); (GStr "comment")]); (do i3 <- ins_step i2 (InsValues [(GStr "tech@ulule.com"); (GValuer (GStr "foobar"))]); Ok (StInsert i3))))
  "INSERT INTO ""table"" (""email"", ""comment"") VALUES ('tech@ulule.com', 'foobar')"
  "INSERT INTO ""table"" (""email"", ""comment"") VALUES ($1, $2)"
  "INSERT INTO ""table"" (""email"", ""comment"") VALUES (:arg_1, :arg_2)"
  [(GStr "tech@ulule.com"); (GValuer (GStr "foobar"))].
Proof. vm_compute. repeat split. Qed.

(* TestInsert_Valuer sql.NullString null *)
Example TestInsert_Valuer_sql_NullString_null : renders (do i1 <- lk_insert (GStr "table"); (do i2 <- ins_step i1 (InsColumns [(GStr "email"); (GStr "comment")]); (do i3 <- ins_step i2 (InsValues [(GStr "tech@ulule.com"); (GValuer GNil)]); Ok (StInsert i3))))
  "INSERT INTO ""table"" (""email"", ""comment"") VALUES ('tech@ulule.com', NULL)"
  "INSERT INTO ""table"" (""email"", ""comment"") VALUES ($1, $2)"
  "INSERT INTO ""table"" (""email"", ""comment"") VALUES (:arg_1, :arg_2)"
  [(GStr "tech@ulule.com"); (GValuer GNil)].
Proof. vm_compute. repeat split. Qed.

(* TestInsert_Valuer sql.NullInt64 not null *)
Example TestInsert_Valuer_sql_NullInt64_not_null : renders (do i1 <- lk_insert (GStr "table"); (do i2 <- ins_step i1 (InsColumns [(GStr "email"); (GStr "login")]); (do i3 <- ins_step i2 (InsValues [(GStr "tech@ulule.com"); (GValuer (GInt KInt64 (30)))]); Ok (StInsert i3))))
  "INSERT INTO ""table"" (""email"", ""login"") VALUES ('tech@ulule.com', 30)"
  "INSERT INTO ""table"" (""email"", ""login"") VALUES ($1, $2)"
  "INSERT INTO ""table"" (""email"", ""login"") VALUES (:arg_1, :arg_2)"
  [(GStr "tech@ulule.com"); (GValuer (GInt KInt64 (30)))].
Proof. vm_compute. repeat split. Qed.

(* TestInsert_Valuer sql.NullInt64 null *)
Example TestInsert_Valuer_sql_NullInt64_null : renders (do i1 <- lk_insert (GStr "table"); (do i2 <- ins_step i1 (InsColumns [(GStr "email"); (GStr "login")]); (do i3 <- ins_step i2 (InsValues [(GStr "tech@ulule.com"); (GValuer GNil)]); Ok (StInsert i3))))
  "INSERT INTO ""table"" (""email"", ""login"") VALUES ('tech@ulule.com', NULL)"
  "INSERT INTO ""table"" (""email"", ""login"") VALUES ($1, $2)"
  "INSERT INTO ""table"" (""email"", ""login"") VALUES (:arg_1, :arg_2)"
  [(GStr "tech@ulule.com"); (GValuer GNil)].
Proof. vm_compute. repeat split. Qed.

(* TestInsert_Valuer nil valuer *)
Example TestInsert_Valuer_nil_valuer : renders (do i1 <- lk_insert (GStr "table"); (do i2 <- ins_step i1 (InsColumns [(GStr "email"); (GStr "login")]); (do i3 <- ins_step i2 (InsValues [(GStr "tech@ulule.com"); GNilValuer]); Ok (StInsert i3))))
  "INSERT INTO ""table"" (""email"", ""login"") VALUES ('tech@ulule.com', NULL)"
  "INSERT INTO ""table"" (""email"", ""login"") VALUES ($1, $2)"
  "INSERT INTO ""table"" (""email"", ""login"") VALUES (:arg_1, :arg_2)"
  [(GStr "tech@ulule.com"); GNilValuer].
Proof. vm_compute. repeat split. Qed.

(* TestInsert_Set Variadic *)
Example TestInsert_Set_Variadic_0 : renders (do i1 <- lk_insert (GStr "table"); (do i2 <- ins_step i1 (InsSet [(GPair (GStr "email") (GStr "tech@ulule.com")); (GPair (GStr "enabled") (GBool true)); (GPair (GStr "created_at") (GExpr (lk_raw "NOW()")))]); Ok (StInsert i2)))
  "INSERT INTO ""table"" (""created_at"", ""email"", ""enabled"") VALUES (NOW(), 'tech@ulule.com', true)"
  "INSERT INTO ""table"" (""created_at"", ""email"", ""enabled"") VALUES (NOW(), $1, $2)"
  "INSERT INTO ""table"" (""created_at"", ""email"", ""enabled"") VALUES (NOW(), :arg_1, :arg_2)"
  [(GStr "tech@ulule.com"); (GBool true)].
Proof. vm_compute. repeat split. Qed.

(* TestInsert_Set Variadic *)
Example TestInsert_Set_Variadic_1 : renders (do i1 <- lk_insert (GStr "table"); (do i2 <- ins_step i1 (InsSet [(GMap [((GStr "email"), (GStr "tech@ulule.com")); ((GStr "enabled"), (GBool true))]); (GMap [((GStr "created_at"), (GExpr (lk_raw "NOW()")))])]); Ok (StInsert i2)))
  "INSERT INTO ""table"" (""created_at"", ""email"", ""enabled"") VALUES (NOW(), 'tech@ulule.com', true)"
  "INSERT INTO ""table"" (""created_at"", ""email"", ""enabled"") VALUES (NOW(), $1, $2)"
  "INSERT INTO ""table"" (""created_at"", ""email"", ""enabled"") VALUES (NOW(), :arg_1, :arg_2)"
  [(GStr "tech@ulule.com"); (GBool true)].
Proof. vm_compute. repeat split. Qed.

(* TestInsert_Set Variadic *)
Example TestInsert_Set_Variadic_2 : renders (do i1 <- lk_insert (GStr "table"); (do i2 <- ins_step i1 (InsSet [(GMapAny [("email", (GStr "tech@ulule.com"))]); (GMapAny [("enabled", (GBool true)); ("created_at", (GExpr (lk_raw "NOW()")))])]); Ok (StInsert i2)))
  "INSERT INTO ""table"" (""created_at"", ""email"", ""enabled"") VALUES (NOW(), 'tech@ulule.com', true)"
  "INSERT INTO ""table"" (""created_at"", ""email"", ""enabled"") VALUES (NOW(), $1, $2)"
  "INSERT INTO ""table"" (""created_at"", ""email"", ""enabled"") VALUES (NOW(), :arg_1, :arg_2)"
  [(GStr "tech@ulule.com"); (GBool true)].
Proof. vm_compute. repeat split. Qed.
