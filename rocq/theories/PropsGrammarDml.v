(* C50-C52: a rendered Delete, Update or Insert, read with its arguments by the grammar of
   GrammarDml.v, is the statement that the calls describe. *)
From Verif Require Import AssignP.
From Verif Require Import GrammarDmlP GrammarReadP PropsGrammar.

Section Reads.
  Context {O : Oracle} {sty : style}.

  Lemma delete_reads : forall d b, del_says d b -> stmt_reads read_delete (StDelete d) b.
  Proof.
    intros d b H. apply del_says_back in H. destruct (del_reads d b H) as (E & ts & T & G).
    apply (whole_reads _ (fun n => p_delete (p_query n)) (StDelete d) _ _ ts _ E T (db_comment _ _ H)). exact G.
  Qed.
  Lemma update_reads : forall u b, sort_contract o_sort -> upd_says u b -> assigns_something (up_set b) ->
    stmt_reads read_update (StUpdate u) b.
  Proof.
    intros u b C H A. apply upd_says_back in H. destruct (upd_reads u b C H A) as (E & ts & T & G).
    apply (whole_reads _ (fun n => p_update (p_query n)) (StUpdate u) _ _ ts _ E T (ub_comment _ _ H)). exact G.
  Qed.
  Lemma insert_reads : forall i b, sort_contract o_sort -> ins_says i b -> stmt_reads read_insert (StInsert i) b.
  Proof.
    intros i b C H. apply (ins_says_back i b C) in H. destruct (ins_reads i b C H) as (E & ts & T & G).
    apply (whole_reads _ (fun n => p_insert (p_query n)) (StInsert i) _ _ ts _ E T (ib_comment _ _ H)). exact G.
  Qed.
End Reads.

(* ------------------------------------------------------------------------- *)
(* C50: Delete                                                                 *)
(* ------------------------------------------------------------------------- *)

Theorem C50_delete_read_back {O : Oracle} : forall d b, del_says (m := Bound) d b ->
  exists text values, query (StDelete d) = Ok (text, values) /\ read_delete (numbered values) text = Some b.
Proof. intros. apply reads_number, delete_reads; assumption. Qed.
Print Assumptions C50_delete_read_back.

Theorem C50_one_reading {O : Oracle} : forall d b d' b', del_says (m := Bound) d b -> del_says (m := Bound) d' b' ->
  query (StDelete d) = query (StDelete d') -> b = b'.
Proof.
  intros d b d' b' H H' E.
  destruct (C50_delete_read_back d b H) as (t & v & Q & R).
  destruct (C50_delete_read_back d' b' H') as (t' & v' & Q' & R').
  rewrite Q, Q' in E. injection E as <- <-. rewrite R in R'. injection R' as <-. reflexivity.
Qed.
Print Assumptions C50_one_reading.

(* ------------------------------------------------------------------------- *)
(* C51: Update                                                                 *)
(* ------------------------------------------------------------------------- *)

Theorem C51_update_read_back {O : Oracle} : forall u b, sort_contract o_sort -> upd_says (m := Bound) u b ->
  assigns_something (up_set b) ->
  exists text values, query (StUpdate u) = Ok (text, values) /\ read_update (numbered values) text = Some b.
Proof. intros. apply reads_number, update_reads; assumption. Qed.
Print Assumptions C51_update_read_back.

Theorem C51_one_reading {O : Oracle} : forall u b u' b', sort_contract o_sort -> upd_says (m := Bound) u b -> upd_says (m := Bound) u' b' ->
  assigns_something (up_set b) -> assigns_something (up_set b') ->
  query (StUpdate u) = query (StUpdate u') -> b = b'.
Proof.
  intros u b u' b' C H H' A A' E.
  destruct (C51_update_read_back u b C H A) as (t & v & Q & R).
  destruct (C51_update_read_back u' b' C H' A') as (t' & v' & Q' & R').
  rewrite Q, Q' in E. injection E as <- <-. rewrite R in R'. injection R' as <-. reflexivity.
Qed.
Print Assumptions C51_one_reading.

(* ------------------------------------------------------------------------- *)
(* C52: Insert                                                                 *)
(* ------------------------------------------------------------------------- *)

Theorem C52_insert_read_back {O : Oracle} : forall i b, sort_contract o_sort -> ins_says (m := Bound) i b ->
  exists text values, query (StInsert i) = Ok (text, values) /\ read_insert (numbered values) text = Some b.
Proof. intros. apply reads_number, insert_reads; assumption. Qed.
Print Assumptions C52_insert_read_back.

Theorem C52_one_reading {O : Oracle} : forall i b i' b', sort_contract o_sort -> ins_says (m := Bound) i b -> ins_says (m := Bound) i' b' ->
  query (StInsert i) = query (StInsert i') -> b = b'.
Proof.
  intros i b i' b' C H H' E.
  destruct (C52_insert_read_back i b C H) as (t & v & Q & R).
  destruct (C52_insert_read_back i' b' C H') as (t' & v' & Q' & R').
  rewrite Q, Q' in E. injection E as <- <-. rewrite R in R'. injection R' as <-. reflexivity.
Qed.
Print Assumptions C52_one_reading.

(* ------------------------------------------------------------------------- *)
(* Examples                                                                    *)
(* ------------------------------------------------------------------------- *)

Section Examples.
  #[local] Existing Instance go_oracle.
  #[local] Existing Instance Bound.

  (* Delete("users").Using("m").Where(Condition("a").Equal(1)).And(Exists(...)).Returning("id") *)
  Definition x1 : delete := {| d_from := [FTable (lk_table "users")]; d_using := []; d_where := ENil; d_returning := []; d_comment := "" |}.
  Definition y1 : dbody := {| de_from := [tb "users" ""]; de_using := []; de_where := None; de_returning := [] |}.
  Lemma X1 : del_says x1 y1.
  Proof. apply (del_new (GStr "users") (tb "users" "")); [apply (table_string "users"); reflexivity|reflexivity]. Qed.
  Definition x2 : delete := {| d_from := d_from x1; d_using := [lk_table "m"]; d_where := ENil; d_returning := []; d_comment := "" |}.
  Definition y2 : dbody := {| de_from := de_from y1; de_using := [tb "m" ""]; de_where := None; de_returning := [] |}.
  Lemma X2 : del_says x2 y2.
  Proof.
    apply (del_using x1 y1 [GStr "m"] [tb "m" ""]); [apply X1| |reflexivity].
    constructor; [apply (table_string "m"); reflexivity|constructor].
  Qed.
  Definition x3 : delete := {| d_from := d_from x2; d_using := d_using x2; d_where := new_wrapper e4; d_returning := []; d_comment := "" |}.
  Definition y3 : dbody := {| de_from := de_from y2; de_using := de_using y2; de_where := Some f4; de_returning := [] |}.
  Lemma X3 : del_says x3 y3.
  Proof.
    apply (del_where x2 y2 e4 f4); [apply X2| |reflexivity].
    apply (says_cmp "a" OpEqual (GInt KInt 1)); [reflexivity|apply operand_value, value_bound; reflexivity|reflexivity].
  Qed.
  Definition ex4 : expr := EExists (ESelect u2).
  Definition x4 : delete := {| d_from := d_from x3; d_using := d_using x3; d_where := EInfix (new_wrapper e4) (Some "AND") (new_wrapper ex4); d_returning := []; d_comment := "" |}.
  Definition y4 : dbody := {| de_from := de_from y3; de_using := de_using y3; de_where := Some (FAnd f4 (FExists false (Query c2))); de_returning := [] |}.
  Lemma X4 : del_says x4 y4.
  Proof.
    apply (del_and x3 y3 ex4 (FExists false (Query c2)) f4); [apply X3| |reflexivity|reflexivity].
    apply (says_exists (g_select u2) u2 c2); [apply sub_builder|apply S2| |reflexivity]. split; [discriminate|reflexivity].
  Qed.
  Definition x5 : delete := {| d_from := d_from x4; d_using := d_using x4; d_where := d_where x4; d_returning := [SColumn (lk_column "id")]; d_comment := "" |}.
  Definition y5 : dbody := {| de_from := de_from y4; de_using := de_using y4; de_where := de_where y4; de_returning := [ItName ["id"] []] |}.
  Lemma X5 : del_says x5 y5.
  Proof.
    apply (del_returning x4 y4 [GStr "id"]); [apply X4| |reflexivity].
    apply args_items. exact (strings_say "id" ["id"] [] [] eq_refl eq_refl items_none).
  Qed.
  Definition x6 : delete := {| d_from := d_from x5; d_using := d_using x5; d_where := d_where x5; d_returning := d_returning x5; d_comment := "ok" |}.

  Example C50_delete_read_back_ex : del_says x6 {|
      de_from := [{| tb_only := false; tb_name := ["users"]; tb_alias := [] |}];
      de_using := [{| tb_only := false; tb_name := ["m"]; tb_alias := [] |}];
      de_where := Some (FAnd (FCmp (MName ["a"]) "=" (MVal (GInt KInt 1))) (FExists false (Query c2)));
      de_returning := [ItName ["id"] []] |}
    /\ query (StDelete x6) = Ok
       ("DELETE FROM ""users"" USING ""m"" WHERE ((""a"" = $1) AND (EXISTS (SELECT ""id"" FROM ""b""))) RETURNING ""id""; -- ok",
        [GInt KInt 1]).
  Proof. split; [apply (del_comment x5 y5 "ok"); [exact X5|reflexivity|reflexivity]|]. vm_compute. reflexivity. Qed.

  (* Update("users").Only().Set(Map{"b": 2, "a": 1}, Pair("c", Select("id").From("b"))).Set(Pair("a", nil))
       .Where(...).From("m").Returning("id") *)
  Definition no_pairs : pairs := {| p_mode := PUnknown; p_map := []; p_cols := []; p_exprs := [] |}.
  Definition v1 : update := {| u_with := []; u_table := lk_table "users"; u_only := false; u_from := []; u_set := no_pairs;
    u_where := ENil; u_returning := []; u_comment := "" |}.
  Definition z1 : ubody := {| up_with := []; up_table := tb "users" ""; up_set := SetEach []; up_from := []; up_where := None; up_returning := [] |}.
  Lemma V1 : upd_says v1 z1.
  Proof. apply (upd_new (GStr "users") (tb "users" "")); [apply (table_string "users"); reflexivity|reflexivity]. Qed.
  Definition v2 : update := upd_with_only v1 true.
  Definition z2 : ubody := {| up_with := []; up_table := {| tb_only := true; tb_name := ["users"]; tb_alias := [] |};
    up_set := SetEach []; up_from := []; up_where := None; up_returning := [] |}.
  Lemma V2 : upd_says v2 z2.
  Proof. apply (upd_only v1 z1); [apply V1|reflexivity|reflexivity]. Qed.
  Definition p3 : pairs := {| p_mode := PAssoc;
    p_map := [(lk_column "b", EValue (GInt KInt 2)); (lk_column "a", EValue (GInt KInt 1)); (lk_column "c", EWrap (ESelect u2))];
    p_cols := [lk_column "b"; lk_column "a"; lk_column "c"]; p_exprs := [] |}.
  Definition v3 : update := upd_with_set v2 p3.
  Definition m3 : list (name * term) := [(["a"], MVal (GInt KInt 1)); (["b"], MVal (GInt KInt 2)); (["c"], MSub (Query c2))].
  Definition z3 : ubody := put_set (SetEach m3) z2.
  Lemma V3 : upd_says v3 z3.
  Proof.
    apply (upd_set v2 z2 [GMapAny [("b", GInt KInt 2); ("a", GInt KInt 1)]; GPair (GStr "c") (g_select u2)] []
             [(["b"], MVal (GInt KInt 2)); (["a"], MVal (GInt KInt 1)); (["c"], MSub (Query c2))]); [apply V2|reflexivity| |reflexivity].
    apply (pairs_any _ [(["b"], MVal (GInt KInt 2)); (["a"], MVal (GInt KInt 1))]).
    - constructor; [|constructor; [|constructor]].
      + split; [apply (key_string "b"); reflexivity|apply source_value, value_bound; reflexivity].
      + split; [apply (key_string "a"); reflexivity|apply source_value, value_bound; reflexivity].
    - apply pairs_pair; [|apply pairs_none].
      split; [apply (key_string "c"); reflexivity|]. apply (source_sub _ u2); [apply sub_builder|apply S2|].
      split; [discriminate|reflexivity].
  Qed.
  Definition p4 : pairs := {| p_mode := PAssoc;
    p_map := [(lk_column "b", EValue (GInt KInt 2)); (lk_column "a", EValue GNil); (lk_column "c", EWrap (ESelect u2))];
    p_cols := [lk_column "b"; lk_column "a"; lk_column "c"]; p_exprs := [] |}.
  Definition v4 : update := upd_with_set v2 p4.
  Definition m4 : list (name * term) := [(["a"], MNull); (["b"], MVal (GInt KInt 2)); (["c"], MSub (Query c2))].
  Definition z4 : ubody := put_set (SetEach m4) z2.
  Lemma V4 : upd_says v4 z4.
  Proof.
    apply (upd_set v3 z3 [GPair (GStr "a") GNil] m3 [(["a"], MNull)]); [apply V3|reflexivity| |reflexivity].
    apply pairs_pair; [|apply pairs_none]. split; [apply (key_string "a"); reflexivity|apply source_value, value_bound; reflexivity].
  Qed.
  Definition v5 : update := upd_with_where v4 (new_wrapper e4).
  Definition z5 : ubody := put_where f4 z4.
  Lemma V5 : upd_says v5 z5.
  Proof.
    apply (upd_where v4 z4 e4 f4); [apply V4| |reflexivity].
    apply (says_cmp "a" OpEqual (GInt KInt 1)); [reflexivity|apply operand_value, value_bound; reflexivity|reflexivity].
  Qed.
  Definition v6 : update := upd_with_from v5 [FTable (lk_table "m")].
  Definition z6 : ubody := {| up_with := []; up_table := up_table z2; up_set := SetEach m4; up_from := [tb "m" ""];
    up_where := Some f4; up_returning := [] |}.
  Lemma V6 : upd_says v6 z6.
  Proof. apply (upd_from v5 z5 (GStr "m") (tb "m" "")); [apply V5|apply (table_string "m"); reflexivity|reflexivity]. Qed.
  Definition v7 : update := upd_with_returning v6 [SColumn (lk_column "id")].

  Example C51_update_read_back_ex : sort_contract o_sort /\ upd_says v7 {|
      up_with := []; up_table := {| tb_only := true; tb_name := ["users"]; tb_alias := [] |};
      up_set := SetEach [(["a"], MNull); (["b"], MVal (GInt KInt 2)); (["c"], MSub (Query c2))];
      up_from := [{| tb_only := false; tb_name := ["m"]; tb_alias := [] |}];
      up_where := Some (FCmp (MName ["a"]) "=" (MVal (GInt KInt 1)));
      up_returning := [ItName ["id"] []] |}
    /\ query (StUpdate v7) = Ok
       ("UPDATE ONLY ""users"" SET ""a"" = NULL, ""b"" = $1, ""c"" = (SELECT ""id"" FROM ""b"") FROM ""m"" WHERE (""a"" = $2) RETURNING ""id""",
        [GInt KInt 2; GInt KInt 1]).
  Proof.
    split; [exact insertion_contract|]. split.
    - apply (upd_returning v6 z6 [GStr "id"]); [exact V6| |reflexivity].
      apply args_items. exact (strings_say "id" ["id"] [] [] eq_refl eq_refl items_none).
    - vm_compute. reflexivity.
  Qed.

  (* Update("users").Set("a", "b").Using(1, nil) *)
  Definition p8 : pairs := {| p_mode := PArray; p_map := []; p_cols := [lk_column "a"; lk_column "b"]; p_exprs := [] |}.
  Definition v8 : update := upd_with_set v1 p8.
  Definition z8 : ubody := put_set (SetList [["a"]; ["b"]] (SValues [])) z1.
  Lemma V8 : upd_says v8 z8.
  Proof.
    apply (upd_columns v1 z1 [GColumn (lk_column "a"); GColumn (lk_column "b")] [["a"]; ["b"]]); [apply V1|reflexivity| |reflexivity].
    apply (columns_value "a"); [reflexivity|]. apply (columns_value "b"); [reflexivity|apply columns_none].
  Qed.
  Definition v9 : update := upd_with_set v1 {| p_mode := PArray; p_map := []; p_cols := p_cols p8;
    p_exprs := [EValue (GInt KInt 1); EValue GNil] |}.
  Example C51_list_ex : upd_says v9 (put_set (SetList [["a"]; ["b"]] (SValues [MVal (GInt KInt 1); MNull])) z1)
    /\ query (StUpdate v9) = Ok ("UPDATE ""users"" SET (""a"", ""b"") = ($1, NULL)", [GInt KInt 1]).
  Proof.
    split; [|vm_compute; reflexivity].
    apply (upd_using v8 z8 [GInt KInt 1; GNil] [["a"]; ["b"]] [] [MVal (GInt KInt 1); MNull]); [exact V8|reflexivity| |reflexivity].
    repeat constructor.
  Qed.
  (* Update("users").Set("a", "b").Using(Select("id").From("b")) *)
  Definition v10 : update := upd_with_set v1 {| p_mode := PArray; p_map := []; p_cols := p_cols p8; p_exprs := [ESelect u2] |}.
  Example C51_subquery_ex : upd_says v10 (put_set (SetList [["a"]; ["b"]] (SQuery (Query c2))) z1)
    /\ query (StUpdate v10) = Ok ("UPDATE ""users"" SET (""a"", ""b"") = (SELECT ""id"" FROM ""b"")", []).
  Proof.
    split; [|vm_compute; reflexivity].
    apply (upd_using_sub v8 z8 (g_select u2) u2 c2 [["a"]; ["b"]]); [exact V8|reflexivity|apply sub_builder|apply S2| |reflexivity].
    split; [discriminate|reflexivity].
  Qed.

  (* Raw calls as values: NOW() and COALESCE(a, 'x)y') satisfy raw_call. *)
  Lemma now_call : raw_call "NOW()" "NOW" [].
  Proof.
    split; [reflexivity|]. split; [reflexivity|]. split; [reflexivity|]. split; [reflexivity|].
    exists "". split; [reflexivity|]. intro E. reflexivity.
  Qed.
  Lemma coalesce_call : raw_call "COALESCE(a, 'x)y')" "COALESCE" [KWord "a"; KComma; KVal (GStr "x)y")].
  Proof.
    split; [reflexivity|]. split; [reflexivity|]. split; [reflexivity|]. split; [reflexivity|].
    exists "a, 'x)y'". split; [reflexivity|]. intro E. reflexivity.
  Qed.
  (* Update("users").Set("a", "b").Using(Raw("NOW()"), Raw("COALESCE(a, 'x)y')")) *)
  Definition v11 : update := upd_with_set v1 {| p_mode := PArray; p_map := []; p_cols := p_cols p8;
    p_exprs := [ERaw "NOW()"; ERaw "COALESCE(a, 'x)y')"] |}.
  Example C51_raw_ex : upd_says v11 (put_set (SetList [["a"]; ["b"]]
      (SValues [MCall "NOW" []; MCall "COALESCE" [KWord "a"; KComma; KVal (GStr "x)y")]])) z1)
    /\ query (StUpdate v11) = Ok ("UPDATE ""users"" SET (""a"", ""b"") = (NOW(), COALESCE(a, 'x)y'))", []).
  Proof.
    split; [|vm_compute; reflexivity].
    apply (upd_using v8 z8 [GExpr (ERaw "NOW()"); GExpr (ERaw "COALESCE(a, 'x)y')")] [["a"]; ["b"]] []
             [MCall "NOW" []; MCall "COALESCE" [KWord "a"; KComma; KVal (GStr "x)y")]]); [exact V8|reflexivity| |reflexivity].
    constructor; [exact (value_raw _ _ _ now_call)|].
    constructor; [exact (value_raw _ _ _ coalesce_call)|constructor].
  Qed.

  (* Update("users").Set("a", "b").Using(Raw("news.title"), Raw("NOW()")) *)
  Definition v12 : update := upd_with_set v1 {| p_mode := PArray; p_map := []; p_cols := p_cols p8;
    p_exprs := [ERaw "news.title"; ERaw "NOW()"] |}.
  Example C51_raw_column_ex : upd_says v12 (put_set (SetList [["a"]; ["b"]]
      (SValues [MName ["news"; "title"]; MCall "NOW" []])) z1)
    /\ query (StUpdate v12) = Ok ("UPDATE ""users"" SET (""a"", ""b"") = (news.title, NOW())", []).
  Proof.
    split; [|vm_compute; reflexivity].
    apply (upd_using v8 z8 [GExpr (ERaw "news.title"); GExpr (ERaw "NOW()")] [["a"]; ["b"]] []
             [MName ["news"; "title"]; MCall "NOW" []]); [exact V8|reflexivity| |reflexivity].
    constructor; [exact (value_column "news.title" eq_refl)|].
    constructor; [exact (value_raw _ _ _ now_call)|constructor].
  Qed.

  (* Update("users").Set(Pair("a", NewIdentifier("b")), Pair("c", NewCall("lower", NewIdentifier("d"))))
     .Where(Condition("a").NotEqual(NewIdentifier("b"))) *)
  Definition lower_d : expr := new_call "lower" [lk_condition (GStr "d")].
  Lemma lower_d_says : call_says lower_d (MCall "lower" [KName ["d"]]).
  Proof.
    apply (call_new "lower" _ [KName ["d"]]); [reflexivity|reflexivity|reflexivity|].
    constructor; [apply (argument_column "d"); reflexivity|constructor].
  Qed.
  Definition p13 : pairs := {| p_mode := PAssoc;
    p_map := [(lk_column "a", lk_condition (GStr "b")); (lk_column "c", lower_d)];
    p_cols := [lk_column "a"; lk_column "c"]; p_exprs := [] |}.
  Definition m13 : list (name * term) := [(["a"], MName ["b"]); (["c"], MCall "lower" [KName ["d"]])].
  Definition v13 : update := upd_with_set v1 p13.
  Definition z13 : ubody := put_set (SetEach m13) z1.
  Definition e13 : expr := EInfix (lk_condition (GStr "a")) (Some "!=") (lk_condition (GStr "b")).
  Definition f13 : formula := FCmp (MName ["a"]) "!=" (MName ["b"]).
  Definition v14 : update := upd_with_where v13 (new_wrapper e13).
  Example C51_columns_ex : upd_says v14 (put_where f13 z13)
    /\ query (StUpdate v14) = Ok ("UPDATE ""users"" SET ""a"" = ""b"", ""c"" = lower(""d"") WHERE (""a"" != ""b"")", []).
  Proof.
    split; [|vm_compute; reflexivity].
    apply (upd_where v13 z13 e13 f13); [| |reflexivity].
    - apply (upd_set v1 z1 [GPair (GStr "a") (GExpr (lk_condition (GStr "b"))); GPair (GStr "c") (GExpr lower_d)] [] m13);
        [apply V1|reflexivity| |reflexivity].
      apply pairs_pair; [split; [apply (key_string "a"); reflexivity|apply (source_column "b"); reflexivity]|].
      apply pairs_pair; [|apply pairs_none]. split; [apply (key_string "c"); reflexivity|].
      apply source_value, value_call, lower_d_says.
    - apply (says_cmp "a" OpNotEqual (GExpr (lk_condition (GStr "b")))); [reflexivity|apply (operand_column _ "b"); reflexivity|reflexivity].
  Qed.

  (* Insert("users").Columns("a, b").Values([][]interface{}{{1, nil}, {"x", 2}})
       .OnConflict("a", DoUpdate(Pair("b", 3))).Returning("id") *)
  Definition i1 : insert := ins_with_into new_insert (lk_table "users").
  Definition j1 : ibody := {| in_table := tb "users" ""; in_columns := []; in_rows := []; in_conflict := None; in_returning := [] |}.
  Lemma I1 : ins_says i1 j1.
  Proof. apply (ins_new (GStr "users") (tb "users" "")); [apply (table_string "users"); reflexivity|reflexivity]. Qed.
  Definition i2 : insert := ins_with_columns i1 [lk_column "a"; lk_column "b"].
  Definition j2 : ibody := put_rows [["a"]; ["b"]] [] j1.
  Lemma I2 : ins_says i2 j2.
  Proof.
    apply (ins_columns i1 j1 [GColumn (lk_column "a"); GColumn (lk_column "b")] [["a"]; ["b"]]); [apply I1|discriminate| |reflexivity].
    apply columns_each, (columns_value "a"); [reflexivity|]. apply (columns_value "b"); [reflexivity|apply columns_none].
  Qed.
  Definition i3 : insert := ins_with_values i2
    (EArrayList [EArray [EValue (GInt KInt 1); EValue GNil]; EArray [EValue (GStr "x"); EValue (GInt KInt 2)]]).
  Definition j3 : ibody := put_rows [["a"]; ["b"]] [[MVal (GInt KInt 1); MNull]; [MVal (GStr "x"); MVal (GInt KInt 2)]] j2.
  Lemma I3 : ins_says i3 j3.
  Proof.
    apply (ins_batch i2 j2 (GAnyss [[GInt KInt 1; GNil]; [GStr "x"; GInt KInt 2]]) [[GInt KInt 1; GNil]; [GStr "x"; GInt KInt 2]]);
      [apply I2|apply Rows.batch_any|discriminate| |reflexivity].
    constructor; [|constructor; [|constructor]]; (split; [discriminate|]; split; [reflexivity|repeat constructor]).
  Qed.
  Definition p5 : pairs := {| p_mode := PAssoc; p_map := [(lk_column "b", EValue (GInt KInt 3))]; p_cols := [lk_column "b"]; p_exprs := [] |}.
  Definition i4 : insert := ins_with_conflict i3 [lk_column "a"] (Some (ActUpdate p5)).
  Definition j4 : ibody := put_conflict ([["a"]], DoUpdate [(["b"], MVal (GInt KInt 3))]) j3.
  Lemma I4 : ins_says i4 j4.
  Proof.
    apply (ins_do_update i3 j3 [GStr "a"] [["a"]] [GPair (GStr "b") (GInt KInt 3)] [(["b"], MVal (GInt KInt 3))] (GConflictUpdate p5));
      [apply I3| | |discriminate|reflexivity|reflexivity].
    - constructor; [apply (key_string "a"); reflexivity|constructor].
    - apply pairs_pair; [|apply pairs_none]. split; [apply (key_string "b"); reflexivity|apply source_value, value_bound; reflexivity].
  Qed.
  Definition i5 : insert := ins_with_returning i4 [SColumn (lk_column "id")].

  Example C52_insert_read_back_ex : sort_contract o_sort /\ ins_says i5 {|
      in_table := {| tb_only := false; tb_name := ["users"]; tb_alias := [] |};
      in_columns := [["a"]; ["b"]];
      in_rows := [[MVal (GInt KInt 1); MNull]; [MVal (GStr "x"); MVal (GInt KInt 2)]];
      in_conflict := Some ([["a"]], DoUpdate [(["b"], MVal (GInt KInt 3))]);
      in_returning := [ItName ["id"] []] |}
    /\ query (StInsert i5) = Ok
       ("INSERT INTO ""users"" (""a"", ""b"") VALUES ($1, NULL), ($2, $3) ON CONFLICT (""a"") DO UPDATE SET ""b"" = $4 RETURNING ""id""",
        [GInt KInt 1; GStr "x"; GInt KInt 2; GInt KInt 3]).
  Proof.
    split; [exact insertion_contract|]. split.
    - apply (ins_returning i4 j4 [GStr "id"]); [exact I4| |reflexivity].
      apply args_items. exact (strings_say "id" ["id"] [] [] eq_refl eq_refl items_none).
    - vm_compute. reflexivity.
  Qed.

  (* Insert("users").Set(Pair("b", 2), Pair("a", 1)).OnConflict(DoNothing()) *)
  Definition i6 : insert := ins_with_values (ins_with_columns i1 [lk_column "a"; lk_column "b"])
    (EArrayList [EArray [EValue (GInt KInt 1); EValue (GInt KInt 2)]]).
  Definition j6 : ibody := put_rows [["a"]; ["b"]] [[MVal (GInt KInt 1); MVal (GInt KInt 2)]] j1.
  Lemma I6 : ins_says i6 j6.
  Proof.
    apply (ins_set i1 j1 [GPair (GStr "b") (GInt KInt 2); GPair (GStr "a") (GInt KInt 1)]
             [(["b"], MVal (GInt KInt 2)); (["a"], MVal (GInt KInt 1))]); [apply I1| |discriminate|reflexivity].
    apply pairs_pair; [split; [apply (key_string "b"); reflexivity|apply source_value, value_bound; reflexivity]|].
    apply pairs_pair; [split; [apply (key_string "a"); reflexivity|apply source_value, value_bound; reflexivity]|]. apply pairs_none.
  Qed.
  Definition i7 : insert := ins_with_conflict i6 [] (Some ActNothing).
  Example C52_set_ex : ins_says i7 (put_conflict ([], DoNothing) j6)
    /\ query (StInsert i7) = Ok
       ("INSERT INTO ""users"" (""a"", ""b"") VALUES ($1, $2) ON CONFLICT DO NOTHING", [GInt KInt 1; GInt KInt 2]).
  Proof.
    split; [|vm_compute; reflexivity].
    apply (ins_do_nothing i6 j6 [] []); [exact I6|constructor|reflexivity].
  Qed.
End Examples.
