(* C49: a rendered Select, read with its arguments by the grammar of Grammar.v, is the query
   that the calls describe. *)
From Verif Require Import GrammarBodyP GrammarReadP Sort.

(* ------------------------------------------------------------------------- *)
(* C49                                                                         *)
(* ------------------------------------------------------------------------- *)

Theorem C49_select_read_back {O : Oracle} : forall s b, sel_says (m := Bound) s b -> q_items b <> [] ->
  exists text values, query (StSelect s) = Ok (text, values)
    /\ read_query (numbered values) text = Some (Query b).
Proof. intros s b H N. apply reads_number, select_reads; assumption. Qed.
Print Assumptions C49_select_read_back.

(* The calls that gave a statement describe one query only, and builders that describe
   different queries differ in their SQL or in their values. *)
Theorem C49_one_reading {O : Oracle} : forall s b s' b', sel_says (m := Bound) s b -> sel_says (m := Bound) s' b' ->
  q_items b <> [] -> q_items b' <> [] ->
  query (StSelect s) = query (StSelect s') -> b = b'.
Proof.
  intros s b s' b' H H' N N' E.
  destruct (C49_select_read_back s b H N) as (t & v & Q & R).
  destruct (C49_select_read_back s' b' H' N') as (t' & v' & Q' & R').
  rewrite Q, Q' in E. injection E as <- <-. rewrite R in R'. injection R' as <-. reflexivity.
Qed.
Print Assumptions C49_one_reading.

(* A query with a subquery, a join, connectives, an aggregate, WITH and a comment. *)
Section Example_.
  #[local] Existing Instance go_oracle.
  #[local] Existing Instance Bound.

  Lemma strings_say : forall x items rest l, items = split_on "," x ->
    forallb (fun i => plain_name (trim_space i)) items = true -> items_say rest l ->
    items_say (GStr x :: rest) (map (fun i => ItName (parts_of (trim_space i)) []) items ++ l)%list.
  Proof.
    intros x items rest l -> F H. apply items_string; [apply items_split; reflexivity| |exact H].
    apply Forall_forall. intros i Hi. rewrite forallb_forall in F. apply F, Hi.
  Qed.

  (* The subquery. *)
  Definition u1 := with_exprs new_select [SColumn (lk_column "id")].
  Definition u2 := with_from u1 [FTable (lk_table "b")].
  Definition tb (x a : string) : tableref := {| tb_only := false; tb_name := parts_of x; tb_alias := parts_of a |}.
  Definition c1 := set_items [ItName ["id"] []] empty_body.
  Definition c2 := set_from [tb "b" ""] c1.
  Lemma S2 : sel_says u2 c2.
  Proof.
    eapply (sel_from u1 c1 [GStr "b"]); [|repeat constructor|reflexivity].
    eapply (sel_columns new_select empty_body [GStr "id"]); [apply sel_new|discriminate| |reflexivity].
    apply args_items. exact (strings_say "id" ["id"] [] [] eq_refl eq_refl items_none).
  Qed.

  (* The query. *)
  Definition agg : selexpr := agg_as (agg_distinct (lk_count "x") true) "n".
  Definition q1 := with_exprs new_select [SColumn (lk_column "u.id"); SColumn (lk_column "name"); agg].
  Definition b1 := set_items [ItName ["u"; "id"] []; ItName ["name"] []; ItAgg "COUNT" true "x" "n"] empty_body.
  Lemma Q1 : sel_says q1 b1.
  Proof.
    eapply (sel_columns new_select empty_body [GStr "u.id, name"; GSel agg]); [apply sel_new|discriminate| |reflexivity].
    apply args_items, (strings_say "u.id, name" ["u.id"; " name"] [GSel agg] [ItAgg "COUNT" true "x" "n"]); [reflexivity|reflexivity|].
    apply items_agg; [|apply items_none].
    apply agg_as_call with (a := ""); [|reflexivity]. apply agg_distinct_call with (d := false). apply agg_count. reflexivity.
  Qed.
  Definition users := table_as (lk_table "users") "u".
  Definition q2 := with_from q1 [FTable users].
  Definition b2 := set_from [tb "users" "u"] b1.
  Lemma Q2 : sel_says q2 b2.
  Proof.
    eapply (sel_from q1 b1 [GTable users]); [apply Q1| |reflexivity].
    constructor; [|constructor]. apply table_value. apply table_as_call with (a := []); [|reflexivity].
    apply (table_new "users"). reflexivity.
  Qed.

  Definition on3 := lk_and_on (lk_on "m.a" "u.b") (lk_on "m.c" "u.d").
  Definition f3 : formula := FAnd (FCmp (MName ["m"; "a"]) "=" (MName ["u"; "b"])) (FCmp (MName ["m"; "c"]) "=" (MName ["u"; "d"])).
  Definition q3 := with_joins q2 [{| j_type := "LEFT JOIN"; j_table := lk_table "m"; j_cond := on3 |}].
  Definition b3 := set_joins [(["LEFT"; "JOIN"], tb "m" "", f3)] b2.
  Lemma Q3 : sel_says q3 b3.
  Proof.
    apply (sel_join_type q2 b2 (GStr "m") (tb "m" "") on3 f3 ["LEFT"; "JOIN"]); [apply Q2| | | |reflexivity].
    - apply (table_string "m"). reflexivity.
    - apply on_and; [apply (on_equal "m.a" "u.b")|apply (on_equal "m.c" "u.d")]; reflexivity.
    - right. left. reflexivity.
  Qed.

  Definition e4 : expr := EInfix (lk_condition (GStr "a")) (Some "=") (EValue (GInt KInt 1)).
  Definition f4 : formula := FCmp (MName ["a"]) "=" (MVal (GInt KInt 1)).
  Definition q4 := with_where q3 (new_wrapper e4).
  Definition b4 := set_where (Some f4) b3.
  Lemma Q4 : sel_says q4 b4.
  Proof.
    apply (sel_where q3 b3 e4 f4); [apply Q3| |reflexivity].
    apply (says_cmp "a" OpEqual (GInt KInt 1)); [reflexivity|apply operand_value, value_bound; reflexivity|reflexivity].
  Qed.
  Definition e5 : expr := EIn (lk_condition (GStr "b")) "NOT IN" (EArray [EValue (GStr "x"); EValue GNil]).
  Definition f5 : formula := FIn true (MName ["b"]) [MVal (GStr "x"); MNull].
  Definition q5 := with_where q4 (EInfix (new_wrapper e4) (Some "AND") (new_wrapper e5)).
  Definition b5 := set_where (Some (FAnd f4 f5)) b4.
  Lemma Q5 : sel_says q5 b5.
  Proof.
    apply (sel_and q4 b4 e5 f5 f4); [apply Q4| |reflexivity|reflexivity].
    apply (says_not_in "b" [GStr "x"; GNil]); [reflexivity|discriminate|discriminate|reflexivity| |reflexivity].
    repeat constructor.
  Qed.
  Definition e6 : expr := EIn (lk_condition (GStr "id")) "IN" (EArray [ESelect u2]).
  Definition f6 : formula := FInSub false (MName ["id"]) (Query c2).
  Definition q6 := with_where q5 (EInfix (EInfix (new_wrapper e4) (Some "AND") (new_wrapper e5)) (Some "OR") (new_wrapper e6)).
  Definition b6 := set_where (Some (FOr (FAnd f4 f5) f6)) b5.
  Lemma Q6 : sel_says q6 b6.
  Proof.
    apply (sel_or q5 b5 e6 f6 (FAnd f4 f5)); [apply Q5| |reflexivity|reflexivity].
    apply (says_in_sub "id" (g_select u2) u2 c2); [reflexivity|apply sub_builder|apply S2| |reflexivity].
    split; [discriminate|reflexivity].
  Qed.
  Definition q7 := with_group_by q6 [lk_column "u.id"; lk_column "name"].
  Definition b7 := set_group_by [["u"; "id"]; ["name"]] b6.
  Lemma Q7 : sel_says q7 b7.
  Proof.
    apply (sel_group_by q6 b6 [GColumn (lk_column "u.id"); GColumn (lk_column "name")]); [apply Q6| |reflexivity].
    apply columns_each, (columns_value "u.id"); [reflexivity|]. apply (columns_value "name"); [reflexivity|]. apply columns_none.
  Qed.
  Definition e8 : expr := EBetween (GStr "z") "BETWEEN" (EValue (GInt KInt 2)) "AND" (EValue (GInt KInt 3)).
  Definition f8 : formula := FBetween false (MName ["z"]) (MVal (GInt KInt 2)) (MVal (GInt KInt 3)).
  Definition q8 := with_having q7 e8.
  Definition b8 := set_having (Some f8) b7.
  Lemma Q8 : sel_says q8 b8.
  Proof.
    apply (sel_having q7 b7 e8 f8); [apply Q7| |reflexivity].
    apply (says_between "z" (GInt KInt 2) (GInt KInt 3)); try apply value_bound; reflexivity.
  Qed.
  Definition q9 := with_order_by q8 [lk_order "u.id" ["DESC"]].
  Definition b9 := set_order_by [("u.id", "DESC")] b8.
  Lemma Q9 : sel_says q9 b9.
  Proof.
    apply (sel_order_by q8 b8 [lk_order "u.id" ["DESC"]]); [apply Q8| |reflexivity].
    constructor; [|constructor]. apply order_option; [reflexivity|right; left; reflexivity].
  Qed.
  Definition q10 := with_limit q9 10.
  Definition b10 := set_limit (Some 10%N) b9.
  Lemma Q10 : sel_says q10 b10.
  Proof. apply (sel_limit q9 b9 (GInt KInt 10) 10); [apply Q9|reflexivity|discriminate|reflexivity|reflexivity]. Qed.
  Definition q11 := with_suffix q10 "FOR UPDATE".
  Definition b11 := set_suffix ["FOR"; "UPDATE"] b10.
  Lemma Q11 : sel_says q11 b11.
  Proof. apply (sel_suffix q10 b10 ["FOR"; "UPDATE"]); [apply Q10|reflexivity|reflexivity|reflexivity]. Qed.
  Definition q12 := with_prefix q11 "EXPLAIN".
  Definition b12 := set_prefix ["EXPLAIN"] b11.
  Lemma Q12 : sel_says q12 b12.
  Proof. apply (sel_prefix q11 b11 ["EXPLAIN"]); [apply Q11|reflexivity|reflexivity|reflexivity]. Qed.
  Definition q13 := with_with q12 [{| wq_name := "w"; wq_sub := ESelect u2 |}].
  Definition b13 := set_with [("w", Query c2)] b12.
  Lemma Q13 : sel_says q13 b13.
  Proof.
    apply (sel_with q12 b12 [{| wq_name := "w"; wq_sub := ESelect u2 |}] [("w", Query c2)]); [apply Q12| |reflexivity].
    apply (withs_some "w" (g_select u2) u2); [reflexivity|apply sub_builder|apply S2| |reflexivity|apply withs_none].
    split; [discriminate|reflexivity].
  Qed.
  Definition q14 := with_distinct q13 true.
  Definition b14 := set_distinct true b13.
  Lemma Q14 : sel_says q14 b14.
  Proof. apply (sel_distinct q13 b13); [apply Q13|reflexivity]. Qed.
  Definition q15 := with_comment q14 "it's ok".
  Lemma Q15 : sel_says q15 b14.
  Proof. apply (sel_comment q14 b14 "it's ok"); [apply Q14|reflexivity|reflexivity]. Qed.

  Example C49_select_read_back_ex : sel_says q15 {|
      q_prefix := ["EXPLAIN"];
      q_with := [("w", Query {| q_prefix := []; q_with := []; q_distinct_on := []; q_distinct := false;
                   q_items := [ItName ["id"] []]; q_from := [{| tb_only := false; tb_name := ["b"]; tb_alias := [] |}];
                   q_joins := []; q_where := None; q_group_by := []; q_having := None; q_order_by := [];
                   q_limit := None; q_offset := None; q_suffix := [] |})];
      q_distinct_on := []; q_distinct := true;
      q_items := [ItName ["u"; "id"] []; ItName ["name"] []; ItAgg "COUNT" true "x" "n"];
      q_from := [{| tb_only := false; tb_name := ["users"]; tb_alias := ["u"] |}];
      q_joins := [(["LEFT"; "JOIN"], {| tb_only := false; tb_name := ["m"]; tb_alias := [] |},
                   FAnd (FCmp (MName ["m"; "a"]) "=" (MName ["u"; "b"])) (FCmp (MName ["m"; "c"]) "=" (MName ["u"; "d"])))];
      q_where := Some (FOr (FAnd (FCmp (MName ["a"]) "=" (MVal (GInt KInt 1)))
                                 (FIn true (MName ["b"]) [MVal (GStr "x"); MNull]))
                           (FInSub false (MName ["id"])
                              (Query {| q_prefix := []; q_with := []; q_distinct_on := []; q_distinct := false;
                   q_items := [ItName ["id"] []]; q_from := [{| tb_only := false; tb_name := ["b"]; tb_alias := [] |}];
                   q_joins := []; q_where := None; q_group_by := []; q_having := None; q_order_by := [];
                   q_limit := None; q_offset := None; q_suffix := [] |})));
      q_group_by := [["u"; "id"]; ["name"]]; q_having := Some (FBetween false (MName ["z"]) (MVal (GInt KInt 2)) (MVal (GInt KInt 3)));
      q_order_by := [("u.id", "DESC")]; q_limit := Some 10%N; q_offset := None; q_suffix := ["FOR"; "UPDATE"] |}
    /\ query (StSelect q15) = Ok
       ("EXPLAIN WITH w AS (SELECT ""id"" FROM ""b"") SELECT DISTINCT ""u"".""id"", ""name"", COUNT(DISTINCT x) AS n FROM ""users"" AS ""u"" LEFT JOIN ""m"" ON (""m"".""a"" = ""u"".""b"" AND ""m"".""c"" = ""u"".""d"") WHERE (((""a"" = $1) AND (""b"" NOT IN ($2, NULL))) OR (""id"" IN (SELECT ""id"" FROM ""b""))) GROUP BY ""u"".""id"", ""name"" HAVING (""z"" BETWEEN $3 AND $4) ORDER BY u.id DESC LIMIT 10 FOR UPDATE; -- it's ok",
        [GInt KInt 1; GStr "x"; GInt KInt 2; GInt KInt 3]).
  Proof. split; [exact Q15|]. vm_compute. reflexivity. Qed.

  (* Select("name", Raw("COUNT( * )")).From("b").Where(On("a", "c")).And(NewCall("upper", NewIdentifier("email")).In("X", "Y"))
     .GroupBy("name").Having(NewCall("COUNT", Raw("*")).GreaterThan(10)) *)
  Definition h1 := with_exprs new_select [SColumn (lk_column "name"); SRaw "COUNT(*)"].
  Definition h2 := with_from h1 [FTable (lk_table "b")].
  Definition h3 := with_where h2 (lk_on "a" "c").
  Definition upper_in : expr := EIn (new_call "upper" [lk_condition (GStr "email")]) "IN" (EArray [EValue (GStr "X"); EValue (GStr "Y")]).
  Definition h4 := with_where h3 (EInfix (lk_on "a" "c") (Some "AND") upper_in).
  Definition h5 := with_group_by h4 [lk_column "name"].
  Definition over_10 : expr := EInfix (new_call "COUNT" [ERaw "*"]) (Some ">") (EValue (GInt KInt 10)).
  Definition h6 := with_having h5 over_10.
  Definition k1 := set_items [ItName ["name"] []; ItAgg "COUNT" false "*" ""] empty_body.
  Definition k2 := set_from [tb "b" ""] k1.
  Definition f_on : formula := FCmp (MName ["a"]) "=" (MName ["c"]).
  Definition f_in : formula := FIn false (MCall "upper" [KName ["email"]]) [MVal (GStr "X"); MVal (GStr "Y")].
  Definition k4 := set_where (Some (FAnd f_on f_in)) (set_where (Some f_on) k2).
  Definition k5 := set_group_by [["name"]] k4.
  Definition k6 := set_having (Some (FCmp (MCall "COUNT" [KOp "*"]) ">" (MVal (GInt KInt 10)))) k5.
  Lemma H2' : sel_says h2 k2.
  Proof.
    eapply (sel_from h1 k1 [GStr "b"]); [|repeat constructor|reflexivity].
    eapply (sel_columns new_select empty_body [GStr "name"; GExpr (ERaw "COUNT(*)")]); [apply sel_new|discriminate| |reflexivity].
    apply args_items. apply (strings_say "name" ["name"] [GExpr (ERaw "COUNT(*)")] [ItAgg "COUNT" false "*" ""] eq_refl eq_refl).
    apply items_raw; [|apply items_none]. apply (raw_aggregate "COUNT" false "*" ""); [left; reflexivity|reflexivity|left; reflexivity].
  Qed.
  Lemma H4' : sel_says h4 k4.
  Proof.
    apply (sel_and h3 (set_where (Some f_on) k2) upper_in f_in f_on); [| |reflexivity|reflexivity].
    - apply (sel_where h2 k2 (lk_on "a" "c") f_on); [apply H2'| |reflexivity].
      apply says_on, (on_equal "a" "c"); reflexivity.
    - apply (says_call_in (new_call "upper" [lk_condition (GStr "email")]) (MCall "upper" [KName ["email"]]) [GStr "X"; GStr "Y"]);
        [|discriminate|discriminate|reflexivity|repeat constructor|reflexivity].
      apply (call_new "upper" _ [KName ["email"]]); [reflexivity|reflexivity|reflexivity|].
      constructor; [apply (argument_column "email"); reflexivity|constructor].
  Qed.
  Example C49_calls_ex : sel_says h6 k6
    /\ query (StSelect h6) = Ok
       ("SELECT ""name"", COUNT(*) FROM ""b"" WHERE (""a"" = ""c"" AND (upper(""email"") IN ($1, $2))) GROUP BY ""name"" HAVING (COUNT(*) > $3)",
        [GStr "X"; GStr "Y"; GInt KInt 10]).
  Proof.
    split; [|vm_compute; reflexivity].
    apply (sel_having h5 k5 over_10); [| |reflexivity].
    - apply (sel_group_by h4 k4 [GColumn (lk_column "name")]); [apply H4'| |reflexivity].
      apply columns_each, (columns_value "name"); [reflexivity|apply columns_none].
    - apply (says_call (new_call "COUNT" [ERaw "*"]) (MCall "COUNT" [KOp "*"]) OpGreaterThan (GInt KInt 10));
        [|right; left; reflexivity|apply operand_value, value_bound; reflexivity|reflexivity].
      apply (call_new "COUNT" _ [KOp "*"]); [reflexivity|reflexivity|reflexivity|].
      constructor; [apply argument_all|constructor].
  Qed.

  (* Select([]Column{Column("a").As("b"), Column("c")}).GroupBy([]string{"a, d", "e"}) *)
  Definition r1 := with_exprs new_select [SColumn (column_as (lk_column "a") "b"); SColumn (lk_column "c")].
  Definition d1 := set_items [ItName ["a"] ["b"]; ItName ["c"] []] empty_body.
  Lemma R1 : sel_says r1 d1.
  Proof.
    apply (sel_columns new_select empty_body [GColumns [column_as (lk_column "a") "b"; lk_column "c"]]);
      [apply sel_new|discriminate| |reflexivity].
    apply args_columns. constructor; [|constructor; [|constructor]].
    - exists ["a"], ["b"]. split; [|reflexivity]. exact (column_as_call _ _ _ "b" (column_new "a" eq_refl) eq_refl).
    - exists ["c"], []. split; [exact (column_new "c" eq_refl)|reflexivity].
  Qed.
  Definition r2 := with_group_by r1 [lk_column "a"; lk_column "d"; lk_column "e"].
  Example C49_slices_ex : sel_says r2 (set_group_by [["a"]; ["d"]; ["e"]] d1)
    /\ query (StSelect r2) = Ok ("SELECT ""a"" AS ""b"", ""c"" GROUP BY ""a"", ""d"", ""e""", []).
  Proof.
    split; [|vm_compute; reflexivity].
    apply (sel_group_by r1 d1 [GStrs ["a, d"; "e"]]); [exact R1| |reflexivity].
    apply columns_strings.
    apply (columns_string "a, d" ["a"; " d"] [GStr "e"] [["e"]]); [apply items_split; reflexivity|repeat constructor|].
    apply (columns_string "e" ["e"] [] []); [apply items_split; reflexivity|repeat constructor|apply columns_none].
  Qed.
End Example_.
