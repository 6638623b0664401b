(* C53 and C54: the texts of NamedQuery() and of String(), read by the grammar of Grammar.v. *)
From Verif Require Import AssignP Sort.
From Verif Require Import GrammarDmlP GrammarReadP PropsGrammar PropsGrammarDml.

(* ------------------------------------------------------------------------- *)
(* C53: NamedQuery()                                                           *)
(* ------------------------------------------------------------------------- *)

Theorem C53_select_named_read_back {O : Oracle} : forall s b, sel_says (m := Bound) s b -> q_items b <> [] ->
  exists text values, named_query (StSelect s) = Ok (text, values) /\ read_query (named values) text = Some (Query b).
Proof. intros s b H N. apply reads_name, select_reads; assumption. Qed.
Print Assumptions C53_select_named_read_back.

Theorem C53_delete_named_read_back {O : Oracle} : forall d b, del_says (m := Bound) d b ->
  exists text values, named_query (StDelete d) = Ok (text, values) /\ read_delete (named values) text = Some b.
Proof. intros. apply reads_name, delete_reads; assumption. Qed.
Print Assumptions C53_delete_named_read_back.

Theorem C53_update_named_read_back {O : Oracle} : forall u b, sort_contract o_sort -> upd_says (m := Bound) u b ->
  assigns_something (up_set b) ->
  exists text values, named_query (StUpdate u) = Ok (text, values) /\ read_update (named values) text = Some b.
Proof. intros. apply reads_name, update_reads; assumption. Qed.
Print Assumptions C53_update_named_read_back.

Theorem C53_insert_named_read_back {O : Oracle} : forall i b, sort_contract o_sort -> ins_says (m := Bound) i b ->
  exists text values, named_query (StInsert i) = Ok (text, values) /\ read_insert (named values) text = Some b.
Proof. intros. apply reads_name, insert_reads; assumption. Qed.
Print Assumptions C53_insert_named_read_back.

(* The two forms with arguments are the same statement. *)
Theorem C53_both_forms_agree {O : Oracle} : forall s b, sel_says (m := Bound) s b -> q_items b <> [] ->
  exists t1 v1 t2 v2, query (StSelect s) = Ok (t1, v1) /\ named_query (StSelect s) = Ok (t2, v2)
    /\ read_query (numbered v1) t1 = read_query (named v2) t2.
Proof.
  intros s b H N. destruct (C49_select_read_back s b H N) as (t1 & v1 & E1 & R1).
  destruct (C53_select_named_read_back s b H N) as (t2 & v2 & E2 & R2).
  exists t1, v1, t2, v2. split; [exact E1|]. split; [exact E2|]. rewrite R1, R2. reflexivity.
Qed.
Print Assumptions C53_both_forms_agree.

(* The Select of C49 and the Update of C51, by name. *)
Example C53_select_ex : sel_says (O := go_oracle) (m := Bound) q15 b14 /\ q_items b14 <> []
  /\ named_query (O := go_oracle) (StSelect q4) = Ok
       ("SELECT ""u"".""id"", ""name"", COUNT(DISTINCT x) AS n FROM ""users"" AS ""u"" LEFT JOIN ""m"" ON (""m"".""a"" = ""u"".""b"" AND ""m"".""c"" = ""u"".""d"") WHERE (""a"" = :arg_1)",
        [("arg_1", GInt KInt 1)]).
Proof. split; [exact Q15|]. split; [discriminate|]. vm_compute. reflexivity. Qed.

(* ------------------------------------------------------------------------- *)
(* C54: String()                                                               *)
(* ------------------------------------------------------------------------- *)

(* For a server that reads backslash escapes in string literals (e = true), and for one that
   does not (e = false): Inline e asks of a string what it takes for that server. *)
Theorem C54_select_text_read_back {O : Oracle} : forall e s b, sel_says (m := Inline e) s b -> q_items b <> [] ->
  exists text, to_string (StSelect s) = Ok text /\ read_query (no_args e) text = Some (Query b).
Proof. intros e s b H N. apply reads_literals, (select_reads (sty := Literals e)); assumption. Qed.
Print Assumptions C54_select_text_read_back.

Theorem C54_delete_text_read_back {O : Oracle} : forall e d b, del_says (m := Inline e) d b ->
  exists text, to_string (StDelete d) = Ok text /\ read_delete (no_args e) text = Some b.
Proof. intros. apply reads_literals, (delete_reads (sty := Literals e)); assumption. Qed.
Print Assumptions C54_delete_text_read_back.

Theorem C54_update_text_read_back {O : Oracle} : forall e u b, sort_contract o_sort -> upd_says (m := Inline e) u b ->
  assigns_something (up_set b) ->
  exists text, to_string (StUpdate u) = Ok text /\ read_update (no_args e) text = Some b.
Proof. intros. apply reads_literals, (update_reads (sty := Literals e)); assumption. Qed.
Print Assumptions C54_update_text_read_back.

Theorem C54_insert_text_read_back {O : Oracle} : forall e i b, sort_contract o_sort -> ins_says (m := Inline e) i b ->
  exists text, to_string (StInsert i) = Ok text /\ read_insert (no_args e) text = Some b.
Proof. intros. apply reads_literals, (insert_reads (sty := Literals e)); assumption. Qed.
Print Assumptions C54_insert_text_read_back.

(* Two builders with the same String() describe the same query. *)
Theorem C54_one_reading {O : Oracle} : forall e s b s' b', sel_says (m := Inline e) s b -> sel_says (m := Inline e) s' b' ->
  q_items b <> [] -> q_items b' <> [] ->
  to_string (StSelect s) = to_string (StSelect s') -> b = b'.
Proof.
  intros e s b s' b' H H' N N' E.
  destruct (C54_select_text_read_back e s b H N) as (t & Q & R).
  destruct (C54_select_text_read_back e s' b' H' N') as (t' & Q' & R').
  rewrite Q, Q' in E. injection E as <-. rewrite R in R'. injection R' as <-. reflexivity.
Qed.
Print Assumptions C54_one_reading.

Section Example_.
  #[local] Existing Instance go_oracle.
  Variable e : bool.
  Local Instance with_e : view := Inline e.

  (* Select("id").From("b").Where(Condition("a").Equal(-5)).And(Condition("b").In("x; --", nil, true))
       .And(Condition("c").GreaterThan([]byte{0, 255})) *)
  Definition tq1 := with_exprs new_select [SColumn (lk_column "id")].
  Definition tb1 := set_items [ItName ["id"] []] empty_body.
  Lemma TQ1 : sel_says tq1 tb1.
  Proof.
    eapply (sel_columns new_select empty_body [GStr "id"]); [apply sel_new|discriminate| |reflexivity].
    apply args_items, (items_string "id" ["id"] [] []); [apply items_split; reflexivity|repeat constructor|apply items_none].
  Qed.
  Definition tq2 := with_from tq1 [FTable (lk_table "b")].
  Definition tb2 := set_from [tb "b" ""] tb1.
  Lemma TQ2 : sel_says tq2 tb2.
  Proof. eapply (sel_from tq1 tb1 [GStr "b"]); [apply TQ1|repeat constructor|reflexivity]. Qed.
  Definition te3 : expr := EInfix (lk_condition (GStr "a")) (Some "=") (EValue (GInt KInt8 (-5))).
  Definition tf3 : formula := FCmp (MName ["a"]) "=" (MVal (GInt KInt64 (-5))).
  Definition tq3 := with_where tq2 (new_wrapper te3).
  Definition tb3 := set_where (Some tf3) tb2.
  Lemma TQ3 : sel_says tq3 tb3.
  Proof.
    apply (sel_where tq2 tb2 te3 tf3); [apply TQ2| |reflexivity].
    apply (says_cmp "a" OpEqual (GInt KInt8 (-5))); [reflexivity|apply operand_value, value_bound; reflexivity|reflexivity].
  Qed.
  Definition te4 : expr := EIn (lk_condition (GStr "b")) "IN" (EArray [EValue (GStr "x; --"); EValue GNil; EValue (GBool true)]).
  Definition tf4 : formula := FIn false (MName ["b"]) [MVal (GStr "x; --"); MNull; MVal (GBool true)].
  Definition tq4 := with_where tq3 (EInfix (new_wrapper te3) (Some "AND") (new_wrapper te4)).
  Definition tb4 := set_where (Some (FAnd tf3 tf4)) tb3.
  Lemma TQ4 : sel_says tq4 tb4.
  Proof.
    apply (sel_and tq3 tb3 te4 tf4 tf3); [apply TQ3| |reflexivity|reflexivity].
    apply (says_in "b" [GStr "x; --"; GNil; GBool true]); [reflexivity|discriminate|discriminate|reflexivity| |reflexivity].
    constructor; [|repeat constructor]. cbn. destruct e; reflexivity.
  Qed.
  Definition bin : gval := GBytes (String "000" (String "255" "")).
  Definition te5 : expr := EInfix (lk_condition (GStr "c")) (Some ">") (EValue bin).
  Definition tf5 : formula := FCmp (MName ["c"]) ">" (MVal bin).
  Definition tq5 := with_where tq4 (EInfix (EInfix (new_wrapper te3) (Some "AND") (new_wrapper te4)) (Some "AND") (new_wrapper te5)).
  Definition tb5 := set_where (Some (FAnd (FAnd tf3 tf4) tf5)) tb4.
  Lemma TQ5 : sel_says tq5 tb5.
  Proof.
    apply (sel_and tq4 tb4 te5 tf5 (FAnd tf3 tf4)); [apply TQ4| |reflexivity|reflexivity].
    apply (says_cmp "c" OpGreaterThan bin); [reflexivity|apply operand_value, value_bound; reflexivity|reflexivity].
  Qed.
End Example_.

Example C54_select_ex : forall e, sel_says (O := go_oracle) (m := Inline e) tq5 tb5
  /\ q_where tb5 = Some (FAnd (FAnd (FCmp (MName ["a"]) "=" (MVal (GInt KInt64 (-5))))
                                    (FIn false (MName ["b"]) [MVal (GStr "x; --"); MNull; MVal (GBool true)]))
                              (FCmp (MName ["c"]) ">" (MVal bin)))
  /\ to_string (O := go_oracle) (StSelect tq5) = Ok
       "SELECT ""id"" FROM ""b"" WHERE (((""a"" = -5) AND (""b"" IN ('x; --', NULL, true))) AND (""c"" > decode('00ff', 'hex')))".
Proof. intro e. split; [apply TQ5|]. split; [reflexivity|]. vm_compute. reflexivity. Qed.

(* Update("users").Set(Pair("a", "it's")): a quote, for a server that reads backslash escapes. *)
Definition tu1 : update := upd_with_set v1 {| p_mode := PAssoc; p_map := [(lk_column "a", EValue (GStr "it's"))];
  p_cols := [lk_column "a"]; p_exprs := [] |}.
Definition tz1 : ubody := put_set (SetEach [(["a"], MVal (GStr "it's"))]) z1.
Example C54_update_ex : upd_says (O := go_oracle) (m := Inline true) tu1 tz1 /\ assigns_something (up_set tz1)
  /\ to_string (O := go_oracle) (StUpdate tu1) = Ok "UPDATE ""users"" SET ""a"" = 'it\'s'".
Proof.
  split; [|split; [exact I|vm_compute; reflexivity]].
  apply (upd_set (O := go_oracle) (m := Inline true) v1 z1 [GPair (GStr "a") (GStr "it's")] [] [(["a"], MVal (GStr "it's"))]);
    [|reflexivity| |reflexivity].
  - apply (upd_new (O := go_oracle) (GStr "users") (tb "users" "")); [apply (table_string "users"); reflexivity|reflexivity].
  - apply pairs_pair; [|apply pairs_none].
    split; [apply (key_string "a"); reflexivity|apply source_value, value_bound; reflexivity].
Qed.

(* Insert("users").Set(Pair("b", nil), Pair("a", "x")) and Delete("users").Where(Condition("a").Equal("x")). *)
Definition ti1 : insert := ins_with_values (ins_with_columns i1 [lk_column "a"; lk_column "b"])
  (EArrayList [EArray [EValue (GStr "x"); EValue GNil]]).
Definition tj1 : ibody := put_rows [["a"]; ["b"]] [[MVal (GStr "x"); MNull]] j1.
Example C54_insert_ex : forall e, ins_says (O := go_oracle) (m := Inline e) ti1 tj1
  /\ to_string (O := go_oracle) (StInsert ti1) = Ok "INSERT INTO ""users"" (""a"", ""b"") VALUES ('x', NULL)".
Proof.
  intro e. split; [|vm_compute; reflexivity].
  apply (ins_set (O := go_oracle) (m := Inline e) i1 j1 [GPair (GStr "b") GNil; GPair (GStr "a") (GStr "x")]
           [(["b"], MNull); (["a"], MVal (GStr "x"))]); [| |discriminate|reflexivity].
  - apply (ins_new (O := go_oracle) (GStr "users") (tb "users" "")); [apply (table_string "users"); reflexivity|reflexivity].
  - apply pairs_pair; [|apply pairs_pair; [|apply pairs_none]].
    + split; [apply (key_string "b"); reflexivity|apply source_value, value_bound; reflexivity].
    + split; [apply (key_string "a"); reflexivity|apply source_value, value_bound; destruct e; reflexivity].
Qed.

Definition td1 : delete := {| d_from := d_from x1; d_using := []; d_where := new_wrapper (EInfix (lk_condition (GStr "a")) (Some "=") (EValue (GStr "x")));
  d_returning := []; d_comment := "" |}.
Definition ty1 : dbody := {| de_from := de_from y1; de_using := []; de_where := Some (FCmp (MName ["a"]) "=" (MVal (GStr "x"))); de_returning := [] |}.
Example C54_delete_ex : forall e, del_says (O := go_oracle) (m := Inline e) td1 ty1
  /\ to_string (O := go_oracle) (StDelete td1) = Ok "DELETE FROM ""users"" WHERE (""a"" = 'x')".
Proof.
  intro e. split; [|vm_compute; reflexivity].
  apply (del_where (O := go_oracle) (m := Inline e) x1 y1 (EInfix (lk_condition (GStr "a")) (Some "=") (EValue (GStr "x")))
    (FCmp (MName ["a"]) "=" (MVal (GStr "x")))); [| |reflexivity].
  - apply (del_new (O := go_oracle) (GStr "users") (tb "users" "")); [apply (table_string "users"); reflexivity|reflexivity].
  - apply (says_cmp (O := go_oracle) "a" OpEqual (GStr "x")); [reflexivity|apply operand_value, value_bound; destruct e; reflexivity|reflexivity].
Qed.
