(* C63 for a database with many tables: Query(), NamedQuery() and String() ask for the same, with joins,
   groups, subqueries, WITH, FROM, USING and ON CONFLICT. *)
From Verif Require Import LiteralP LiteralTablesP PropsForms PropsMeaning PropsChanges.
From Verif Require Export LiteralTables.
From Verif Require AssignP PropsEffect PropsGrammarText.

Theorem C63_select_tables {O : Oracle} : forall (g : basis) e, tables_take_literals g e ->
  forall (db : tabledb g) s b, sel_says (m := Inline e) s b -> q_items b <> [] ->
  exists t1 v1 t2 v2 t3 out, query (StSelect s) = Ok (t1, v1) /\ answer db t1 v1 = Some out
    /\ named_query (StSelect s) = Ok (t2, v2) /\ told_select db (named v2) t2 = Some out
    /\ to_string (StSelect s) = Ok t3 /\ told_select db (no_args e) t3 = Some out.
Proof.
  intros g e L db s b H N. destruct (C63_select_same e s b H N) as (b' & t1 & v1 & t2 & v2 & t3 & R & Q1 & R1 & Q2 & R2 & Q3 & R3).
  exists t1, v1, t2, v2, t3, (means (Query b') db nothing). unfold answer, told_select. rewrite R1, R2, R3, (query_same e L _ _ (rel_subquery e b' b R) db nothing).
  repeat (split; [assumption || reflexivity|]). reflexivity.
Qed.
Print Assumptions C63_select_tables.

Theorem C63_delete_tables {O : Oracle} : forall (g : basis) e, tables_take_literals g e ->
  forall (db : tabledb g) d b, del_says (m := Inline e) d b -> 
  exists t1 v1 t2 v2 t3 out, query (StDelete d) = Ok (t1, v1) /\ send_delete db t1 v1 = out
    /\ named_query (StDelete d) = Ok (t2, v2) /\ told_delete db (named v2) t2 = out
    /\ to_string (StDelete d) = Ok t3 /\ told_delete db (no_args e) t3 = out.
Proof.
  intros g e L db s b H. destruct (C63_delete_same e s b H) as (b' & t1 & v1 & t2 & v2 & t3 & R & Q1 & R1 & Q2 & R2 & Q3 & R3).
  exists t1, v1, t2, v2, t3, (bdelete db b'). unfold send_delete, told_delete. rewrite R1, R2, R3, (delete_same e L b' b R db).
  repeat (split; [assumption || reflexivity|]). reflexivity.
Qed.
Print Assumptions C63_delete_tables.

Theorem C63_update_tables {O : Oracle} : forall (g : basis) e, sort_contract o_sort -> tables_take_literals g e ->
  forall (db : tabledb g) u b, upd_says (m := Inline e) u b -> assigns_something (up_set b) ->
  exists t1 v1 t2 v2 t3 out, query (StUpdate u) = Ok (t1, v1) /\ send_update db t1 v1 = out
    /\ named_query (StUpdate u) = Ok (t2, v2) /\ told_update db (named v2) t2 = out
    /\ to_string (StUpdate u) = Ok t3 /\ told_update db (no_args e) t3 = out.
Proof.
  intros g e C L db s b H N. destruct (C63_update_same e s b C H N) as (b' & t1 & v1 & t2 & v2 & t3 & R & Q1 & R1 & Q2 & R2 & Q3 & R3).
  exists t1, v1, t2, v2, t3, (bupdate db b'). unfold send_update, told_update. rewrite R1, R2, R3, (update_same e L b' b R db).
  repeat (split; [assumption || reflexivity|]). reflexivity.
Qed.
Print Assumptions C63_update_tables.

Theorem C63_insert_tables {O : Oracle} : forall (g : basis) e, sort_contract o_sort -> tables_take_literals g e ->
  forall (k : rules g) (db : tabledb g) i b, ins_says (m := Inline e) i b -> 
  exists t1 v1 t2 v2 t3 out, query (StInsert i) = Ok (t1, v1) /\ send_insert k db t1 v1 = out
    /\ named_query (StInsert i) = Ok (t2, v2) /\ told_insert db (named v2) t2 k = out
    /\ to_string (StInsert i) = Ok t3 /\ told_insert db (no_args e) t3 k = out.
Proof.
  intros g e C L k db s b H. destruct (C63_insert_same e s b C H) as (b' & t1 & v1 & t2 & v2 & t3 & R & Q1 & R1 & Q2 & R2 & Q3 & R3).
  exists t1, v1, t2, v2, t3, (binsert k db b'). unfold send_insert, told_insert. rewrite R1, R2, R3, (insert_same e L k b' b R db).
  repeat (split; [assumption || reflexivity|]). reflexivity.
Qed.
Print Assumptions C63_insert_tables.

(* ------------------------------------------------------------------------- *)
(* Examples                                                                    *)
(* ------------------------------------------------------------------------- *)

(* The database of C65, taking times for their text and so on. *)
Definition bl : basis := {|
  bdatum := cell; bnull := CNull; bis_null := bis_null bx; bsame := cell_eqb; bnumber := bnumber bx; bboolean := CBool;
  benter := fun v => cell_of (normal v); bcompares := cell_compares; bcall := fun f _ _ => CStr f;
  baggregate := baggregate bx; bsort := bsort bx; bother := fun _ _ => [] |}.
Lemma bl_literals : forall e, tables_take_literals bl e.
Proof.
  intro e. split; [|split; [|reflexivity]].
  - intro v. induction v; cbn [literal_says]; intros u H; try discriminate H; try (injection H as <-; reflexivity).
    + destruct (_ && _); [|discriminate H]. injection H as <-. reflexivity.
    + cbn [benter bl normal] in *. apply IHv, H.
  - intro v. induction v; cbn [literal_says]; intro H; try discriminate H; try reflexivity.
    + destruct (_ && _); discriminate H.
    + apply IHv, H.
Qed.

Section Examples.
  #[local] Existing Instance go_oracle.

  (* Delete("users").Where(Condition("id").In(Select("user_id").From("news").Where(Condition("title").Equal("y")))) *)
  Definition sub1 : select := match sel_step new_select (SelColumns [GStr "user_id"]) with Ok s => s | _ => new_select end.
  Definition sub2 : select := match sel_step sub1 (SelFrom [GStr "news"]) with Ok s => s | _ => new_select end.
  Definition is_y : expr := match cmp_expr (lk_condition (GStr "title")) OpEqual (GStr "y") with Ok e => e | _ => ENil end.
  Lemma sub_inline : forall e, sel_says (m := Inline e) the_sub sub_body.
  Proof.
    intro e.
    refine (sel_where sub2 (set_from [news] (set_items (columns_item [["user_id"]]) empty_body)) is_y
              (FCmp (MName ["title"]) "=" (MVal (GStr "y"))) the_sub _ _ _).
    - refine (sel_from sub1 (set_items (columns_item [["user_id"]]) empty_body) [GStr "news"] [news] sub2 _ _ _); [|constructor; [apply news_says|constructor]|reflexivity].
      refine (sel_columns new_select empty_body [GStr "user_id"] (columns_item [["user_id"]]) sub1 sel_new _ _ _); [discriminate| |reflexivity].
      apply args_items. apply (items_string "user_id" ["user_id"] [] []); [apply ConvP.items_split; reflexivity|repeat constructor|apply items_none].
    - apply (says_cmp "title" OpEqual (GStr "y")); [reflexivity| |reflexivity]. apply operand_value, value_bound. destruct e; reflexivity.
    - vm_compute. reflexivity.
  Qed.
  Definition gone : delete := match removal_delete {| rm_table := GStr "users"; rm_using := []; rm_conditions := Some (in_sub, []); rm_returning := [] |} with
                              | Ok d => d | _ => new_delete end.
  Definition gone_body : dbody := {| de_from := [users]; de_using := []; de_where := Some (FInSub false (MName ["id"]) (Query sub_body)); de_returning := [] |}.
  Lemma gone_says : forall e, del_says (m := Inline e) gone gone_body.
  Proof.
    intro e. set (d0 := match lk_delete (GStr "users") with Ok d => d | Panic _ => new_delete end).
    refine (del_where d0 {| de_from := [users]; de_using := []; de_where := None; de_returning := [] |} in_sub
              (FInSub false (MName ["id"]) (Query sub_body)) gone _ _ _).
    - apply (del_new (GStr "users")); [apply users_says|reflexivity].
    - apply (says_in_sub (m := Inline e) "id" (g_select the_sub) the_sub sub_body in_sub); [reflexivity|exact the_sub_arg|apply sub_inline|exact the_sub_finished|vm_compute; reflexivity].
    - vm_compute. reflexivity.
  Qed.
  Example C63_delete_tables_ex : forall e, del_says (m := Inline e) gone gone_body /\ tables_take_literals bl e
    /\ query (StDelete gone) = Ok ("DELETE FROM ""users"" WHERE (""id"" IN (SELECT ""user_id"" FROM ""news"" WHERE (""title"" = $1)))", [GStr "y"])
    /\ to_string (StDelete gone) = Ok "DELETE FROM ""users"" WHERE (""id"" IN (SELECT ""user_id"" FROM ""news"" WHERE (""title"" = 'y')))"
    /\ option_map (fun x => map (fun r => r "id") (snd (snd x ["users"])))
         (told_delete (g := bl) (board []) (no_args e) "DELETE FROM ""users"" WHERE (""id"" IN (SELECT ""user_id"" FROM ""news"" WHERE (""title"" = 'y')))")
       = Some [CInt 2].
  Proof.
    intro e. split; [apply gone_says|]. split; [apply bl_literals|]. split; [vm_compute; reflexivity|]. split; [vm_compute; reflexivity|].
    destruct e; vm_compute; reflexivity.
  Qed.
  Example C63_select_tables_ex : forall e, sel_says (m := Inline e) the_sub sub_body /\ q_items sub_body <> []
    /\ told_select (g := bl) (board []) (no_args e) "SELECT ""user_id"" FROM ""news"" WHERE (""title"" = 'y')" = Some [[CInt 1]; [CInt 3]; [CInt 3]]
    /\ to_string (StSelect the_sub) = Ok "SELECT ""user_id"" FROM ""news"" WHERE (""title"" = 'y')".
  Proof. intro e. split; [apply sub_inline|]. split; [discriminate|]. split; [destruct e; vm_compute; reflexivity|vm_compute; reflexivity]. Qed.
End Examples.

(* The statements of PropsGrammarText.v meet the hypotheses of the other two. *)
Example C63_update_tables_ex : upd_says (O := go_oracle) (m := Inline true) PropsGrammarText.tu1 PropsGrammarText.tz1
  /\ assigns_something (up_set PropsGrammarText.tz1) /\ tables_take_literals bl true /\ sort_contract (o_sort (Oracle := go_oracle)).
Proof. destruct PropsGrammarText.C54_update_ex as (U & A & _). split; [exact U|]. split; [exact A|]. split; [apply bl_literals|apply AssignP.insertion_contract]. Qed.
Example C63_insert_tables_ex : forall e, ins_says (O := go_oracle) (m := Inline e) PropsGrammarText.ti1 PropsGrammarText.tj1 /\ tables_take_literals bl e.
Proof. intro e. split; [apply PropsGrammarText.C54_insert_ex|apply bl_literals]. Qed.
