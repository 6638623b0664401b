(* C65 and C66 for subqueries that mention the row in which they stand: Exists and NotExists with
   Condition("inner.y").Equal(Raw("outer.x")). *)
From Verif Require Import GrammarReadP PropsGrammar PropsGrammarDml EffectP TablesP MeaningP ClosedP ChangesP.
From Verif Require Export Closed Changes.
From Verif Require AssignP PropsEffect PropsTables PropsMeaning PropsChanges.
Import PropsMeaning PropsChanges.

(* The tables t and its columns, by one name each. *)
Definition named (t : string) : tableref := {| tb_only := false; tb_name := [t]; tb_alias := [] |}.
Definition one_name {O : Oracle} (t : string) : Prop := plain_name t = true /\ parts_of t = [t].
(* Delete(t).Where(e) *)
Definition delete_where (t : string) (e : expr) : removal :=
  {| rm_table := GStr t; rm_using := []; rm_conditions := Some (e, []); rm_returning := [] |}.
(* x.y is the column y of x, for Condition and for Raw. *)
Definition column_of_table {O : Oracle} (t c s : string) : Prop := plain_name s = true /\ parts_of s = [t; c].
Definition raw_column (t c s : string) : Prop := column_word s = true /\ dotted s = [t; c].

Section Words.
  Context {g : basis}.
  (* Some row of the second table has in y what the row has in x. *)
  Definition has_match (db : tabledb g) (t2 x y : string) (r : brow g) : bool :=
    existsb (fun r' => is_true (bcompares g "=" (r' y) (r x))) (snd (db [t2])).
End Words.

Section Correlated.
  Context {O : Oracle}.
  #[local] Existing Instance Bound.

  Lemma plain_comment : forall args froms c s, program_select (plain_program args froms [] (Some c)) = Ok s -> s_comment s = "".
  Proof.
    intros args froms c s H. unfold program_select, plain_program in H. cbn [pr_args] in H.
    destruct (lk_select args) as [s0|] eqn:E0; [|discriminate]. cbn [bind] in H. unfold lk_select in E0. cbn [sel_step] in E0.
    destruct (to_selexprs _) as [es|]; [|discriminate]. cbn [bind] in E0. injection E0 as <-.
    unfold program_calls in H. cbn [pr_distinct pr_distinct_on pr_with pr_from pr_joins pr_conditions pr_group_by pr_having pr_order_by pr_window
      unless_none app map sel_conditions window_calls] in H. unfold sel_run in H. cbn [fold_res] in H.
    cbn [sel_step] in H. destruct (nonempty (s_from (with_exprs new_select es))); [discriminate|].
    destruct (to_from froms) as [f|]; [|discriminate]. cbn [bind] in H. destruct (is_nil c); [discriminate|].
    destruct (where_where _ c) as [w|]; [|discriminate]. cbn [bind] in H. injection H as <-. reflexivity.
  Qed.

  Context {g : basis}.

  Definition matching (t1 x t2 y : string) : formula := FCmp (MName [t2; y]) "=" (MName [t1; x]).
  Definition matching_body (ns : list name) (t1 x t2 y : string) : body := plain_body ns [named t2] [] (Some (matching t1 x t2 y)).

  Lemma named_says : forall t, one_name t -> table_says (GStr t) (named t).
  Proof. intros t [P E]. pose proof (table_string t P) as H. rewrite E in H. exact H. Qed.

  Lemma matching_says : forall t1 x t2 y sx sy c, column_of_table t2 y sy -> raw_column t1 x sx ->
    cmp_expr (lk_condition (GStr sy)) OpEqual (GExpr (lk_raw sx)) = Ok c -> says c (matching t1 x t2 y).
  Proof.
    intros t1 x t2 y sx sy c [P E] [W D] H. unfold matching. rewrite <- E, <- D.
    apply (says_cmp sy OpEqual (GExpr (lk_raw sx))); [exact P| |exact H]. apply operand_value. exact (value_column sx W).
  Qed.

  Lemma matching_sub : forall args ns t1 x t2 y sx sy c sub, args <> [] -> args_say args (columns_item ns) -> ns <> [] ->
    one_name t2 -> column_of_table t2 y sy -> raw_column t1 x sx ->
    cmp_expr (lk_condition (GStr sy)) OpEqual (GExpr (lk_raw sx)) = Ok c ->
    program_select (plain_program args [GStr t2] [] (Some c)) = Ok sub ->
    sel_says sub (matching_body ns t1 x t2 y) /\ finished sub (matching_body ns t1 x t2 y).
  Proof.
    intros args ns t1 x t2 y sx sy c sub Na Ha Nn T Cy Rx Hc H. split.
    - apply (program_described _ _ sub (plain_says args [GStr t2] [] (Some c) ns [named t2] [] (Some (matching t1 x t2 y)) Na Ha Nn
        (Forall2_cons _ _ (named_says t2 T) (Forall2_nil _)) (Forall2_nil _) (matching_says t1 x t2 y sx sy c Cy Rx Hc)) H).
    - split; [destruct ns; [congruence|discriminate]|exact (plain_comment args [GStr t2] c sub H)].
  Qed.

  (* The subquery shows a row, in a row of t1, if there is a match. *)
  Lemma matching_any : forall (db : tabledb g) ns t1 x t2 y (v : bnaming g), t1 <> t2 ->
    any_row (means (Query (matching_body ns t1 x t2 y)) db v)
    = existsb (fun r' => is_true (bcompares g "=" (r' y) (v [t1; x]))) (snd (db [t2])).
  Proof.
    intros db ns t1 x t2 y v N. rewrite (means_body (matching_body ns t1 x t2 y) db v eq_refl eq_refl). unfold matching_body. unfold body_rows.
    cbn [q_prefix q_with q_distinct_on q_distinct q_items q_from q_joins q_where q_group_by q_having q_order_by q_limit
         q_offset q_suffix nth_body plain_body with_tables grouped btake bskip bsorted bchosen bfrom bjoins named tb_name].
    assert (A : aggregated (columns_item ns) = false).
    { unfold columns_item. induction ns as [|n ns IH]; [reflexivity|exact IH]. }
    rewrite A, all_true. rewrite !map_map. generalize (snd (db [t2])). intro rows.
    induction rows as [|r rows IH]; [reflexivity|]. cbn [map filter existsb].
    assert (B : bchosen g means db (Some (matching t1 x t2 y)) (names_in v [with_row db (named t2) r])
                = is_true (bcompares g "=" (r y) (v [t1; x]))).
    { cbn [bchosen btruth matching bterm names_in removelast last find with_row fst snd called_so named tb_alias tb_name].
      rewrite name_eqb_refl. cbn [orb].
      assert (Q : name_eqb [t1] [t2] = false) by (unfold name_eqb; destruct (list_eq_dec string_dec [t1] [t2]); [congruence|reflexivity]).
      rewrite Q. reflexivity. }
    match goal with |- context [if ?b then _ else _] => change b with (bchosen g means db (Some (matching t1 x t2 y)) (names_in v [with_row db (named t2) r])) end.
    rewrite B. destruct (is_true _); [reflexivity|exact IH].
  Qed.

  Lemma outer_names : forall (db : tabledb g) t r c, names_in nothing [with_row db (named t) r] [t; c] = r c.
  Proof. intros db t r c. cbn [names_in removelast last find with_row fst snd called_so named tb_alias tb_name]. rewrite name_eqb_refl. reflexivity. Qed.

  Lemma outer_row : forall (db : tabledb g) t r cs, incl cs (fst (db [t])) ->
    at_names (map (fun c => [c]) cs) (names_in nothing [with_row db (named t) r]) = map r cs.
  Proof.
    intros db t r cs I. unfold at_names. rewrite map_map. apply map_ext_in. intros c Ic.
    cbn [names_in find with_row fst snd]. assert (H : has_col (fst (db (tb_name (named t)))) c = true).
    { apply existsb_exists. exists c. split; [apply I, Ic|apply String.eqb_refl]. }
    rewrite H. reflexivity.
  Qed.

  (* Whether the row is chosen. *)
  Lemma matching_chosen : forall (db : tabledb g) ns t1 x t2 y n r, t1 <> t2 ->
    bchosen g means db (Some (FExists n (Query (matching_body ns t1 x t2 y)))) (names_in nothing [with_row db (named t1) r])
    = xorb n (has_match db t2 x y r).
  Proof.
    intros db ns t1 x t2 y n r N. cbn [bchosen btruth]. rewrite (matching_any db ns t1 x t2 y _ N), outer_names.
    unfold has_match. destruct n, (existsb _ _); reflexivity.
  Qed.
End Correlated.

(* Select(columns...).From(t1).Where(Exists(Select(...).From(t2).Where(Condition("t2.y").Equal(Raw("t1.x")))))
   shows the rows of t1 with a match in t2, each once; with NotExists, the rows without. A NULL in t2
   makes no difference. *)
Theorem C65_correlated {O : Oracle} : forall (g : basis) (db : tabledb g) args cs inner ns t1 x t2 y sx sy c sub e e' s s',
  t1 <> t2 -> one_name t1 -> one_name t2 -> column_of_table t2 y sy -> raw_column t1 x sx ->
  args <> [] -> args_say (m := Bound) args (columns_item (map (fun c => [c]) cs)) -> cs <> [] -> incl cs (fst (db [t1])) ->
  inner <> [] -> args_say (m := Bound) inner (columns_item ns) -> ns <> [] ->
  cmp_expr (lk_condition (GStr sy)) OpEqual (GExpr (lk_raw sx)) = Ok c ->
  program_select (plain_program inner [GStr t2] [] (Some c)) = Ok sub ->
  lk_exists (g_select sub) = Ok e -> lk_not_exists (g_select sub) = Ok e' ->
  program_select (plain_program args [GStr t1] [] (Some e)) = Ok s ->
  program_select (plain_program args [GStr t1] [] (Some e')) = Ok s' ->
  responds db s (map (fun r => map r cs) (filter (has_match db t2 x y) (snd (db [t1]))))
  /\ responds db s' (map (fun r => map r cs) (filter (fun r => negb (has_match db t2 x y r)) (snd (db [t1])))).
Proof.
  intros g db args cs inner ns t1 x t2 y sx sy c sub e e' s s' N T1 T2 Cy Rx Na Ha Nc I Ni Hi Nn Hc Hsub He He' H H'.
  destruct (matching_sub inner ns t1 x t2 y sx sy c sub Ni Hi Nn T2 Cy Rx Hc Hsub) as [S F].
  assert (Nm : map (fun c : string => [c]) cs <> []) by (destruct cs; [congruence|discriminate]).
  assert (X : forall n, map (at_names (map (fun c => [c]) cs)) (filter (bchosen g means db (Some (FExists n (Query (matching_body ns t1 x t2 y)))))
                 (combinations db [named t1] []))
              = map (fun r => map r cs) (filter (fun r => xorb n (has_match db t2 x y r)) (snd (db [t1])))).
  { intro n. unfold combinations. cbn [bfrom bjoins]. rewrite map_map. change (tb_name (named t1)) with [t1]. generalize (snd (db [t1])). intro rows.
    induction rows as [|r rows IH]; [reflexivity|]. cbn [map filter]. rewrite (matching_chosen db ns t1 x t2 y n r N).
    destruct (xorb n (has_match db t2 x y r)); cbn [map]; [rewrite (outer_row db t1 r cs I); f_equal|]; exact IH. }
  assert (Ft : Forall2 table_says [GStr t1] [named t1]) by (constructor; [exact (named_says t1 T1)|constructor]).
  split.
  - pose proof (plain_responds db args [GStr t1] [] (Some e) _ [named t1] [] (Some (FExists false (Query (matching_body ns t1 x t2 y)))) s Na Ha Nm Ft (Forall2_nil _)
      (says_exists (g_select sub) sub _ e (sub_builder sub) S F He) H) as P.
    rewrite X in P. rewrite (filter_ext _ (has_match db t2 x y)) in P; [exact P|]. intro r. apply xorb_false_l.
  - pose proof (plain_responds db args [GStr t1] [] (Some e') _ [named t1] [] (Some (FExists true (Query (matching_body ns t1 x t2 y)))) s' Na Ha Nm Ft (Forall2_nil _)
      (says_not_exists (g_select sub) sub _ e' (sub_builder sub) S F He') H') as P.
    rewrite X in P. rewrite (filter_ext _ (fun r => negb (has_match db t2 x y r))) in P; [exact P|]. intro r. apply xorb_true_l.
Qed.
Print Assumptions C65_correlated.

(* Delete(t1).Where(Exists(...)) removes the rows of t1 with a match in t2, and only them; with
   NotExists, those without. *)
Theorem C66_delete_correlated {O : Oracle} : forall (g : basis) (db : tabledb g) inner ns t1 x t2 y sx sy c sub e e' d d',
  t1 <> t2 -> one_name t1 -> one_name t2 -> column_of_table t2 y sy -> raw_column t1 x sx ->
  inner <> [] -> args_say (m := Bound) inner (columns_item ns) -> ns <> [] ->
  cmp_expr (lk_condition (GStr sy)) OpEqual (GExpr (lk_raw sx)) = Ok c ->
  program_select (plain_program inner [GStr t2] [] (Some c)) = Ok sub ->
  lk_exists (g_select sub) = Ok e -> lk_not_exists (g_select sub) = Ok e' ->
  removal_delete (delete_where t1 e) = Ok d ->
  removal_delete (delete_where t1 e') = Ok d' ->
  exists db1 db2, removes db d [] db1 /\ snd (db1 [t1]) = filter (fun r => negb (has_match db t2 x y r)) (snd (db [t1]))
    /\ only_rows_of [t1] db db1
    /\ removes db d' [] db2 /\ snd (db2 [t1]) = filter (has_match db t2 x y) (snd (db [t1]))
    /\ only_rows_of [t1] db db2.
Proof.
  intros g db inner ns t1 x t2 y sx sy c sub e e' d d' N T1 T2 Cy Rx Ni Hi Nn Hc Hsub He He' H H'.
  destruct (matching_sub inner ns t1 x t2 y sx sy c sub Ni Hi Nn T2 Cy Rx Hc Hsub) as [S F].
  assert (M : forall n r, meets_alone db (Some (FExists n (Query (matching_body ns t1 x t2 y)), [])) (named t1) r = xorb n (has_match db t2 x y r)).
  { intros n r. exact (matching_chosen db ns t1 x t2 y n r N). }
  destruct (C66_delete_rows g db (delete_where t1 e) (named t1) (Some (FExists false (Query (matching_body ns t1 x t2 y)), [])) [] d (named_says t1 T1) eq_refl
    (conj (says_exists (g_select sub) sub _ e (sub_builder sub) S F He) (Forall2_nil _)) eq_refl eq_refl H) as (db1 & R1 & E1 & Y1).
  destruct (C66_delete_rows g db (delete_where t1 e') (named t1) (Some (FExists true (Query (matching_body ns t1 x t2 y)), [])) [] d' (named_says t1 T1) eq_refl
    (conj (says_not_exists (g_select sub) sub _ e' (sub_builder sub) S F He') (Forall2_nil _)) eq_refl eq_refl H') as (db2 & R2 & E2 & Y2).
  exists db1, db2. split; [exact R1|]. split; [|split; [exact Y1|split; [exact R2|split; [|exact Y2]]]].
  - change (snd (db1 [t1])) with (snd (db1 (tb_name (named t1)))). rewrite E1. apply filter_ext. intro r. rewrite M. rewrite xorb_false_l. reflexivity.
  - change (snd (db2 [t1])) with (snd (db2 (tb_name (named t1)))). rewrite E2. apply filter_ext. intro r. rewrite M. destruct (has_match db t2 x y r); reflexivity.
Qed.
Print Assumptions C66_delete_correlated.

(* ------------------------------------------------------------------------- *)
(* Examples                                                                    *)
(* ------------------------------------------------------------------------- *)

Section Examples.
  #[local] Existing Instance go_oracle.
  #[local] Existing Instance Bound.

  (* Select("title").From("news").Where(Condition("news.user_id").Equal(Raw("users.id"))) *)
  Definition owned : expr := match cmp_expr (lk_condition (GStr "news.user_id")) OpEqual (GExpr (lk_raw "users.id")) with Ok e => e | _ => ENil end.
  Definition theirs : select := match program_select (plain_program [GStr "title"] [GStr "news"] [] (Some owned)) with Ok s => s | _ => new_select end.
  Definition has_news : expr := match lk_exists (g_select theirs) with Ok e => e | _ => ENil end.
  Definition no_news : expr := match lk_not_exists (g_select theirs) with Ok e => e | _ => ENil end.
  Example C65_correlated_rows_ex :
    given (names_where has_news) (board [[CNull; CStr "z"]]) = Some [[CStr "a"]; [CStr "c"]]
    /\ given (names_where no_news) (board [[CNull; CStr "z"]]) = Some [[CStr "b"]].
  Proof. split; vm_compute; reflexivity. Qed.
  Example C65_correlated_met : forall s s', program_select (names_where has_news) = Ok s -> program_select (names_where no_news) = Ok s' ->
    responds (board []) s (map (fun r => [r "name"]) (filter (has_match (board []) "news" "id" "user_id") (snd (board [] ["users"]))))
    /\ responds (board []) s' (map (fun r => [r "name"]) (filter (fun r => negb (has_match (board []) "news" "id" "user_id" r)) (snd (board [] ["users"])))).
  Proof.
    intros s s' H H'.
    apply (C65_correlated bx (board []) [GStr "name"] ["name"] [GStr "title"] [["title"]] "users" "id" "news" "user_id" "users.id" "news.user_id"
             owned theirs has_news no_news s s'); try discriminate; try (split; reflexivity); try reflexivity.
    - exact name_says.
    - intros q [<-|[]]. right. left. reflexivity.
    - exact title_arg_says.
    - exact H.
    - exact H'.
  Qed.
  Example C66_delete_correlated_ex :
    run_removal (remove_where has_news) (board [[CNull; CStr "z"]]) ["users"] ["id"] = Some ([], [[CInt 2]])
    /\ run_removal (remove_where no_news) (board [[CNull; CStr "z"]]) ["users"] ["id"] = Some ([], [[CInt 1]; [CInt 3]]).
  Proof. split; vm_compute; reflexivity. Qed.
End Examples.
