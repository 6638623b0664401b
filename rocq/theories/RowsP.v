(* Proofs for C27-C29. *)
From Verif Require Export Rows ClausesP.

Lemma not_nil_expr : forall g e, new_expression g = Ok e -> is_nil e = false.
Proof.
  intros g e E. destruct g; cbn [new_expression] in E; try discriminate E; try (injection E as <-; reflexivity).
  - destruct t; [injection E as <-; reflexivity|discriminate E].
  - destruct k; try discriminate E; injection E as <-; reflexivity.
  - destruct e0 as [[]|]; try discriminate E; injection E as <-; reflexivity.
  - destruct e0; injection E as <-; reflexivity.
Qed.
Lemma wrapper_not_nil : forall e, is_nil e = false -> is_nil (new_wrapper e) = false.
Proof. intros [] H; auto. Qed.
Lemma expr_back : forall e, is_nil e = false -> new_expression (GExpr e) = Ok e.
Proof. intros [] H; try discriminate H; reflexivity. Qed.
Lemma exprs_back : forall es, Forall (fun e => is_nil e = false) es -> map_res new_expression (map GExpr es) = Ok es.
Proof.
  induction es as [|e es IH]; intro F; [reflexivity|]. apply Forall_cons_iff in F. destruct F as [A F].
  cbn [map map_res]. rewrite (expr_back e A), (IH F). reflexivity.
Qed.

Section RowsP.
  Context {O : Oracle}.

  Lemma row_written : forall es, flat (w "(" +++ write_expr (EArray es) +++ w ")") = row_sql es.
  Proof.
    intro es. rewrite !flat_rcat, !flat_w. cbn [write_expr]. rewrite (flat_sep _ _ _ expr_sql) by reflexivity.
    unfold row_sql. destruct (map_res expr_sql es); reflexivity.
  Qed.
  Lemma rows_written : forall rows, rows <> [] ->
    cond_clause "VALUES " (EArrayList (map EArray rows)) = values_clause rows.
  Proof.
    intros rows N. unfold cond_clause, values_clause. cbn [cond_empty is_nil is_empty]. destruct rows as [|r rows]; [contradiction|].
    cbn [map nonempty negb]. f_equal. unfold expr_sql. cbn [write_expr].
    rewrite <- (map_cons EArray r rows), map_map. rewrite (flat_sep _ _ _ row_sql) by (intros; apply row_written).
    destruct (map_res row_sql (r :: rows)); reflexivity.
  Qed.
End RowsP.

Lemma plain_row : forall row, single_exception row = false -> new_array row = do es <- row_exprs row; Ok (EArray es).
Proof.
  intros row S. unfold new_array, row_exprs. destruct row as [|g [|g' row]]; try reflexivity.
  assert (E : to_array g = map_res new_expression [g]); [|rewrite E; reflexivity].
  unfold to_array. destruct g; try discriminate S; try reflexivity; cbn [single_exception slice_elems] in *; try discriminate S.
  - destruct k; try discriminate S. reflexivity.
  - destruct e; try discriminate S; reflexivity.
Qed.
Lemma plain_rows : forall rows, Forall (fun r => single_exception r = false) rows ->
  map_res new_array rows = do l <- map_res row_exprs rows; Ok (map EArray l).
Proof.
  induction rows as [|r rows IH]; intro F; [reflexivity|]. apply Forall_cons_iff in F. destruct F as [A F].
  cbn [map_res]. rewrite (plain_row r A), (IH F). destruct (row_exprs r); [|reflexivity]. cbn [bind].
  destruct (map_res row_exprs rows); reflexivity.
Qed.
Lemma batch_rows : forall g rows, batch g rows -> to_array_list g = map_res new_array rows.
Proof. intros g rows []; reflexivity. Qed.
Lemma map_res_nonempty : forall A B (f : A -> res B) l r, map_res f l = Ok r -> l <> [] -> r <> [].
Proof.
  intros A B f [|x l] r E N; [contradiction|]. cbn [map_res] in E. destruct (f x); [|discriminate E]. cbn [bind] in E.
  destruct (map_res f l); [|discriminate E]. injection E as <-. discriminate.
Qed.

(* ON CONFLICT *)
Lemma conflict_loop : forall args t0 t a, on_conflict_loop args t0 = Ok (t, a) ->
  exists targets rest cols, conflict_args args targets a rest /\ map_res to_column targets = Ok cols /\ t = (t0 ++ cols)%list
    /\ (a <> ActNothing -> t <> []).
Proof.
  induction args as [|g args IH]; intros t0 t a E; [discriminate E|].
  assert (K : forall c, to_column g = Ok c -> on_conflict_loop args (t0 ++ [c])%list = Ok (t, a) ->
    (match g with GStr _ | GColumn _ => True | _ => False end) ->
    exists targets rest cols, conflict_args (g :: args) targets a rest /\ map_res to_column targets = Ok cols /\ t = (t0 ++ cols)%list
      /\ (a <> ActNothing -> t <> [])).
  { intros c C L G. destruct (IH _ _ _ L) as (ts & rest & cols & (x & -> & X & F) & M & -> & N).
    exists (g :: ts), rest, (c :: cols). split; [exists x; split; [reflexivity|]; split; [exact X|constructor; assumption]|].
    split; [cbn [map_res]; rewrite C, M; reflexivity|]. rewrite <- app_assoc. split; [reflexivity|]. rewrite <- app_assoc in N. exact N. }
  destruct g; cbn [on_conflict_loop] in E; try discriminate E.
  - destruct (to_column (GStr s)) as [c|] eqn:C; [|discriminate E]. exact (K c eq_refl E I).
  - destruct (to_column (GColumn c)) as [d|] eqn:C; [|discriminate E]. exact (K d eq_refl E I).
  - injection E as <- <-. exists [], args, []. split; [eexists; split; [reflexivity|]; split; [reflexivity|constructor]|].
    split; [reflexivity|]. rewrite app_nil_r. split; [reflexivity|]. intro H. exfalso. apply H. reflexivity.
  - destruct (nonempty t0) eqn:N; [|discriminate E]. injection E as <- <-. exists [], args, [].
    split; [eexists; split; [reflexivity|]; split; [reflexivity|constructor]|]. split; [reflexivity|]. rewrite app_nil_r. split; [reflexivity|].
    intros _. destruct t0; [discriminate N|discriminate].
Qed.
Lemma conflict_loop_done : forall targets a rest g cols t0, action_of g = Some a ->
  Forall (fun t => match t with GStr _ | GColumn _ => True | _ => False end) targets ->
  map_res to_column targets = Ok cols -> (a <> ActNothing -> (t0 ++ cols)%list <> []) ->
  on_conflict_loop (targets ++ g :: rest)%list t0 = Ok ((t0 ++ cols)%list, a).
Proof.
  induction targets as [|x targets IH]; intros a rest g cols t0 G F M N.
  - injection M as <-. rewrite app_nil_r in *. destruct g; try discriminate G; injection G as <-; cbn [app on_conflict_loop]; [reflexivity|].
    destruct t0; [exfalso; apply N; [discriminate|reflexivity]|reflexivity].
  - apply Forall_cons_iff in F. destruct F as [X F]. cbn [map_res] in M. destruct (to_column x) as [c|] eqn:C; [|discriminate M].
    cbn [bind] in M. destruct (map_res to_column targets) as [cs|] eqn:D; [|discriminate M]. injection M as <-.
    specialize (IH a rest g cs (t0 ++ [c])%list G F eq_refl). rewrite <- app_assoc in IH. specialize (IH N).
    destruct x; try contradiction; cbn [app on_conflict_loop]; rewrite C; exact IH.
Qed.
