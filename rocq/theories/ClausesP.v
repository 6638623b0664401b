(* Proofs for C17, C40, C45: what is written are the clauses. *)
From Verif Require Export Clauses WhereP.

Section ClausesP.
  Context {O : Oracle}.

  Definition rcat (a b : res sql) : res sql := do x <- a; do y <- b; Ok (x ++ y)%list.
  Lemma rcat_assoc : forall a b c, rcat (rcat a b) c = rcat a (rcat b c).
  Proof. intros [a|p] [b|q] [c|r]; cbn; try reflexivity. rewrite app_assoc. reflexivity. Qed.
  Lemma rcat_nil_l : forall a, rcat (Ok []) a = a.
  Proof. intros [a|p]; reflexivity. Qed.
  Lemma rcat_nil_r : forall a, rcat a (Ok []) = a.
  Proof. intros [a|p]; cbn; [rewrite app_nil_r|]; reflexivity. Qed.
  Lemma flat_rcat : forall a b, flat (a +++ b) = rcat (flat a) (flat b).
  Proof. intros a b. rewrite flat_cat. destruct (flat a), (flat b); reflexivity. Qed.

  (* A clause followed by a space, and one preceded by a space. *)
  Definition before (c : clause) : res sql := match c with None => Ok [] | Some r => rcat r (Ok (lit " ")) end.
  Definition after (c : clause) : res sql := match c with None => Ok [] | Some r => rcat (Ok (lit " ")) r end.
  Definition afters (l : list clause) : res sql := fold_right (fun c x => rcat (after c) x) (Ok []) l.

  Definition spread (qs : list sql) : sql := flat_map (fun q => lit " " ++ q)%list qs.
  Lemma sepd_spread : forall q qs, sepd " " (q :: qs) = (q ++ spread qs)%list.
  Proof.
    intros q qs. revert q. induction qs as [|x qs IH]; intro q; [cbn; rewrite app_nil_r; reflexivity|].
    change (sepd " " (q :: x :: qs)) with (q ++ lit " " ++ sepd " " (x :: qs))%list.
    rewrite IH. cbn [spread flat_map]. rewrite <- app_assoc. reflexivity.
  Qed.
  Lemma afters_present : forall l, afters l = do qs <- present l; Ok (spread qs).
  Proof.
    induction l as [|[r|] l IH]; [reflexivity| |].
    - cbn [afters fold_right present]. fold (afters l). rewrite IH. destruct r as [q|]; [|reflexivity].
      cbn [bind]. destruct (present l) as [qs|]; [|reflexivity]. cbn. rewrite <- ?app_assoc. reflexivity.
    - cbn [afters fold_right present]. fold (afters l). rewrite IH. cbn [after]. apply rcat_nil_l.
  Qed.
  Definition sepped (l : list clause) : res sql := do qs <- present l; Ok (sepd " " qs).
  Lemma sepped_some : forall r l, sepped (Some r :: l) = rcat r (afters l).
  Proof.
    intros r l. rewrite afters_present. unfold sepped. cbn [present]. destruct r as [q|]; [|reflexivity].
    cbn [bind]. destruct (present l) as [qs|]; [|reflexivity]. cbn [bind]. rewrite sepd_spread. reflexivity.
  Qed.
  Lemma sepped_none : forall l, sepped (None :: l) = sepped l.
  Proof. reflexivity. Qed.
  Lemma sepped_before : forall c l, (exists x l', l = Some x :: l') -> sepped (c :: l) = rcat (before c) (sepped l).
  Proof.
    intros [r|] l (x & l' & ->).
    - rewrite !sepped_some. cbn [afters fold_right after before]. fold (afters l'). rewrite !rcat_assoc. reflexivity.
    - cbn [before]. rewrite rcat_nil_l. reflexivity.
  Qed.
  (* two optional clauses in front of one that is there *)
  Lemma sepped_before2 : forall a b x l,
    sepped (a :: b :: Some x :: l) = rcat (before a) (rcat (before b) (sepped (Some x :: l))).
  Proof.
    intros [a|] [b|] x l; cbn [before]; rewrite ?rcat_nil_l;
      repeat (rewrite ?sepped_some, ?sepped_none; cbn [afters fold_right after]); rewrite ?rcat_nil_l, ?rcat_assoc; reflexivity.
  Qed.
  Lemma afters_app : forall a b, afters (a ++ b)%list = rcat (afters a) (afters b).
  Proof.
    induction a as [|c a IH]; intro b; [symmetry; apply rcat_nil_l|].
    cbn [app afters fold_right]. fold (afters (a ++ b)%list) (afters a). rewrite IH, rcat_assoc. reflexivity.
  Qed.

  Definition comment_sql (c : string) : res sql := Ok (if String.eqb c "" then [] else lit ("; -- " ++ c)).
  Lemma clauses_split : forall l c, clauses_sql l c = rcat (sepped l) (comment_sql c).
  Proof. intros l c. unfold clauses_sql, sepped. destruct (present l); reflexivity. Qed.

  (* ----------------------------------------------------------------------- *)
  (* Items                                                                      *)
  (* ----------------------------------------------------------------------- *)

  Lemma flat_when : forall b t, flat (when b t) = if b then flat t else Ok [].
  Proof. intros [] t; reflexivity. Qed.
  Lemma flat_alias : forall a, flat (when (negb (no_str a)) (w (" AS " ++ quote a))) = Ok (alias_sql a).
  Proof. intro a. unfold alias_sql, no_str. destruct (String.eqb a ""); [reflexivity|]. apply flat_w. Qed.
  Lemma flat_column : forall c, flat (write_column c) = Ok (column_sql c).
  Proof. intro c. unfold write_column. rewrite flat_rcat, flat_w, flat_alias. reflexivity. Qed.
  Lemma flat_table : forall t, flat (write_table t) = Ok (table_sql t).
  Proof.
    intro t. unfold write_table. rewrite !flat_rcat, flat_when, !flat_w, flat_alias. unfold table_sql.
    destruct (t_only t); cbn; rewrite <- ?app_assoc; reflexivity.
  Qed.
  Lemma flat_sep : forall A sep (g : A -> tr) (item : A -> res sql) l, (forall x, In x l -> flat (g x) = item x) ->
    flat (sep_by sep (map g l)) = do qs <- map_res item l; Ok (sepd sep qs).
  Proof.
    intros A sep g item l H. induction l as [|x [|y l] IH]; [reflexivity| |].
    - cbn [map sep_by map_res]. rewrite H by (left; reflexivity). destruct (item x); reflexivity.
    - change (sep_by sep (map g (x :: y :: l))) with (g x +++ w sep +++ sep_by sep (map g (y :: l))).
      rewrite !flat_rcat, flat_w, (H x) by (left; reflexivity). rewrite IH by (intros z Hz; apply H; right; exact Hz).
      cbn [map_res]. destruct (item x) as [q|]; [|reflexivity]. cbn [bind rcat].
      destruct (item y) as [q'|]; [|reflexivity]. cbn [bind]. destruct (map_res item l) as [qs|]; [|reflexivity].
      cbn [bind rcat]. change (sepd sep (q :: q' :: qs)) with (q ++ lit sep ++ sepd sep (q' :: qs))%list.
      rewrite <- app_assoc. reflexivity.
  Qed.
  Lemma flat_columns : forall l, flat (write_columns l) = Ok (commas (map column_sql l)).
  Proof.
    intro l. unfold write_columns. rewrite (flat_sep _ _ _ column_item) by (intros; apply flat_column).
    assert (E : map_res column_item l = Ok (map column_sql l)).
    { induction l as [|c l IH]; [reflexivity|]. cbn [map_res column_item bind]. rewrite IH. reflexivity. }
    rewrite E. reflexivity.
  Qed.
  Lemma columns_items : forall l, map_res column_item l = Ok (map column_sql l).
  Proof. induction l as [|c l IH]; [reflexivity|]. cbn [map_res column_item bind]. rewrite IH. reflexivity. Qed.

  (* A listed clause written when there is an item. *)
  Lemma flat_listed : forall A kw (g : A -> tr) item close l t, (forall x, In x l -> flat (g x) = item x) ->
    t = w kw +++ sep_by ", " (map g l) ->
    flat (when (nonempty l) (w " " +++ (t +++ w close))) = after (listed kw item l close).
  Proof.
    intros A kw g item close l t H ->. destruct l as [|x l]; [reflexivity|].
    cbn [nonempty when]. unfold listed, after. rewrite !flat_rcat, !flat_w, (flat_sep _ _ _ item) by exact H.
    destruct (map_res item (x :: l)); [|reflexivity]. cbn. rewrite <- ?app_assoc. reflexivity.
  Qed.
  Lemma cat_w_nil : forall t, flat (t +++ w "") = flat t.
  Proof. intro t. rewrite flat_rcat, flat_w. apply rcat_nil_r. Qed.
  Lemma flat_listed0 : forall A kw (g : A -> tr) item l, (forall x, In x l -> flat (g x) = item x) ->
    flat (when (nonempty l) (w " " +++ (w kw +++ sep_by ", " (map g l)))) = after (listed kw item l "").
  Proof.
    intros A kw g item l H. rewrite <- (flat_listed A kw g item "" l _ H eq_refl).
    destruct (nonempty l); [|reflexivity]. cbn [when]. rewrite <- (cat_w_nil (w " " +++ _)), cat_assoc. reflexivity.
  Qed.

  Lemma flat_from : forall l, flat (when (nonempty l) (w " " +++ write_from l)) = after (listed "FROM " from_item l "").
  Proof.
    intro l. apply flat_listed0. intros [|t|s] _; cbn; [reflexivity|apply flat_table|apply flat_w].
  Qed.

  Lemma flat_selexpr : forall x, flat (write_selexpr write_expr x) = select_item x.
  Proof.
    intros [|c|s|f v d a|e|e]; cbn [write_selexpr select_item].
    - reflexivity.
    - apply flat_column.
    - apply flat_w.
    - rewrite !flat_rcat, !flat_w, flat_when, flat_w. unfold write_alias. rewrite flat_when, flat_w. unfold no_str.
      destruct d, (String.eqb a ""); cbn [rcat bind negb]; rewrite !lit_app; cbn [lit]; rewrite ?app_nil_r, <- ?app_assoc; reflexivity.
    - rewrite !flat_rcat, !flat_w. unfold expr_sql. destruct (flat (write_expr e)); [|reflexivity].
      cbn [rcat bind]. rewrite <- app_assoc. reflexivity.
    - rewrite !flat_rcat, !flat_w. unfold expr_sql. destruct (flat (write_expr e)); [|reflexivity].
      cbn [rcat bind]. rewrite <- app_assoc. reflexivity.
  Qed.

  Lemma flat_withq : forall q, flat (write_withq write_expr q) = with_item q.
  Proof.
    intro q. unfold write_withq, withq_empty, with_item, no_str.
    destruct (String.eqb (wq_name q) ""); [reflexivity|]. cbn [orb].
    assert (E : (if is_nil (wq_sub q) then Ok true else is_empty (wq_sub q)) = cond_empty (wq_sub q)) by reflexivity.
    rewrite E. destruct (cond_empty (wq_sub q)) as [[]|]; cbn [unless bind]; try reflexivity.
    rewrite !flat_rcat, !flat_w. unfold expr_sql. destruct (flat (write_expr (wq_sub q))); [|reflexivity].
    cbn [rcat bind]. rewrite <- app_assoc. reflexivity.
  Qed.

  Lemma flat_with : forall l, flat (when (nonempty l) (write_with write_expr l +++ w " "))
    = before (listed "WITH " with_item l "").
  Proof.
    intro l. destruct l as [|q l]; [reflexivity|]. cbn [nonempty when]. unfold write_with. cbn [nonempty when].
    rewrite !flat_rcat, !flat_w. rewrite (flat_sep _ _ _ with_item) by (intros; apply flat_withq).
    unfold listed, before. destruct (map_res with_item (q :: l)); [|reflexivity]. cbn [rcat bind lit].
    rewrite app_nil_r. reflexivity.
  Qed.

  Lemma flat_joins : forall l, flat (write_joins write_expr l) = afters (map join_clause l).
  Proof.
    induction l as [|j l IH]; [reflexivity|]. cbn [write_joins map afters fold_right].
    fold (afters (map join_clause l)). rewrite !flat_rcat, flat_w, IH. unfold write_join.
    rewrite !flat_rcat, !flat_w, flat_table. unfold join_clause, after, expr_sql.
    destruct (flat (write_expr (j_cond j))); [|reflexivity]. cbn [rcat bind]. rewrite <- ?app_assoc. reflexivity.
  Qed.

  Lemma flat_where : forall e, flat (unless (cond_empty e) (w " " +++ write_where write_expr e))
    = after (cond_clause "WHERE " e).
  Proof.
    intro e. unfold cond_clause, write_where. destruct (cond_empty e) as [[]|]; try reflexivity.
    cbn [unless bind]. rewrite !flat_rcat, !flat_w. unfold after, expr_sql.
    destruct (flat (write_expr e)); reflexivity.
  Qed.
  Lemma flat_having : forall e, flat (unless (cond_empty e) (w " " +++ write_having write_expr e))
    = after (cond_clause "HAVING " e).
  Proof.
    intro e. unfold cond_clause, write_having. destruct (cond_empty e) as [[]|]; try reflexivity.
    cbn [unless bind]. rewrite !flat_rcat, !flat_w. unfold after, expr_sql.
    destruct (flat (write_expr e)); reflexivity.
  Qed.
  Lemma flat_values : forall e, flat (unless (cond_empty e) (w " " +++ write_values e))
    = after (cond_clause "VALUES " e).
  Proof.
    intro e. unfold cond_clause, write_values. destruct (cond_empty e) as [[]|]; try reflexivity.
    cbn [unless bind]. rewrite !flat_rcat, !flat_w. unfold after, expr_sql.
    destruct (flat (write_expr e)); reflexivity.
  Qed.
  Lemma flat_comment : forall c, flat (write_comment c) = comment_sql c.
  Proof. intro c. unfold write_comment, comment_sql, no_str. destruct (String.eqb c ""); [reflexivity|apply flat_w]. Qed.

  Lemma flat_text : forall s, flat (when (negb (no_str s)) (w " " +++ w s)) = after (text_clause s).
  Proof.
    intro s. unfold text_clause, no_str. destruct (String.eqb s ""); [reflexivity|]. cbn [negb when].
    rewrite flat_rcat, !flat_w. reflexivity.
  Qed.
  Lemma flat_limit : forall z, flat (when (negb (z =? 0)%Z) (w " " +++ write_limit z)) = after (number_clause "LIMIT " z).
  Proof.
    intro z. unfold number_clause, write_limit. destruct (z =? 0)%Z; [reflexivity|]. cbn [negb when].
    rewrite flat_rcat, !flat_w. reflexivity.
  Qed.
  Lemma flat_offset : forall z, flat (when (negb (z =? 0)%Z) (w " " +++ write_offset z)) = after (number_clause "OFFSET " z).
  Proof.
    intro z. unfold number_clause, write_offset. destruct (z =? 0)%Z; [reflexivity|]. cbn [negb when].
    rewrite flat_rcat, !flat_w. reflexivity.
  Qed.
  Lemma flat_order_by : forall l, flat (when (nonempty l) (w " " +++ write_order_by l))
    = after (listed "ORDER BY " order_item l "").
  Proof.
    intro l. rewrite <- (flat_listed0 _ _ write_order).
    - destruct l; reflexivity.
    - intros o _. unfold write_order, order_item, no_str. destruct (String.eqb (o_expr o) ""); [reflexivity|apply flat_w].
  Qed.
  Lemma flat_group_by : forall l, flat (when (nonempty l) (w " " +++ write_group_by l))
    = after (listed "GROUP BY " column_item l "").
  Proof. intro l. apply flat_listed0. intros c _. apply flat_column. Qed.
  Lemma flat_distinct_on : forall l, flat (when (nonempty l) (w " " +++ write_distinct_on l))
    = after (listed "DISTINCT ON (" column_item l ")").
  Proof.
    intro l. rewrite <- (flat_listed _ _ write_column column_item ")" l _ (fun c _ => flat_column c) eq_refl).
    destruct l; reflexivity.
  Qed.
  Lemma flat_returning : forall l, flat (when (nonempty l) (w " " +++ write_returning l))
    = after (listed "RETURNING " select_item l "").
  Proof. intro l. apply flat_listed0. intros x _. apply flat_selexpr. Qed.
  Lemma flat_using : forall l, flat (when (nonempty l) (w " " +++ write_using l))
    = after (listed "USING " table_item l "").
  Proof.
    intro l. rewrite <- (flat_listed0 _ _ write_table table_item l (fun t _ => flat_table t)). destruct l; reflexivity.
  Qed.

  Lemma afters_cons : forall c l, afters (c :: l) = rcat (after c) (afters l).
  Proof. reflexivity. Qed.
  Lemma afters_nil : afters [] = Ok [].
  Proof. reflexivity. Qed.

  (* ----------------------------------------------------------------------- *)
  (* SELECT                                                                     *)
  (* ----------------------------------------------------------------------- *)

  Lemma select_sql : forall s,
    template (StSelect s) = if nonempty (s_exprs s) then clauses_sql (select_clauses s) (s_comment s)
                            else Panic (PMsg "loukoum: select statements must have at least one column").
  Proof.
    intro s. unfold template. cbn [write_stmt]. unfold write_select, write_select_with.
    destruct (nonempty (s_exprs s)) eqn:Ne; [|reflexivity].
    rewrite clauses_split. unfold select_clauses. cbn [app].
    rewrite !flat_rcat. unfold write_head, write_middle, write_tail. rewrite !flat_rcat.
    rewrite flat_with, flat_joins, flat_where, flat_having, flat_from, flat_distinct_on, flat_group_by,
      flat_order_by, flat_limit, flat_offset, flat_text, flat_comment, flat_w.
    rewrite !rcat_assoc.
    assert (Pre : flat (when (negb (no_str (s_prefix s))) (w (s_prefix s) +++ w " ")) = before (text_clause (s_prefix s))).
    { unfold text_clause, no_str. destruct (String.eqb (s_prefix s) ""); [reflexivity|]. cbn [negb when].
      rewrite flat_rcat, !flat_w. reflexivity. }
    rewrite Pre.
    assert (Dis : flat (when (s_distinct s) (w " DISTINCT")) = after (flag (s_distinct s) "DISTINCT")).
    { destruct (s_distinct s); [|reflexivity]. cbn [when]. rewrite flat_w. reflexivity. }
    rewrite Dis.
    assert (Ex : forall r, rcat (flat (when (nonempty (s_exprs s)) (w " ")))
                   (rcat (flat (sep_by ", " (map (write_selexpr write_expr) (s_exprs s)))) r)
                 = rcat (after (listed "" select_item (s_exprs s) "")) r).
    { intro r. rewrite <- rcat_assoc. f_equal.
      rewrite <- (flat_listed0 _ "" (write_selexpr write_expr) select_item (s_exprs s) (fun x _ => flat_selexpr x)).
      rewrite Ne. cbn [when]. rewrite !flat_rcat, !flat_w, rcat_nil_l. reflexivity. }
    rewrite Ex.
    rewrite sepped_before2, sepped_some, !afters_cons, afters_app, !afters_cons, afters_nil.
    rewrite !rcat_assoc, ?rcat_nil_r, ?rcat_nil_l. reflexivity.
  Qed.

  (* ----------------------------------------------------------------------- *)
  (* INSERT, UPDATE, DELETE                                                     *)
  (* ----------------------------------------------------------------------- *)

  Lemma sepped_before1 : forall a x l, sepped (a :: Some x :: l) = rcat (before a) (sepped (Some x :: l)).
  Proof. intros a x l. apply sepped_before. eauto. Qed.

  Lemma flat_assignments : forall cols es, length es = length cols ->
    flat (sep_by ", " (map write_pair (combine cols es)))
    = do qs <- map_res expr_sql es; Ok (commas (assignments cols qs)).
  Proof.
    intros cols es L.
    rewrite (flat_sep _ ", " write_pair (fun ce => do q <- expr_sql (snd ce); Ok (assignment (fst ce) q))).
    - assert (E : map_res (fun ce : column * expr => do q <- expr_sql (snd ce); Ok (assignment (fst ce) q)) (combine cols es)
                  = do qs <- map_res expr_sql es; Ok (assignments cols qs)).
      { revert es L. induction cols as [|c cols IH]; intros [|e es] L; try discriminate L; [reflexivity|].
        cbn [combine map_res fst snd]. destruct (expr_sql e) as [q|]; [|reflexivity]. cbn [bind].
        injection L as L. rewrite (IH es L). destruct (map_res expr_sql es); reflexivity. }
      rewrite E. destruct (map_res expr_sql es); reflexivity.
    - intros [c e] _. unfold write_pair, assignment. cbn [fst snd]. rewrite !flat_rcat, flat_column, flat_w. unfold expr_sql.
      destruct (flat (write_expr e)); [|reflexivity]. cbn [rcat bind]. rewrite <- app_assoc. reflexivity.
  Qed.

  Lemma map_res_length : forall A B (f : A -> res B) l r, map_res f l = Ok r -> length r = length l.
  Proof.
    intros A B f. induction l as [|x l IH]; cbn [map_res]; intros r E; [injection E as <-; reflexivity|].
    destruct (f x); [|discriminate E]. cbn [bind] in E. destruct (map_res f l); [|discriminate E].
    injection E as <-. cbn. f_equal. apply IH. reflexivity.
  Qed.

  Lemma flat_set : forall p, pairs_empty p = false -> flat (write_set p) = set_sql p.
  Proof.
    intros p E. unfold write_set, write_pairs. rewrite E. unfold set_sql. rewrite flat_rcat, flat_w.
    destruct (p_mode p) eqn:M.
    - unfold pairs_empty in E. rewrite M in E. discriminate E.
    - unfold pairs_values. rewrite M. cbv zeta. fold (value_of p).
      change (map_res (fun c => match pm_get c (p_map p) with
                                | Some e => Ok e
                                | None => Panic (PMsg "loukoum: invalid state for stmt.PairContainer")
                                end) (o_sort (p_cols p))) with (map_res (value_of p) (o_sort (p_cols p))).
      destruct (map_res (value_of p) (o_sort (p_cols p))) as [es|] eqn:Em; [|reflexivity]. cbn [bind fst snd].
      rewrite flat_assignments by (apply (map_res_length _ _ _ _ _ Em)).
      destruct (map_res expr_sql es); reflexivity.
    - rewrite !flat_rcat, !flat_w, flat_columns, (flat_sep _ _ _ expr_sql) by reflexivity.
      destruct (map_res expr_sql (p_exprs p)); [|reflexivity]. cbn [rcat bind]. rewrite <- !app_assoc. reflexivity.
  Qed.

  Lemma flat_conflict : forall l a,
    flat (when (negb (conflict_empty a)) (w " " +++ write_conflict l a)) = after (conflict_clause l a).
  Proof.
    intros l [[|p]|]; [| |reflexivity].
    - cbn [conflict_empty action_empty negb when write_conflict conflict_clause write_action after].
      rewrite !flat_rcat, !flat_w. destruct l as [|c l]; [reflexivity|]. cbn [nonempty when].
      unfold write_target. cbn [nonempty when]. rewrite !flat_rcat, !flat_w, flat_columns.
      cbn [rcat bind]. rewrite <- !app_assoc. reflexivity.
    - cbn [conflict_empty action_empty negb when write_conflict conflict_clause write_action].
      destruct (pairs_empty p) eqn:E; [reflexivity|]. cbn [negb when after].
      rewrite !flat_rcat, !flat_w, (flat_set p E). destruct l as [|c l].
      + destruct (set_sql p); reflexivity.
      + cbn [nonempty when]. unfold write_target. cbn [nonempty when].
        rewrite !flat_rcat, !flat_w, flat_columns. destruct (set_sql p); [|reflexivity].
        cbn [rcat bind]. rewrite <- !app_assoc. reflexivity.
  Qed.

  Lemma flat_insert_columns : forall l, flat (when (nonempty l) (w " (" +++ write_columns l +++ w ")"))
    = after (listed "(" column_item l ")").
  Proof.
    intros [|c l]; [reflexivity|]. cbn [nonempty when]. rewrite !flat_rcat, !flat_w, flat_columns.
    unfold listed. rewrite columns_items. cbn [after rcat bind]. rewrite <- app_assoc. reflexivity.
  Qed.

  Lemma flat_written_values : forall e, flat (unless (cond_empty e) (w " " +++ write_values e))
    = after (cond_clause "VALUES " e).
  Proof. exact flat_values. Qed.

  Lemma insert_sql : forall i,
    template (StInsert i) =
    if no_str (t_name (i_into i)) then Panic (PMsg "loukoum: an insert statement must have at least one column")
    else clauses_sql (insert_clauses i) (i_comment i).
  Proof.
    intro i. unfold template. cbn [write_stmt]. unfold write_insert.
    destruct (no_str (t_name (i_into i))); [reflexivity|].
    rewrite clauses_split. unfold insert_clauses. rewrite sepped_some, !afters_cons, afters_nil.
    rewrite !flat_rcat, flat_insert_columns, flat_written_values, flat_conflict, flat_returning, flat_comment, flat_w, flat_table.
    rewrite !rcat_assoc, ?rcat_nil_r, ?rcat_nil_l. rewrite <- (rcat_assoc (Ok (lit "INSERT INTO "))). reflexivity.
  Qed.

  Lemma update_sql : forall u,
    template (StUpdate u) =
    if no_str (t_name (u_table u)) || pairs_empty (u_set u)
    then Panic (PMsg "loukoum: an update statement must have a table and/or values")
    else clauses_sql (update_clauses u) (u_comment u).
  Proof.
    intro u. unfold template. cbn [write_stmt]. unfold write_update.
    destruct (no_str (t_name (u_table u))); [reflexivity|]. cbn [orb].
    destruct (pairs_empty (u_set u)) eqn:E; [reflexivity|].
    rewrite clauses_split. unfold update_clauses. rewrite sepped_before1, sepped_some, !afters_cons, afters_nil.
    rewrite !flat_rcat, flat_with, flat_from, flat_where, flat_returning, flat_comment, !flat_w, flat_table, (flat_set _ E).
    assert (D : flat (when (u_only u) (w " ONLY")) = after (flag (u_only u) "ONLY")).
    { destruct (u_only u); [|reflexivity]. cbn [when]. rewrite flat_w. reflexivity. }
    rewrite D. rewrite !rcat_assoc. cbn [after]. rewrite !rcat_assoc, ?rcat_nil_r, ?rcat_nil_l. reflexivity.
  Qed.

  Lemma delete_sql : forall d,
    template (StDelete d) =
    if nonempty (d_from d) then clauses_sql (delete_clauses d) (d_comment d)
    else Panic (PMsg "loukoum: a delete statement must have a table").
  Proof.
    intro d. unfold template. cbn [write_stmt]. unfold write_delete.
    destruct (nonempty (d_from d)) eqn:Ne; [|reflexivity].
    rewrite clauses_split. unfold delete_clauses. rewrite sepped_some, !afters_cons, afters_nil.
    rewrite !flat_rcat, flat_using, flat_where, flat_returning, flat_comment.
    rewrite <- flat_from, Ne. cbn [when]. rewrite !flat_rcat, !flat_w.
    rewrite !rcat_assoc, ?rcat_nil_r, ?rcat_nil_l. rewrite <- (rcat_assoc (Ok (lit "DELETE"))). reflexivity.
  Qed.
End ClausesP.
