(* C12: balanced parentheses. C39: comments. *)
From Verif Require Import BalanceP Sort.

(* Every expression (at any depth, subqueries included) whose names have no double quote and
   whose verbatim texts are balanced renders balanced SQL. *)
Theorem C12_condition_balanced {O : Oracle} : forall e q,
  Forall (good_word true) (words e) -> expr_sql e = Ok q ->
  balanced true q /\ forall k, balanced true (lit (fill dollar k q)) /\ balanced true (lit (fill colon k q)).
Proof.
  intros e q H E. pose proof (bal_expr true e H q E) as B. split; [exact B|]. intro k.
  split; apply (scan_fill true); try exact B; intros i v _; [apply bal_dollar|apply bal_colon].
Qed.
Print Assumptions C12_condition_balanced.

(* So does every statement; the text is that of Query() and NamedQuery(). *)
Theorem C12_statement_balanced {O : Oracle} : forall s,
  Forall (good_word true) (stmt_words s) ->
  match query s, named_query s with
  | Ok (t, _), Ok (t', _) => balanced true (lit t) /\ balanced true (lit t')
  | Panic p, Panic p' => p = p'
  | _, _ => False
  end.
Proof.
  intros s H. rewrite query_template, named_query_template.
  destruct (template s) as [q|p] eqn:E; cbn [bind]; [|reflexivity].
  pose proof (bal_stmt true s H q E) as B.
  split; apply (scan_fill true); try exact B; intros i v _; [apply bal_dollar|apply bal_colon].
Qed.
Print Assumptions C12_statement_balanced.

(* Balanced SQL leaves any surrounding text as it was: as many parentheses are open after it
   as before, and no quote. *)
Theorem C12_embeds_anywhere : forall q before after open,
  balanced true q -> scan true before Out 0 = Some (Out, open) ->
  scan true (before ++ q ++ after)%list Out 0 = scan true after Out open.
Proof.
  intros q before after open B H. rewrite !scan_app, H. cbn iota beta. rewrite scan_app.
  pose proof (scan_up true _ _ _ _ _ open B) as U. cbn [plus] in U. rewrite U. reflexivity.
Qed.
Print Assumptions C12_embeds_anywhere.

(* A condition with IN, a subquery, a raw text and names that contain parentheses. *)
Definition odd_condition : res expr :=
  do q <- lk_select [GStr "a)b"];
  do q <- sel_step q (SelFrom [GStr "u"]);
  do c1 <- cmp_expr (lk_condition (GStr "x(y")) OpEqual (g_select q);
  do c2 <- expr_in (lk_condition (GStr "z")) [GInt KInt 1; GInt KInt 2];
  Ok (lk_and (lk_or c1 c2) (lk_raw "f(')', 1)")).
Example C12_example : exists e, odd_condition = Ok e /\ Forall (good_word true) (words e)
  /\ (do q <- expr_sql (O := go_oracle) e; Ok (fill dollar 1 q))
     = Ok "(((""x(y"" = (SELECT ""a)b"" FROM ""u"")) OR (""z"" IN ($1, $2))) AND f(')', 1))"%string.
Proof.
  eexists. split; [vm_compute; reflexivity|]. split; [|vm_compute; reflexivity].
  repeat constructor; vm_compute; intuition discriminate.
Qed.
(* Without the hypothesis on names the property is false. *)
Theorem C12_double_quote_refuted :
  exists e q, expr_in (lk_condition (GStr "a"")x")) [GInt KInt 1] = Ok e
    /\ expr_sql (O := go_oracle) e = Ok q /\ scan true q Out 0 = None.
Proof. eexists. eexists. repeat split; vm_compute; reflexivity. Qed.
Print Assumptions C12_double_quote_refuted.

(* ------------------------------------------------------------------------- *)
(* C39                                                                         *)
(* ------------------------------------------------------------------------- *)

(* The effect of the method Comment(c). *)
Definition set_comment (s : stmt) (c : string) : stmt :=
  match s with
  | StSelect q => StSelect (with_comment q c)
  | StInsert i => StInsert (ins_with_comment i c)
  | StUpdate u => StUpdate (upd_with_comment u c)
  | StDelete d => StDelete (del_with_comment d c)
  end.

(* A reader that removes comments: -- outside quotes, up to the end of the line. *)
Inductive place := PSql | PName | PText | PRemark.
Definition is_eol (a : ascii) : bool := Ascii.eqb a "010" || Ascii.eqb a "013".
Fixpoint strip (p : place) (s : string) : string :=
  match s with
  | EmptyString => ""
  | String a s' =>
    match p with
    | PSql =>
      if Ascii.eqb a "-" && match s' with String b _ => Ascii.eqb b "-" | _ => false end
      then strip PRemark s'
      else String a (strip (if Ascii.eqb a """" then PName else if Ascii.eqb a "'" then PText else PSql) s')
    | PName => String a (strip (if Ascii.eqb a """" then PSql else PName) s')
    | PText => String a (strip (if Ascii.eqb a "'" then PSql else PText) s')
    | PRemark => if is_eol a then String a (strip PSql s') else strip PRemark s'
    end
  end.

Lemma comment_last {O : Oracle} : forall s c,
  write_stmt (set_comment s c) = write_stmt (set_comment s "") +++ write_comment c.
Proof.
  intros s c.
  assert (E : write_comment "" = eps) by reflexivity.
  destruct s as [q|i|u|d]; cbn [set_comment write_stmt].
  - unfold write_select, write_select_with. cbn [s_exprs with_comment]. destruct (nonempty (s_exprs q)); [|reflexivity].
    unfold write_tail. cbn [s_comment with_comment]. rewrite E, !cat_assoc, cat_eps_l. reflexivity.
  - unfold write_insert. cbn [i_into ins_with_comment]. destruct (no_str _); [reflexivity|].
    cbn [i_comment ins_with_comment]. rewrite E, !cat_assoc, cat_eps_l. reflexivity.
  - unfold write_update. cbn [u_table u_set upd_with_comment]. destruct (no_str _ || _); [reflexivity|].
    cbn [u_comment upd_with_comment]. rewrite E, !cat_assoc, cat_eps_l. reflexivity.
  - unfold write_delete. cbn [d_from del_with_comment]. destruct (nonempty _); [|reflexivity].
    cbn [d_comment del_with_comment]. rewrite E, !cat_assoc, cat_eps_l. reflexivity.
Qed.

Lemma raw_last {O : Oracle} : forall t buf x,
  run_raw_from buf (t ++ [W x])%list = do r <- run_raw_from buf t; Ok (r ++ x)%string.
Proof.
  induction t as [|[y|v] t IH]; intros buf x; cbn [app run_raw_from bind]; [reflexivity|apply IH|].
  destruct (format_value v); [apply IH|reflexivity].
Qed.

(* With a comment, the text is the text without it followed by the comment; the arguments are
   the same. For all three renderings. *)
Theorem C39_comment_is_appended {O : Oracle} : forall s c, c <> ""%string ->
  query (set_comment s c)
    = (do r <- query (set_comment s ""); Ok (fst r ++ "; -- " ++ c, snd r)%string)
  /\ named_query (set_comment s c)
    = (do r <- named_query (set_comment s ""); Ok (fst r ++ "; -- " ++ c, snd r)%string)
  /\ to_string (set_comment s c)
    = (do r <- to_string (set_comment s ""); Ok (r ++ "; -- " ++ c)%string).
Proof.
  intros s c Hc.
  assert (N : no_str c = false) by (unfold no_str; apply String.eqb_neq; exact Hc).
  assert (T : template (set_comment s c) = do q <- template (set_comment s ""); Ok (q ++ lit ("; -- " ++ c))%list).
  { unfold template. rewrite comment_last, flat_cat. unfold write_comment. rewrite N. cbn [negb when].
    rewrite flat_w. destruct (flat _); reflexivity. }
  split; [|split].
  - rewrite !query_template, T. destruct (template (set_comment s "")) as [q|p]; [|reflexivity].
    cbn [bind fst snd]. rewrite fill_app, fill_lit, args_app, args_lit, app_nil_r. reflexivity.
  - rewrite !named_query_template, T. destruct (template (set_comment s "")) as [q|p]; [|reflexivity].
    cbn [bind fst snd]. rewrite fill_app, fill_lit, args_app, args_lit, app_nil_r. reflexivity.
  - unfold to_string. rewrite comment_last. destruct (write_stmt (set_comment s "")) as [t|p]; [|reflexivity].
    unfold write_comment. rewrite N. cbn [cat negb when w bind]. apply raw_last.
Qed.
Print Assumptions C39_comment_is_appended.

(* The place where the reader is after a text without dashes outside quotes. *)
Definition place_of (m : mode) : place := match m with Out => PSql | InName => PName | InText => PText end.
Lemma strip_scan : forall t m d r rest, scan false (lit t) m d = Some (Out, r) ->
  strip (place_of m) (t ++ rest) = (t ++ strip PSql rest)%string.
Proof.
  induction t as [|a t IH]; intros m d r rest H; cbn [lit scan] in H.
  - injection H as -> _. reflexivity.
  - destruct m; cbn [append strip place_of].
    + destruct (Ascii.eqb a "-") eqn:D.
      { apply Ascii.eqb_eq in D. subst. discriminate. }
      cbn [andb]. f_equal.
      destruct (Ascii.eqb a "(") eqn:E1; [apply Ascii.eqb_eq in E1; subst; exact (IH Out _ _ _ H)|].
      destruct (Ascii.eqb a ")") eqn:E2; [apply Ascii.eqb_eq in E2; subst; destruct d; [discriminate|exact (IH Out _ _ _ H)]|].
      destruct (Ascii.eqb a """"); [exact (IH InName _ _ _ H)|].
      destruct (Ascii.eqb a "'"); [exact (IH InText _ _ _ H)|exact (IH Out _ _ _ H)].
    + f_equal. destruct (Ascii.eqb a """"); [exact (IH Out _ _ _ H)|exact (IH InName _ _ _ H)].
    + f_equal. destruct (Ascii.eqb a "'"); [exact (IH Out _ _ _ H)|exact (IH InText _ _ _ H)].
Qed.

Lemma strip_remark : forall c, forallb (fun a => negb (is_eol a)) (list_ascii_of_string c) = true ->
  strip PRemark c = ""%string.
Proof.
  induction c as [|a c IH]; intro H; [reflexivity|]. cbn in H. apply andb_prop in H as [H1 H2].
  cbn [strip]. destruct (is_eol a); [discriminate|apply IH, H2].
Qed.

(* A reader that removes comments sees the query without comment, and an empty statement. *)
Theorem C39_comment_is_ignored {O : Oracle} : forall s c t vs t0 vs0,
  Forall (good_word false) (stmt_words (set_comment s "")) ->
  forallb (fun a => negb (is_eol a)) (list_ascii_of_string c) = true -> c <> ""%string ->
  query (set_comment s "") = Ok (t0, vs0) -> query (set_comment s c) = Ok (t, vs) ->
  strip PSql t0 = t0 /\ strip PSql t = (t0 ++ "; ")%string /\ vs = vs0.
Proof.
  intros s c t vs t0 vs0 G Hc Hn Q0 Q.
  destruct (C39_comment_is_appended s c Hn) as (E & _ & _). rewrite Q0, Q in E. cbn [bind fst snd] in E.
  injection E as -> ->. rewrite query_template in Q0.
  destruct (template (set_comment s "")) as [q|p] eqn:T; [|discriminate]. injection Q0 as <- <-.
  pose proof (bal_stmt false _ G q T) as B.
  assert (S0 : scan false (lit (fill dollar 1 q)) Out 0 = Some (Out, 0)).
  { apply (scan_fill false); [intros i v _; apply bal_dollar|exact B]. }
  split; [|split; [|reflexivity]].
  - pose proof (strip_scan _ _ _ _ "" S0) as X. rewrite !sapp_nil in X. exact X.
  - pose proof (strip_scan _ _ _ _ ("; -- " ++ c) S0) as X. etransitivity; [exact X|]. f_equal.
    change (strip PSql ("; -- " ++ c)) with ("; " ++ strip PRemark c)%string.
    rewrite strip_remark by exact Hc. reflexivity.
Qed.
Print Assumptions C39_comment_is_ignored.

(* With a line break the rest of the comment is SQL again. *)
Theorem C39_line_break_refuted :
  exists d t, lk_delete (GStr "a") = Ok d
    /\ query (O := go_oracle) (set_comment (StDelete d) ("x" ++ str1 "010" ++ "DROP TABLE b")) = Ok (t, [])
    /\ strip PSql t = ("DELETE FROM ""a""; " ++ str1 "010" ++ "DROP TABLE b")%string.
Proof. eexists. eexists. repeat split; vm_compute; reflexivity. Qed.
Print Assumptions C39_line_break_refuted.

(* A subquery with a comment hides what follows it. *)
Theorem C39_subquery_comment_refuted :
  exists q e, (do q <- lk_select [GStr "id"]; sel_run q [SelFrom [GStr "u"]; SelComment "n"]) = Ok q
    /\ lk_exists (g_select q) = Ok e
    /\ (do d <- lk_delete (GStr "a"); do d <- del_run d [DelWhere e; DelAnd (lk_raw "b")];
        do r <- query (O := go_oracle) (StDelete d); Ok (strip PSql (fst r)))
       = Ok "DELETE FROM ""a"" WHERE ((EXISTS (SELECT ""id"" FROM ""u""; "%string.
Proof. eexists. eexists. repeat split; vm_compute; reflexivity. Qed.
Print Assumptions C39_subquery_comment_refuted.

Example C39_example : exists d, (do d <- lk_delete (GStr "a--b"); del_run d [DelWhere (lk_raw "x = 'y'"); DelReturning [GStr "id"]]) = Ok d
  /\ Forall (good_word false) (stmt_words (set_comment (StDelete d) ""))
  /\ query (O := go_oracle) (set_comment (StDelete d) "it's -- mine") =
       Ok ("DELETE FROM ""a--b"" WHERE x = 'y' RETURNING ""id""; -- it's -- mine"%string, []).
Proof.
  eexists. split; [vm_compute; reflexivity|]. split; [|vm_compute; reflexivity].
  repeat constructor; vm_compute; intuition discriminate.
Qed.
