(* C61: which arguments reach the SQL text, and as what. *)
From Verif Require Import SurfaceInsideP Sort.
From Verif Require PropsBalance.

(* The text of Query() is spelled with the library's own vocabulary, quoted names, numbers and the
   texts that the statement carries verbatim; a value is there as a placeholder only, whose number is
   that of an argument. NamedQuery() and String() likewise. *)
Theorem C61_text {O : Oracle} : forall s,
  (forall t args, query s = Ok (t, args) -> exists ps, t = concat_str ps
     /\ Forall (fun p => sql_piece (stmt_words s) p
                         \/ exists k, 1 <= k <= length args /\ p = "$" ++ string_of_nat k) ps)
  /\ (forall t args, named_query s = Ok (t, args) -> exists ps, t = concat_str ps
     /\ Forall (fun p => sql_piece (stmt_words s) p \/ exists k, p = ":arg_" ++ string_of_nat k) ps)
  /\ (forall t, to_string s = Ok t -> exists ps args, t = concat_str ps
     /\ (exists t', query s = Ok (t', args))
     /\ Forall (fun p => sql_piece (stmt_words s) p \/ exists v, In v args /\ format_value v = Ok p) ps).
Proof.
  intro s. pose proof (good_stmt (stmt_words s) s (fun x H => H)) as G. unfold query, named_query, to_string.
  destruct (write_stmt s) as [t0|] eqn:E; cbn [bind]; [|split; [|split]; intros; discriminate].
  specialize (G t0 eq_refl). split; [|split].
  - intros t args Q. injection Q as <- <-.
    apply (std_text (sql_piece (stmt_words s)) _ (fun p H => or_introl H) t0 std_init); [apply made_nil|exact G|].
    intros k [Hk1 Hk2]. right. exists k. split; [|reflexivity]. split; [exact Hk1|exact Hk2].
  - intros t args Q. injection Q as <- <-.
    apply (named_text (sql_piece (stmt_words s)) _ (fun p H => or_introl H) t0 named_init); [apply made_nil|exact G|].
    intro k. right. exists k. reflexivity.
  - intros t Q.
    assert (M : made_of (fun p => sql_piece (stmt_words s) p \/ exists v, In v (snd (run_std t0)) /\ format_value v = Ok p) t).
    { refine (raw_text (sql_piece (stmt_words s)) _ (fun p H => or_introl H) t0 "" t (made_nil _) G _ Q).
      intros v l Hv Hl. right. exists v. split; [|exact Hl]. exact (std_vals_in t0 std_init v Hv). }
    destruct M as (ps & Et & F). exists ps, (snd (run_std t0)). split; [exact Et|]. split; [|exact F].
    exists (fst (run_std t0)). destruct (run_std t0). reflexivity.
Qed.
Print Assumptions C61_text.

(* The texts that a statement carries verbatim are arguments of the calls that made it, or the six
   that the calls bring; each name is part of a name in an argument, save for the names in the text
   of a join, which are of letters, digits, dots and underscores, and *. *)
Theorem C61_words {O : Oracle} : forall ws s, built ws s -> forall x, In x (stmt_words s) -> traced ws x.
Proof. intros ws s H. apply Forall_forall. exact (built_traced ws s H). Qed.
Print Assumptions C61_words.

(* If no name in the arguments has a double quote, and each text that is written as it is stays
   inside one statement, and no comment is given, then Query() and NamedQuery() give one statement:
   no ; and no comment outside quotes, all quotes closed. Nothing is asked of the values, nor of
   the texts of joins. *)
Theorem C61_one_statement {O : Oracle} : forall ws s, built ws s -> Forall safe_word ws ->
  (forall t args, query s = Ok (t, args) -> stays_inside t)
  /\ (forall t args, named_query s = Ok (t, args) -> stays_inside t).
Proof.
  intros ws s B H. pose proof (built_safe ws s B H) as F. destruct (C61_text s) as (T1 & T2 & _). split.
  - intros t args Q. destruct (T1 t args Q) as (ps & E & P).
    refine (made_holds _ stays_inside t eq_refl inside_app _ (ex_intro _ ps (conj E P))).
    intros p [Hp|(k & _ & ->)]; [exact (inside_piece _ p F Hp)|apply inside_dollar].
  - intros t args Q. destruct (T2 t args Q) as (ps & E & P).
    refine (made_holds _ stays_inside t eq_refl inside_app _ (ex_intro _ ps (conj E P))).
    intros p [Hp|(k & ->)]; [exact (inside_piece _ p F Hp)|apply inside_colon].
Qed.
Print Assumptions C61_one_statement.

(* A statement that stays inside can be followed by one text or another: the reader comes to it
   outside quotes. *)
Theorem C61_comment {O : Oracle} : forall ws s c, built ws (PropsBalance.set_comment s "") -> Forall safe_word ws -> c <> "" ->
  forall t args, query (PropsBalance.set_comment s c) = Ok (t, args) ->
  exists body, t = body ++ "; -- " ++ c /\ stays_inside body.
Proof.
  intros ws s c B H N t args Q. destruct (PropsBalance.C39_comment_is_appended s c N) as (E & _). rewrite Q in E.
  destruct (query (PropsBalance.set_comment s "")) as [[b a]|] eqn:Q0; [|discriminate E]. injection E as -> ->.
  exists b. split; [reflexivity|]. exact (proj1 (C61_one_statement ws _ B H) b a Q0).
Qed.
Print Assumptions C61_comment.

(* Conditions: the operators are the library's, all else is from the arguments; so they are safe
   if the arguments are. *)
Theorem C61_conditions : forall ws e, made ws e ->
  (forall v, In (Verbatim v) (words e) -> In (Verbatim v) ws \/ In v operator_texts)
  /\ (Forall safe_word ws -> Forall safe_word (words e)).
Proof.
  intros ws e H. split.
  - intros v Hv.
    assert (F : Forall (fun x => match x with Verbatim v => In (Verbatim v) ws \/ In v operator_texts | _ => True end) (words e)).
    { apply (made_ok _ (fun v I => or_intror I) I ws e H). apply Forall_forall. intros [n|v'|z|c] I; auto. }
    exact (proj1 (Forall_forall _ _) F _ Hv).
  - apply (made_ok safe_word safe_op (safe_plain "" (fun a H => match H with end)) ws e H).
Qed.
Print Assumptions C61_conditions.

(* The other constructors. *)
Theorem C61_constructors {O : Oracle} :
  (forall n a, column_words (column_as (lk_column n) a) = [Name n; Name a])
  /\ (forall n a, table_words (table_as (lk_table n) a) = [Name n; Name a])
  /\ (forall c dir, order_words (lk_order c [dir]) = [Verbatim c; Verbatim dir])
  /\ (forall v a b, selexpr_words words (agg_as (agg_distinct (lk_count v) b) a) = [Verbatim "COUNT"; Verbatim v; Verbatim a])
  /\ (forall v a, selexpr_words words (agg_as (lk_max v) a) = [Verbatim "MAX"; Verbatim v; Verbatim a]
                  /\ selexpr_words words (agg_as (lk_min v) a) = [Verbatim "MIN"; Verbatim v; Verbatim a]
                  /\ selexpr_words words (agg_as (lk_sum v) a) = [Verbatim "SUM"; Verbatim v; Verbatim a])
  /\ (forall name g x, lk_with name g = Ok x -> with_words words x = Verbatim name :: value_arg g)
  /\ (forall q, value_arg (GStmtEnc (Some (ESelect q))) = stmt_words (StSelect q))
  /\ (forall args g, lk_do_update args = Ok g -> Forall safe_word (flat_map set_arg args) -> Forall safe_word (conflict_arg g)).
Proof.
  repeat split; try reflexivity.
  - intros name g x E. destruct (bind_ok _ _ _ E) as (e & Ee & E1). injection E1 as <-. unfold with_words. cbn [wq_name wq_sub].
    rewrite (new_expression_words _ _ Ee). reflexivity.
  - intros args g E H. destruct (bind_ok _ _ _ E) as (p & Ep & E1). injection E1 as <-. cbn [conflict_arg].
    refine (okl_to_set safe_word safe_cut safe_plain _ _ H Ep).
Qed.
Print Assumptions C61_constructors.

(* ------------------------------------------------------------------------- *)
(* The arguments that are written as they are                                  *)
(* ------------------------------------------------------------------------- *)

Definition sel_text (cols : list gval) (cs : list sel_call) : res (string * list gval) :=
  do q0 <- lk_select cols; do q <- sel_run q0 cs; query (O := go_oracle) (StSelect q).

Lemma sel_text_of : forall cols cs q x, (do q0 <- lk_select cols; sel_run q0 cs) = Ok q ->
  query (O := go_oracle) (StSelect q) = Ok x -> sel_text cols cs = Ok x.
Proof.
  intros cols cs q x E Q. unfold sel_text. destruct (lk_select cols) as [q0|]; [|discriminate E]. cbn [bind] in *.
  rewrite E. exact Q.
Qed.
Lemma quote_a : quote (O := go_oracle) "a" = """a""". Proof. vm_compute. reflexivity. Qed.
Lemma quote_t : quote (O := go_oracle) "t" = """t""". Proof. vm_compute. reflexivity. Qed.
Lemma quote_u : quote (O := go_oracle) "u" = """u""". Proof. vm_compute. reflexivity. Qed.
Lemma quote_x : quote (O := go_oracle) "x" = """x""". Proof. vm_compute. reflexivity. Qed.
Lemma quote_y : quote (O := go_oracle) "y" = """y""". Proof. vm_compute. reflexivity. Qed.

(* Whatever the text r is, it is in the SQL as it is: Order and its direction, the name of a WITH
   query, the argument and the name of an aggregate, Raw as a column, as a table and in a
   condition, the name of a function, the type of a join, Prefix and Suffix. *)
Theorem C61_verbatim_arguments : forall r, r <> "" -> let a := GStr "a" in let from := SelFrom [GStr "t"] in
  sel_text [a] [from; SelOrderBy [lk_order r []]] = Ok ("SELECT ""a"" FROM ""t"" ORDER BY " ++ r ++ " ASC", [])
  /\ sel_text [a] [from; SelOrderBy [lk_order "b" [r]]] = Ok ("SELECT ""a"" FROM ""t"" ORDER BY b " ++ r, [])
  /\ (do x <- lk_with r (GExpr (lk_raw "x")); sel_text [a] [SelWith [x]]) = Ok ("WITH " ++ r ++ " AS (x) SELECT ""a""", [])
  /\ sel_text [GSel (lk_count r)] [] = Ok ("SELECT COUNT(" ++ r ++ ")", [])
  /\ sel_text [GSel (agg_as (lk_max "b") r)] [] = Ok ("SELECT MAX(b) AS " ++ r, [])
  /\ sel_text [GExpr (lk_raw r)] [] = Ok ("SELECT " ++ r, [])
  /\ sel_text [a] [SelFrom [GExpr (lk_raw r)]] = Ok ("SELECT ""a"" FROM " ++ r, [])
  /\ sel_text [a] [from; SelWhere (lk_raw r)] = Ok ("SELECT ""a"" FROM ""t"" WHERE " ++ r, [])
  /\ sel_text [a] [from; SelWhere (new_call r [])] = Ok ("SELECT ""a"" FROM ""t"" WHERE " ++ r ++ "()", [])
  /\ sel_text [a] [from; SelJoin [GStr "u"; GExpr (lk_on "x" "y"); GJoinType r]]
     = Ok ("SELECT ""a"" FROM ""t"" " ++ r ++ " ""u"" ON ""x"" = ""y""", [])
  /\ sel_text [a] [SelPrefix (GStr r)] = Ok (r ++ " SELECT ""a""", [])
  /\ sel_text [a] [SelSuffix (GStr r)] = Ok ("SELECT ""a"" " ++ r, []).
Proof.
  intros [|c r] N; [contradiction|]. cbv zeta.
  Ltac by_parts := refine (sel_text_of _ _ _ _ _ _); [vm_compute; reflexivity|];
    cbv -[append quote go_oracle]; rewrite ?quote_a, ?quote_t, ?quote_u, ?quote_x, ?quote_y, !sapp_assoc; reflexivity.
  split; [by_parts|]. split; [by_parts|]. split; [cbn [lk_with new_expression lk_raw bind]; by_parts|]. repeat (split; [by_parts|]). by_parts.
Qed.
Print Assumptions C61_verbatim_arguments.

(* ------------------------------------------------------------------------- *)
(* Examples                                                                    *)
(* ------------------------------------------------------------------------- *)

(* A condition whose value is anything but harmless, and a join of that kind. *)
Definition evil : string := "x'; DROP TABLE t; -- ""$$/*".
Definition safe_condition : res expr := do e <- cmp_expr (lk_condition (GStr "u.name")) OpEqual (GStr evil); Ok e.
Definition safe_calls (e : expr) : list sel_call :=
  [SelFrom [GStr "users; DROP TABLE t; --"]; SelJoin [GStr ("INNER JOIN b ON b.id = u.id ; DROP TABLE t")];
   SelWhere e; SelOrderBy [lk_order "u.name" ["DESC"]]; SelSuffix (GStr "FOR UPDATE")].
Definition safe_words_used (e : expr) : list word :=
  (flat_map select_arg [GStr "id, name"; GSel (lk_count "*")] ++ flat_map sel_call_words (safe_calls e))%list.

Definition safe_check (x : word) : bool :=
  match x with
  | Name s => negb (existsb (Ascii.eqb """") (list_ascii_of_string s))
  | Verbatim s => match read_text Code s with Some Code => true | _ => false end
  | Number _ => true
  | Remark c => String.eqb c ""
  end.
Lemma safe_checked : forall ws, forallb safe_check ws = true -> Forall safe_word ws.
Proof.
  intros ws H. apply Forall_forall. intros x Hx. pose proof (proj1 (forallb_forall _ _) H x Hx) as C.
  destruct x as [n|v|z|c]; cbn [safe_check safe_word] in *.
  - intro K. apply Bool.negb_true_iff in C. assert (D : existsb (Ascii.eqb """") (list_ascii_of_string n) = true).
    { apply existsb_exists. exists """"%char. split; [exact K|reflexivity]. } congruence.
  - unfold stays_inside. destruct (read_text Code v) as [[]|]; try discriminate C. reflexivity.
  - exact I.
  - apply String.eqb_eq, C.
Qed.

Example C61_safe_condition : exists e, safe_condition = Ok e /\ made [Name "u.name"] e /\ Forall safe_word (words e).
Proof.
  eexists. split; [reflexivity|].
  assert (M : made [Name "u.name"] (EInfix (EIdent (GStr "u.name")) (Some "=") (EValue (GStr evil)))).
  { exact (made_compare [Name "u.name"] (lk_condition (GStr "u.name")) OpEqual (GStr evil) _ (made_column "u.name") eq_refl). }
  split; [exact M|]. apply (proj2 (C61_conditions _ _ M)), safe_checked. reflexivity.
Qed.

Example C61_example : exists e q t, safe_condition = Ok e
  /\ (do q0 <- lk_select [GStr "id, name"; GSel (lk_count "*")]; sel_run q0 (safe_calls e)) = Ok q
  /\ built (O := go_oracle) (safe_words_used e) (StSelect q) /\ Forall safe_word (safe_words_used e)
  /\ query (O := go_oracle) (StSelect q) = Ok (t, [GStr evil]) /\ stays_inside t.
Proof.
  do 3 eexists. split; [reflexivity|]. split; [vm_compute; reflexivity|].
  split; [|split; [|split; [vm_compute; reflexivity|vm_compute; reflexivity]]].
  - eapply (built_select (O := go_oracle) [GStr "id, name"; GSel (lk_count "*")]); vm_compute; reflexivity.
  - apply safe_checked. vm_compute. reflexivity.
Qed.

(* What is asked of the arguments is needed: a double quote in a name, a text that ends the
   statement, a comment in a subquery. *)
Theorem C61_safety_is_needed :
  (exists q t, lk_select [GStr "a""; DROP TABLE t; --"] = Ok q /\ query (O := go_oracle) (StSelect q) = Ok (t, [])
     /\ t = "SELECT ""a\""; DROP TABLE t; --""" /\ ~ stays_inside t)
  /\ (exists t, sel_text [GStr "a"] [SelOrderBy [lk_order "a; DROP TABLE t; --" []]] = Ok (t, []) /\ ~ stays_inside t)
  /\ (exists q t, sel_text [GStr "a"] [SelComment "c"] = Ok ("SELECT ""a""; -- c", []) /\
        (do q0 <- lk_select [GStr "a"]; sel_run q0 [SelComment "c"]) = Ok q
        /\ sel_text [GStr "b"] [SelWhere (EExists (ESelect q))] = Ok (t, []) /\ ~ stays_inside t).
Proof.
  split; [|split].
  - do 2 eexists. split; [vm_compute; reflexivity|]. split; [vm_compute; reflexivity|]. split; [vm_compute; reflexivity|].
    intro H. vm_compute in H. discriminate H.
  - eexists. split; [vm_compute; reflexivity|]. intro H. vm_compute in H. discriminate H.
  - do 2 eexists. split; [vm_compute; reflexivity|]. split; [vm_compute; reflexivity|]. split; [vm_compute; reflexivity|].
    intro H. vm_compute in H. discriminate H.
Qed.
Print Assumptions C61_safety_is_needed.

(* ------------------------------------------------------------------------- *)
(* C12 for the calls                                                           *)
(* ------------------------------------------------------------------------- *)

(* If no name in the arguments has a double quote and each text that is written as it is is
   balanced, so is the text of Query() and NamedQuery(). *)
Theorem C12_calls_balanced {O : Oracle} : forall ws s, built ws s -> Forall (good_word true) ws ->
  (forall t args, query s = Ok (t, args) -> balanced true (lit t))
  /\ (forall t args, named_query s = Ok (t, args) -> balanced true (lit t)).
Proof.
  intros ws s B H.
  assert (F : Forall (good_word true) (stmt_words s)); [refine (built_ok (good_word true) _ _ _ _ _ _ ws s B H)|].
  - intros x n Hx C K. exact (Hx (cut_chars n x C _ K)).
  - intros n P K. pose proof (P _ K) as D. discriminate D.
  - intros [K|[]]. discriminate K.
  - intros v I. repeat (destruct I as [<-|I]; [reflexivity|]). destruct I.
  - intro z. left. reflexivity.
  - reflexivity.
  - pose proof (PropsBalance.C12_statement_balanced s F) as S. split; intros t args Q; rewrite Q in S.
    + destruct (named_query s) as [[t' a']|]; [apply S|destruct S].
    + destruct (query s) as [[t' a']|]; [apply S|destruct S].
Qed.
Print Assumptions C12_calls_balanced.
