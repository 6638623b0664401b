(* C32, C33, C34, C46, C47: reading joins. *)
From Verif Require Import JoinP JoinScanP ExactJoinP Sort.

(* ------------------------------------------------------------------------- *)
(* C32                                                                        *)
(* ------------------------------------------------------------------------- *)

(* Every join of the documented form is read, however it is laid out. *)
Theorem C32_reads_joins : forall ls s ty t e rest, writes_join ls ty t e rest -> layout false ls s ->
  parse_join s = Ok (join_of ty t e rest, None).
Proof. intros. eapply parse_join_written; eassumption. Qed.
Print Assumptions C32_reads_joins.

(* A condition alone, for the calls that are given the table apart. *)
Theorem C32_reads_conditions : forall ls s e rest, writes_on ls e rest -> layout false ls s ->
  exists j, parse_join s = Ok (j, None) /\ j_type j = "INNER JOIN"%string
    /\ t_name (j_table j) = ""%string /\ j_cond j = on_condition e rest.
Proof.
  intros ls s e rest H L. eexists. split; [eapply parse_on_written; eassumption|]. repeat split.
Qed.
Print Assumptions C32_reads_conditions.

Lemma join_of_defined : forall ty t e rest, ty <> ""%string -> name t ->
  name (eq_left e) -> name (eq_right e) ->
  Forall (fun oe => name (eq_left (snd oe)) /\ name (eq_right (snd oe))) rest ->
  join_empty (join_of ty t e rest) = Ok false.
Proof.
  intros ty t e rest Ny Nt Nl Nr F. unfold join_empty, join_of, no_str. cbn [j_type j_table t_name j_cond].
  destruct Nt as ((Nt & _) & _).
  rewrite (proj2 (String.eqb_neq _ _) Ny), (proj2 (String.eqb_neq _ _) Nt). cbn [orb].
  apply (on_condition_defined e rest); assumption.
Qed.

Lemma type_defined : forall lt ty, writes_type lt ty -> ty <> ""%string.
Proof. intros lt ty []; discriminate. Qed.

(* Join adds it after the joins that are there. *)
Theorem C32_select_join : forall ls s ty t e rest q, writes_join ls ty t e rest -> layout false ls s ->
  sel_step q (SelJoin [GStr s]) = Ok (with_joins q (s_joins q ++ [join_of ty t e rest])%list).
Proof.
  intros ls s ty t e rest q H L. cbn [sel_step sel_join]. unfold must_parse_join.
  rewrite (parse_join_written _ _ _ _ _ _ H L). cbn [bind fst snd]. unfold add_join.
  destruct H as [lt ty t w lc e rest ln Ht Nt Sw Hc Hn].
  destruct (condition_names _ _ _ Hc) as (Nl & Nr & F).
  rewrite join_of_defined; [reflexivity|eapply type_defined, Ht|exact Nt|exact Nl|exact Nr|exact F].
Qed.
Print Assumptions C32_select_join.

(* Join(table, condition) and Join(table, condition, type) *)
Theorem C32_select_join_table : forall ls s e rest q t k, writes_on ls e rest -> layout false ls s ->
  name t -> k <> ""%string ->
  sel_step q (SelJoin [GStr t; GStr s]) = Ok (with_joins q (s_joins q ++ [join_of "INNER JOIN" t e rest])%list)
  /\ sel_step q (SelJoin [GStr t; GStr s; GJoinType k]) = Ok (with_joins q (s_joins q ++ [join_of k t e rest])%list).
Proof.
  intros ls s e rest q t k H L Nt Nk. cbn [sel_step sel_join handle_join bind]. unfold must_parse_join.
  rewrite (parse_on_written _ _ _ _ H L). cbn [bind fst snd]. unfold add_join, set_table, set_type, lk_table.
  cbn [j_type j_table j_cond].
  assert (C : exists lc, writes_condition lc e rest) by (destruct H; eauto).
  destruct C as (lc & Hc). destruct (condition_names _ _ _ Hc) as (Nl & Nr & F).
  pose proof (join_of_defined "INNER JOIN" t e rest ltac:(discriminate) Nt Nl Nr F) as E1.
  pose proof (join_of_defined k t e rest Nk Nt Nl Nr F) as E2. unfold join_of in *.
  rewrite E1, E2. split; reflexivity.
Qed.
Print Assumptions C32_select_join_table.

(* The SQL: a query of one column, one table and the join. *)
Theorem C32_join_sql {O : Oracle} : forall ls s ty t e rest c b, writes_join ls ty t e rest ->
  layout false ls s -> name c -> name b ->
  (do q <- lk_select [GColumn (lk_column c)];
   do q <- sel_run q [SelFrom [GTable (lk_table b)]; SelJoin [GStr s]];
   query (StSelect q))
  = Ok (("SELECT " ++ dotted c ++ " FROM " ++ dotted b ++ " "
         ++ ty ++ " " ++ dotted t ++ " ON " ++ condition_text e rest)%string, []).
Proof.
  intros ls s ty t e rest c b H L Nc Nb.
  set (q0 := with_exprs new_select [SColumn (lk_column c)]).
  set (q1 := with_from q0 [FTable (lk_table b)]).
  assert (E0 : lk_select [GColumn (lk_column c)] = Ok q0).
  { destruct Nc as ((Nc & _) & _). unfold lk_select. cbn. unfold no_str.
    rewrite (proj2 (String.eqb_neq _ _) Nc). reflexivity. }
  rewrite E0. clear E0.
  unfold sel_run. cbn [bind fold_res].
  assert (E1 : sel_step q0 (SelFrom [GTable (lk_table b)]) = Ok q1).
  { reflexivity. }
  rewrite E1. clear E1.
  cbn [bind fold_res]. rewrite (C32_select_join _ _ _ _ _ _ _ H L). cbn [bind].
  rewrite query_template, select_sql.
  destruct H as [lt ty t w lc e rest ln Ht Nt Sw Hc Hn].
  destruct (condition_names _ _ _ Hc) as (Nl & Nr & F).
  unfold select_clauses. subst q0 q1.
  cbn [s_prefix s_with s_distinct s_distinct_on s_exprs s_from s_joins s_where s_group_by s_having
       s_order_by s_limit s_offset s_suffix s_comment with_joins with_from with_exprs new_select app map nonempty].
  rewrite join_sql by assumption.
  unfold clauses_sql. cbn [text_clause listed flag cond_clause number_clause String.eqb Z.eqb cond_empty is_nil
    present bind map_res select_item from_item].
  unfold table_sql, column_sql, alias_sql, lk_column, lk_table, commas.
  cbn [t_only t_name t_alias c_name c_alias String.eqb].
  rewrite !name_quote by assumption. cbn [lit sepd app]. rewrite !app_nil_r. cbn [bind].
  assert (Lit : forall x, fill dollar 1 (lit x) = x /\ args (lit x) = []).
  { induction x as [|a x [IH1 IH2]]; [split; reflexivity|]. cbn. rewrite IH1. auto. }
  match goal with |- context[Ok (fill dollar 1 ?q, args ?q)] =>
    replace q with (lit ("SELECT " ++ dotted c ++ " FROM " ++ dotted b ++ " "
         ++ ty ++ " " ++ dotted t ++ " ON " ++ condition_text e rest)) end.
  - destruct (Lit ("SELECT " ++ dotted c ++ " FROM " ++ dotted b ++ " "
         ++ ty ++ " " ++ dotted t ++ " ON " ++ condition_text e rest)%string) as [-> ->]. reflexivity.
  - rewrite !lit_app. cbn [lit app]. rewrite ?lit_app, <- ?app_assoc. reflexivity.
Qed.
Print Assumptions C32_join_sql.

Definition example_join : list lexeme :=
  [Word "Left"; Word "JOIN"; Word "project"; Word "on"; Sym "("; Word "user.id"; Sym "="; Word "project.user_id";
   Word "and"; Word "a"; Sym "="; Word "b"; Word "OR"; Word "c"; Sym "="; Word "d"; Sym ")"; Sym ";"].

Lemma name_ok : forall w, lexeme_okb (Word w) = true -> existsb (String.eqb (to_upper w)) sql_words = false ->
  name w.
Proof.
  intros w H1 H2. split; [apply lexeme_okb_ok, H1|]. intro I.
  assert (T : existsb (String.eqb (to_upper w)) sql_words = true); [|congruence].
  apply existsb_exists. exists (to_upper w). split; [exact I|apply String.eqb_refl].
Qed.

Example C32_example_written : writes_join example_join "LEFT JOIN" "project"
  {| eq_left := "user.id"; eq_right := "project.user_id" |}
  [(AndC, {| eq_left := "a"; eq_right := "b" |}); (OrC, {| eq_left := "c"; eq_right := "d" |})].
Proof.
  assert (N : forall w, lexeme_okb (Word w) && negb (existsb (String.eqb (to_upper w)) sql_words) = true -> name w).
  { intros w H. apply andb_prop in H. destruct H as [H1 H2]. apply name_ok; [exact H1|].
    destruct (existsb _ _); [discriminate|reflexivity]. }
  apply (join_written [Word "Left"; Word "JOIN"] _ "project" "on"
    [Sym "("; Word "user.id"; Sym "="; Word "project.user_id"; Word "and"; Word "a"; Sym "="; Word "b";
     Word "OR"; Word "c"; Sym "="; Word "d"; Sym ")"] _ _ [Sym ";"]).
  - apply type_left; reflexivity.
  - apply N. vm_compute. reflexivity.
  - reflexivity.
  - apply (condition_parens [Word "user.id"; Sym "="; Word "project.user_id"; Word "and"; Word "a"; Sym "="; Word "b";
     Word "OR"; Word "c"; Sym "="; Word "d"]).
    apply (condition_plain [Word "user.id"; Sym "="; Word "project.user_id"]).
    + split; [reflexivity|]. split; apply N; vm_compute; reflexivity.
    + apply (links_some "and" AndC [Word "a"; Sym "="; Word "b"] {| eq_left := "a"; eq_right := "b" |}
        [Word "OR"; Word "c"; Sym "="; Word "d"]); [reflexivity| |].
      * split; [reflexivity|]. split; apply N; vm_compute; reflexivity.
      * apply (links_some "OR" OrC [Word "c"; Sym "="; Word "d"] {| eq_left := "c"; eq_right := "d" |} []);
          [reflexivity| |constructor].
        split; [reflexivity|]. split; apply N; vm_compute; reflexivity.
  - constructor.
Qed.
Example C32_example_text :
  layout false example_join "Left JOIN project on ( user.id = project.user_id and a = b OR c = d ) ;".
Proof. apply (spaced_layout example_join). vm_compute. reflexivity. Qed.
Example C32_example_sql :
  (do q <- lk_select [GStr "x"]; do q <- sel_run q [SelFrom [GStr "user"];
     SelJoin [GStr ("Left JOIN project" ++ nl ++ " on (user.id=project.user_id and a=b OR c  =d);")]];
   query (O := go_oracle) (StSelect q))
  = Ok ("SELECT ""x"" FROM ""user"" LEFT JOIN ""project"" ON ((""user"".""id"" = ""project"".""user_id"" AND ""a"" = ""b"") OR ""c"" = ""d"")"%string, []).
Proof. vm_compute. reflexivity. Qed.

(* ------------------------------------------------------------------------- *)
(* C33                                                                        *)
(* ------------------------------------------------------------------------- *)

(* Findings: a text that ends after a link and a name panics. *)
Theorem C33_never_panics_refuted : parse_join "LEFT JOIN t ON a = b AND c" = Panic PIndex.
Proof. vm_compute. reflexivity. Qed.
Print Assumptions C33_never_panics_refuted.

(* The second of two parenthesised conditions is dropped without an error. *)
Theorem C33_second_condition_dropped_refuted :
  parse_join "LEFT JOIN t ON (a = b) AND (c = d)" = parse_join "LEFT JOIN t ON (a = b)"
  /\ is_ok (parse_join "LEFT JOIN t ON (a = b)") = true.
Proof. split; vm_compute; reflexivity. Qed.
Print Assumptions C33_second_condition_dropped_refuted.

(* The text after the first token that is not expected is dropped. *)
Theorem C33_rest_dropped_refuted :
  parse_join "LEFT JOIN t ON a = b, c = d" = parse_join "LEFT JOIN t ON a = b"
  /\ parse_join "LEFT OUTER JOIN t ON a = b" = parse_join "INNER"
  /\ parse_join "LEFT JOIN t AS x ON a = b" = parse_join "LEFT JOIN"
  /\ parse_join "LEFT JOIN ""t"" ON a = b" = parse_join "LEFT JOIN"
  /\ parse_join "CROSS JOIN t" = parse_join "INNER".
Proof. repeat split; vm_compute; reflexivity. Qed.
Print Assumptions C33_rest_dropped_refuted.

(* Of two joins the last wins. *)
Theorem C33_first_join_dropped_refuted :
  parse_join "LEFT JOIN t ON a = b RIGHT JOIN u ON c = d" = parse_join "RIGHT JOIN u ON c = d"
  /\ is_ok (parse_join "RIGHT JOIN u ON c = d") = true.
Proof. split; vm_compute; reflexivity. Qed.
Print Assumptions C33_first_join_dropped_refuted.

(* What holds. It panics only with an index out of range, and only if the last two tokens of
   the text are a link (AND, OR) and a name. *)
Theorem C33_panics_partial : forall s p, parse_join s = Panic p ->
  p = PIndex /\ exists before a l, lex s = (before ++ [a; l])%list
    /\ (tk_type a = "AND"%string \/ tk_type a = "OR"%string) /\ tk_type l = "Literal"%string.
Proof. intros s p H. exact (parse_panic _ _ _ _ H). Qed.
Print Assumptions C33_panics_partial.

(* Exactly what it accepts: pieces, each of which replaces an earlier one of its kind, up to the
   end of the text or to something unexpected, which is dropped with all that follows it. *)
Theorem C33_returns_partial : forall s j, parse_join s = Ok (j, None) <->
  exists read dropped ps after_condition, lex s = (read ++ dropped)%list
    /\ reads_pieces read ps after_condition /\ unexpected after_condition dropped /\ j = join_said ps.
Proof.
  intros s j. split.
  - pose proof (parse_outcome s) as P. intro H. rewrite H in P. inversion P as [ts ps b tail E R U Ej| |].
    exists ts, tail, ps, b. auto.
  - intros (read & dropped & ps & b & E & R & U & ->). apply outcome_unique. econstructor; eassumption.
Qed.
Print Assumptions C33_returns_partial.

(* Exactly what it refuses. *)
Theorem C33_refuses_partial : forall s, (exists j m, parse_join s = Ok (j, Some m)) <->
  exists read wrong ps after_condition, lex s = (read ++ wrong)%list
    /\ reads_pieces read ps after_condition /\ broken after_condition wrong.
Proof.
  intro s. split.
  - pose proof (parse_outcome s) as P. intros (j & m & H). rewrite H in P. inversion P as [|ts ps b tail E R U Ej|].
    exists ts, tail, ps, b. auto.
  - intros (read & wrong & ps & b & E & R & U). eexists _, _. apply outcome_unique. eapply outcome_error; eassumption.
Qed.
Print Assumptions C33_refuses_partial.

(* Exactly where it panics: the text ends with a link and a name after a condition. *)
Theorem C33_panics_exactly_partial : forall s, (exists p, parse_join s = Panic p) <->
  exists read ps a l, lex s = (read ++ [a; l])%list /\ reads_pieces read ps true /\ link_kind a /\ name_kind l.
Proof.
  intro s. split.
  - pose proof (parse_outcome s) as P. intros (p & H). rewrite H in P. inversion P as [| |ts ps a l E R A L Ep].
    exists ts, ps, a, l. auto.
  - intros (read & ps & a & l & E & R & A & L). eexists. apply outcome_unique. eapply outcome_panic; eassumption.
Qed.
Print Assumptions C33_panics_exactly_partial.

(* Nothing is invented: the columns of the condition are names of the text in the order in
   which they stand there, the table is one of them, the type is one of the three. *)
Theorem C33_reads_the_text_partial : forall s j, parse_join s = Ok (j, None) ->
  subsequence (on_names (j_cond j)) (literals (lex s))
  /\ (j_table j = {| t_name := ""; t_alias := ""; t_only := false |}
      \/ exists n, In n (literals (lex s)) /\ j_table j = {| t_name := n; t_alias := ""; t_only := false |})
  /\ In (j_type j) ["INNER JOIN"; "LEFT JOIN"; "RIGHT JOIN"]%string.
Proof.
  intros s j H. destruct (parse_reads _ _ _ _ H) as ((k & n & K & S & E) & T & Y). split; [|split].
  - rewrite E. destruct K as [-> | ->]; exact S.
  - exact T.
  - destruct Y as [-> |Y]; [cbn; auto|exact Y].
Qed.
Print Assumptions C33_reads_the_text_partial.

(* The second condition of the text above is what is dropped. *)
Example C33_dropped_ex : exists read ps, reads_pieces read ps false
  /\ lex "LEFT JOIN t ON (a = b) AND (c = d)" = (read ++ lex "AND (c = d)")%list
  /\ unexpected false (lex "AND (c = d)")
  /\ join_said ps = join_of "LEFT JOIN" "t" {| eq_left := "a"; eq_right := "b" |} [].
Proof.
  set (tk := fun k v => {| tk_type := k; tk_value := v |}).
  exists ((((([] ++ [tk "LEFT" "LEFT"; tk "JOIN" "JOIN"]) ++ [tk "Literal" "t"; tk "ON" "ON"]) ++ [tk "(" "("])
           ++ [tk "Literal" "a"; tk "=" "="; tk "Literal" "b"]) ++ [tk ")" ")"])%list%string,
    ((((([] ++ [PieceType "LEFT JOIN"]) ++ [PieceTable "t"]) ++ [PieceNothing])
      ++ [PieceCondition {| eq_left := "a"; eq_right := "b" |} []]) ++ [PieceNothing])%list%string.
  split; [|split; [vm_compute; reflexivity|split; [|reflexivity]]].
  - refine (read_some _ _ _ _ PieceNothing (read_some _ _ _ _ (PieceCondition _ _)
      (read_some _ _ _ _ PieceNothing (read_some _ _ _ _ (PieceTable _)
      (read_some _ _ _ _ (PieceType _) read_none _) _) _) _) _).
    + apply read_left; reflexivity.
    + apply (read_table (tk "Literal" "t")%string); reflexivity.
    + apply read_skip. right. left. reflexivity.
    + apply (read_condition (tk "Literal" "a")%string (tk "=" "=")%string (tk "Literal" "b")%string);
        [reflexivity..|constructor].
    + apply read_skip. right. right. reflexivity.
  - vm_compute. apply unexpected_link; [left; reflexivity|reflexivity].
Qed.

Example C33_example : exists j, parse_join "LEFT JOIN t ON a = b AND c = d" = Ok (j, None)
  /\ on_names (j_cond j) = ["a"; "b"; "c"; "d"]%string
  /\ literals (lex "LEFT JOIN t ON a = b AND c = d") = ["t"; "a"; "b"; "c"; "d"]%string.
Proof. eexists. split; [vm_compute; reflexivity|]. split; reflexivity. Qed.

(* ------------------------------------------------------------------------- *)
(* C34                                                                        *)
(* ------------------------------------------------------------------------- *)

Theorem C34_errors_return_nothing : forall s j m, parse_join s = Ok (j, Some m) ->
  j = {| j_type := ""; j_table := {| t_name := ""; t_alias := ""; t_only := false |}; j_cond := ENil |}
  /\ m = "join condition is invalid"%string.
Proof. intros s j m H. exact (parse_error _ _ _ _ _ H). Qed.
Print Assumptions C34_errors_return_nothing.

(* Join panics then: no builder with half a join is returned. *)
Theorem C34_select_join_panics : forall s j m q, parse_join s = Ok (j, Some m) ->
  sel_step q (SelJoin [GStr s]) = Panic (PError m)
  /\ forall t, sel_step q (SelJoin [GStr t; GStr s]) = Panic (PError m)
  /\ forall k, sel_step q (SelJoin [GStr t; GStr s; GJoinType k]) = Panic (PError m).
Proof.
  intros s j m q H. cbn [sel_step sel_join]. unfold handle_join, must_parse_join. cbn [bind].
  rewrite H. split; [reflexivity|]. intro t. split; [reflexivity|]. intro k. reflexivity.
Qed.
Print Assumptions C34_select_join_panics.

Example C34_example : parse_join "INNER JOIN account ON (project.account_id = *)"
  = Ok (zero_join, Some "join condition is invalid"%string).
Proof. vm_compute. reflexivity. Qed.

(* ------------------------------------------------------------------------- *)
(* C46                                                                        *)
(* ------------------------------------------------------------------------- *)

(* Finding: AND does not bind tighter than OR. *)
Theorem C46_meaning_refuted : exists v s e rest j, parse_join s = Ok (j, None)
  /\ j_cond j = on_condition e rest /\ on_meaning v (j_cond j) <> sql_meaning v (v e) rest.
Proof.
  exists (fun e => String.eqb (eq_left e) "a"), "JOIN t ON a = b OR c = d AND e = f"%string,
    {| eq_left := "a"; eq_right := "b" |},
    [(OrC, {| eq_left := "c"; eq_right := "d" |}); (AndC, {| eq_left := "e"; eq_right := "f" |})].
  eexists. split; [vm_compute; reflexivity|]. split; [vm_compute; reflexivity|]. vm_compute. discriminate.
Qed.
Print Assumptions C46_meaning_refuted.

(* A text in which no AND follows an OR keeps its meaning. *)
Theorem C46_meaning_partial : forall ls s ty t e rest v, writes_join ls ty t e rest -> layout false ls s ->
  ands_first false rest = true ->
  exists j, parse_join s = Ok (j, None) /\ on_meaning v (j_cond j) = sql_meaning v (v e) rest.
Proof.
  intros ls s ty t e rest v H L A. eexists. split; [eapply parse_join_written; eassumption|].
  cbn [j_cond join_of]. rewrite on_meaning_condition. apply meaning_ands, A.
Qed.
Print Assumptions C46_meaning_partial.

(* And no other does, unless an equality is repeated: then some rows are joined that should not
   be, or the other way round. *)
Theorem C46_exactly_partial : forall ls s ty t e rest, writes_join ls ty t e rest -> layout false ls s ->
  NoDup (e :: map snd rest) ->
  exists j, parse_join s = Ok (j, None)
    /\ ((forall v, on_meaning v (j_cond j) = sql_meaning v (v e) rest) <-> ands_first false rest = true).
Proof.
  intros ls s ty t e rest H L N. exists (join_of ty t e rest). split; [eapply parse_join_written; eassumption|].
  cbn [j_cond join_of]. split.
  - intro A. destruct (ands_first false rest) eqn:E; [reflexivity|].
    destruct (meaning_exact e rest N E) as (v & V1 & V2). specialize (A v). congruence.
  - intros A v. rewrite on_meaning_condition. apply meaning_ands, A.
Qed.
Print Assumptions C46_exactly_partial.

Example C46_exactly_ex : NoDup [{| eq_left := "a"; eq_right := "b" |}; {| eq_left := "c"; eq_right := "d" |};
    {| eq_left := "e"; eq_right := "f" |}]
  /\ ands_first false [(OrC, {| eq_left := "c"; eq_right := "d" |}); (AndC, {| eq_left := "e"; eq_right := "f" |})] = false.
Proof.
  split; [|reflexivity]. repeat constructor; cbn [In]; intuition discriminate.
Qed.

Example C46_example : ands_first false
  [(AndC, {| eq_left := "a"; eq_right := "b" |}); (OrC, {| eq_left := "c"; eq_right := "d" |})] = true.
Proof. reflexivity. Qed.

(* ------------------------------------------------------------------------- *)
(* C47                                                                        *)
(* ------------------------------------------------------------------------- *)

(* A call of Join that returns has added one join, complete, at the end, and nothing else. *)
Theorem C47_join_is_complete : forall q args q', sel_step q (SelJoin args) = Ok q' ->
  exists j, q' = with_joins q (s_joins q ++ [j])%list
    /\ j_type j <> ""%string /\ t_name (j_table j) <> ""%string
    /\ j_cond j <> ENil /\ is_empty (j_cond j) = Ok false.
Proof.
  intros q args q' H. cbn [sel_step] in H.
  assert (A : forall j, add_join q j = Ok q' -> exists j, q' = with_joins q (s_joins q ++ [j])%list
    /\ j_type j <> ""%string /\ t_name (j_table j) <> ""%string
    /\ j_cond j <> ENil /\ is_empty (j_cond j) = Ok false).
  { clear H. intros j H. unfold add_join, join_empty, no_str in H.
    destruct (String.eqb_spec (j_type j) ""); [discriminate|].
    destruct (String.eqb_spec (t_name (j_table j)) ""); [discriminate|]. cbn [orb] in H.
    destruct (is_empty (j_cond j)) as [[|]|] eqn:E; [discriminate| |discriminate].
    injection H as <-. exists j. repeat split; auto. intro N. rewrite N in E. discriminate. }
  unfold sel_join in H. destruct args as [|a0 [|a1 [|a2 [|a3 args]]]]; [discriminate| | | |discriminate].
  - match type of H with (do j <- ?r; _) = _ => destruct r as [j|] end; [|discriminate]. eapply A, H.
  - destruct (handle_join a0 a1) as [j|]; [|discriminate]. eapply A, H.
  - destruct (handle_join a0 a1) as [j|]; [|discriminate]. cbn [bind] in H.
    destruct a2; try discriminate. eapply A, H.
Qed.
Print Assumptions C47_join_is_complete.

Example C47_example : is_ok (do q <- lk_select [GStr "x"]; sel_step q (SelJoin [GStr "JOIN t ON a = b"])) = true.
Proof. vm_compute. reflexivity. Qed.

(* Finding: a join without a condition is not reported, IsEmpty dereferences nil. *)
Theorem C47_without_condition_refuted : forall q,
  sel_step q (SelJoin [GStr "LEFT JOIN t"]) = Panic (undefined "join clause")
  /\ sel_step q (SelJoin [GStr "LEFT JOIN t ON"]) = Panic PNilDeref
  /\ sel_step q (SelJoin [GStr "t"; GStr "x"]) = Panic PNilDeref.
Proof. intro q. repeat split; vm_compute; reflexivity. Qed.
Print Assumptions C47_without_condition_refuted.
