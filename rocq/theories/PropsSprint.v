(* C73: slices given as one value are not SQL in String(). *)
From Verif Require Import Ast Write Api Parser Build Sql Sort AssignP Grammar GrammarDml GrammarLexP CondP PropsGrammarText Sprint.
From Coq Require Import String List ZArith.
Import ListNotations.
Open Scope string_scope.

Section Arrays.
  Context {O : Oracle}.

  Lemma sprint_array : prints_slices O -> forall g l, array_of g l -> format_value g = Ok (bracketed l).
  Proof. intros P g l []; cbn; [rewrite (proj1 P)|rewrite (proj2 P)]; reflexivity. Qed.

  Lemma array_condition : forall g l c o, array_of g l ->
    cmp_expr (lk_condition (GStr c)) o g = Ok (EInfix (lk_condition (GStr c)) (Some (cmp_text o)) (EValue g)).
  Proof. intros g l c o []; destruct o; reflexivity. Qed.

  Lemma fill_array : prints_slices O -> forall g l pre t, array_of g l ->
    run_raw_from pre (B g :: t) = run_raw_from (pre ++ bracketed l) t.
  Proof. intros P g l pre t H. cbn [run_raw_from]. rewrite (sprint_array P g l H). reflexivity. Qed.

  (* No SQL token begins with a square bracket. *)
  Lemma tokens_bracket : forall A st rest, flush A st <> None -> st <> LComment ->
    tokens_from A st ("[" ++ rest) = None.
  Proof.
    intros A st rest F N. cbn [append tokens_from].
    assert (K : advance A st "[" = None).
    { destruct st as [|s|n|[n|]|s|s|done s|done s|done|s|s|s| |]; cbn in *; try congruence;
        unfold cut; cbn; repeat match goal with |- context [match ?x with _ => _ end] => destruct x end; reflexivity. }
    rewrite K. reflexivity.
  Qed.

  (* A text after which a token may begin. *)
  Definition ended (A : env) (p : string) : Prop :=
    exists y st z, tokens_from A L0 p = Some (y, st) /\ flush A st = Some z /\ st <> LComment.
  Definition closed (A : env) (p : string) : Prop := exists y, tokens_from A L0 p = Some (y, L0).

  Lemma ended_stop : forall A p rest, ended A p -> tokens_from A L0 (p ++ "[" ++ rest) = None.
  Proof.
    intros A p rest (y & st & z & T & F & N). rewrite tokens_app, T, tokens_bracket; [reflexivity|congruence|exact N].
  Qed.
  Lemma ended_name : forall A x, plain_name x = true -> ended A (quote x).
  Proof.
    intros A x H. destruct (const_name x H A) as (y & st & z & T & F & _ & N). exists y, st, z. auto.
  Qed.
  Lemma closed_app : forall A p q, closed A p -> ended A q -> ended A (p ++ q).
  Proof.
    intros A p q [x X] (y & st & z & T & F & N). exists (x ++ y)%list, st, z. rewrite tokens_app, X, T. auto.
  Qed.
  Lemma closed_both : forall A p q, closed A p -> closed A q -> closed A (p ++ q).
  Proof. intros A p q [x X] [y Y]. exists (x ++ y)%list. rewrite tokens_app, X, Y. reflexivity. Qed.
  Lemma ended_app : forall A p a s, ended A p -> ender a = true -> closed A (String a s) -> closed A (p ++ String a s).
  Proof.
    intros A p a s (y & st & z & T & F & N) E [x X]. exists (y ++ (z ++ x))%list.
    rewrite tokens_app, T, (ender_tokens A st (String a s) x L0 z F N E X). reflexivity.
  Qed.

  Lemma closed_ended : forall A p, closed A p -> ended A p.
  Proof. intros A p [y Y]. exists y, L0, []. repeat split; [exact Y|discriminate]. Qed.

  Lemma whole_none {B} : forall (p : parser B) A s, tokens_from A L0 s = None -> whole p A s = None.
  Proof. intros p A s H. unfold whole, tokens. rewrite H. reflexivity. Qed.

  Lemma closed_operator : forall A o, closed A (" " ++ cmp_text o ++ " ").
  Proof. intros A o. destruct o; eexists; reflexivity. Qed.
End Arrays.

(* Delete(t).Where(Condition(c).Op(slice)), for every comparison: the elements of the slice stand
   in the text as they are, and the SQL reader of C50 and C54 refuses the text whatever they are,
   whether or not the server reads backslash escapes. Query() passes the slice as one argument. *)
Theorem C73_condition_refuted {O : Oracle} : prints_slices O -> forall t c o g l,
  plain_name t = true -> plain_name c = true -> array_of g l ->
  exists d, (do d <- lk_delete (GStr t); do e <- cmp_expr (lk_condition (GStr c)) o g; del_step d (DelWhere e)) = Ok d
  /\ query (StDelete d) = Ok ("DELETE FROM " ++ quote t ++ " WHERE (" ++ quote c ++ " " ++ cmp_text o ++ " $1)", [g])
  /\ let text := "DELETE FROM " ++ quote t ++ " WHERE (" ++ quote c ++ " " ++ cmp_text o ++ " [" ++ String.concat " " l ++ "])" in
     to_string (StDelete d) = Ok text /\ forall e, read_delete (no_args e) text = None.
Proof.
  intros P t c o g l T C H. rewrite (array_condition g l c o H).
  pose proof (plain_name_nonempty t T) as NT. pose proof (plain_name_nonempty c C) as NC.
  eexists. split; [reflexivity|].
  assert (W : write_stmt (StDelete {| d_from := [FTable (lk_table t)]; d_using := [];
      d_where := EInfix (lk_condition (GStr c)) (Some (cmp_text o)) (EValue g); d_returning := []; d_comment := "" |})
    = Ok [W "DELETE "; W "FROM "; W (quote t); W " "; W "WHERE "; W "("; W (quote c); W (" " ++ cmp_text o ++ " "); B g; W ")"]).
  { destruct c as [|a c]; [discriminate NC|]. destruct H, o; reflexivity. }
  split; [|split].
  - unfold query. cbn [lk_delete del_step new_delete] in *.
    match goal with |- bind ?x _ = _ => change x with (write_stmt (StDelete {| d_from := [FTable (lk_table t)]; d_using := [];
      d_where := EInfix (lk_condition (GStr c)) (Some (cmp_text o)) (EValue g); d_returning := []; d_comment := "" |})) end.
    rewrite W. cbn [bind]. unfold run_std. cbn [fold_left std_step std_init std_buf std_vals length app].
    change (string_of_nat (0 + 1)) with "1". rewrite !sapp_assoc. reflexivity.
  - unfold to_string. 
    match goal with |- bind ?x _ = _ => change x with (write_stmt (StDelete {| d_from := [FTable (lk_table t)]; d_using := [];
      d_where := EInfix (lk_condition (GStr c)) (Some (cmp_text o)) (EValue g); d_returning := []; d_comment := "" |})) end.
    rewrite W. cbn [bind]. unfold run_raw. cbn [run_raw_from]. rewrite (sprint_array P g l H).
    cbn [bind]. unfold bracketed. rewrite !sapp_assoc. reflexivity.
  - intro e. apply whole_none.
    replace ("DELETE FROM " ++ quote t ++ " WHERE (" ++ quote c ++ " " ++ cmp_text o ++ " [" ++ String.concat " " l ++ "])")
      with (("DELETE FROM " ++ quote t ++ " WHERE (" ++ quote c ++ (" " ++ cmp_text o ++ " ")) ++ "[" ++ (String.concat " " l ++ "])"))
      by (rewrite !sapp_assoc; reflexivity).
    apply ended_stop, closed_ended.
    replace ("DELETE FROM " ++ quote t ++ " WHERE (" ++ quote c ++ (" " ++ cmp_text o ++ " "))
      with ("DELETE FROM " ++ (quote t ++ String " " "WHERE (") ++ (quote c ++ String " " (cmp_text o ++ " ")))
      by (rewrite !sapp_assoc; reflexivity).
    apply closed_both; [eexists; reflexivity|apply closed_both].
    + apply ended_app; [apply ended_name, T|reflexivity|eexists; reflexivity].
    + apply ended_app; [apply ended_name, C|reflexivity|exact (closed_operator (no_args e) o)].
Qed.
Print Assumptions C73_condition_refuted.

(* Update(t).Set(Pair(Column(c), slice)): the same. *)
Theorem C73_assignment_refuted {O : Oracle} : prints_slices O -> sort_contract o_sort -> forall t c g l,
  plain_name t = true -> plain_name c = true -> array_of g l ->
  exists u, (do u <- lk_update (GStr t); upd_step u (UpdSet [GPair (GColumn (lk_column c)) g])) = Ok u
  /\ query (StUpdate u) = Ok ("UPDATE " ++ quote t ++ " SET " ++ quote c ++ " = $1", [g])
  /\ let text := "UPDATE " ++ quote t ++ " SET " ++ quote c ++ " = [" ++ String.concat " " l ++ "]" in
     to_string (StUpdate u) = Ok text /\ forall e, read_update (no_args e) text = None.
Proof.
  intros P S t c g l T C H.
  pose proof (plain_name_nonempty t T) as NT. pose proof (plain_name_nonempty c C) as NC.
  assert (E : exists u, (do u <- lk_update (GStr t); upd_step u (UpdSet [GPair (GColumn (lk_column c)) g])) = Ok u
    /\ write_stmt (StUpdate u) = Ok [W "UPDATE"; W " "; W (quote t); W " "; W "SET "; W (quote c); W " = "; B g]).
  { (destruct c as [|a c]; [discriminate NC|]); (destruct t as [|b t]; [discriminate NT|]).
    assert (K : o_sort [lk_column (String a c)] = [lk_column (String a c)]).
    { apply Permutation_length_1_inv. exact (proj1 (S [_])). }
    destruct H; cbn -[quote lk_column]; eexists; (split; [reflexivity|]); cbn -[quote lk_column]; rewrite K; cbn [map_res];
      rewrite col_eqb_refl; reflexivity. }
  destruct E as (u & E & W). exists u. split; [exact E|]. split; [|split].
  - unfold query. rewrite W. cbn [bind]. unfold run_std. cbn [fold_left std_step std_init std_buf std_vals length app].
    change (string_of_nat (0 + 1)) with "1". rewrite !sapp_assoc. reflexivity.
  - unfold to_string. rewrite W. cbn [bind]. unfold run_raw. cbn [run_raw_from]. rewrite (sprint_array P g l H).
    cbn [bind]. unfold bracketed. rewrite !sapp_assoc. reflexivity.
  - intro e. apply whole_none.
    replace ("UPDATE " ++ quote t ++ " SET " ++ quote c ++ " = [" ++ String.concat " " l ++ "]")
      with (("UPDATE " ++ (quote t ++ String " " "SET ") ++ (quote c ++ String " " "= ")) ++ "[" ++ (String.concat " " l ++ "]"))
      by (rewrite !sapp_assoc; reflexivity).
    apply ended_stop, closed_ended, closed_both; [eexists; reflexivity|apply closed_both].
    + apply ended_app; [apply ended_name, T|reflexivity|eexists; reflexivity].
    + apply ended_app; [apply ended_name, C|reflexivity|eexists; reflexivity].
Qed.
Print Assumptions C73_assignment_refuted.

(* map[string]string and map[string]interface{} (a hstore or json column): the same. *)
Theorem C73_map_refuted {O : Oracle} : prints_maps O -> forall t c o g,
  plain_name t = true -> plain_name c = true -> map_value g ->
  exists d text, (do d <- lk_delete (GStr t); do e <- cmp_expr (lk_condition (GStr c)) o g; del_step d (DelWhere e)) = Ok d
  /\ query (StDelete d) = Ok ("DELETE FROM " ++ quote t ++ " WHERE (" ++ quote c ++ " " ++ cmp_text o ++ " $1)", [g])
  /\ to_string (StDelete d) = Ok text /\ forall e, read_delete (no_args e) text = None.
Proof.
  intros P t c o g T C H.
  assert (V : cmp_expr (lk_condition (GStr c)) o g = Ok (EInfix (lk_condition (GStr c)) (Some (cmp_text o)) (EValue g)))
    by (destruct H, o; reflexivity).
  assert (M : exists rest, format_value g = Ok ("map" ++ "[" ++ rest)).
  { destruct H as [m|m]; cbn [format_value]; [destruct (proj1 P m) as [r ->]|destruct (proj2 P m) as [r ->]]; exists r; reflexivity. }
  destruct M as [r M]. rewrite V.
  pose proof (plain_name_nonempty t T) as NT. pose proof (plain_name_nonempty c C) as NC.
  set (d := {| d_from := [FTable (lk_table t)]; d_using := [];
      d_where := EInfix (lk_condition (GStr c)) (Some (cmp_text o)) (EValue g); d_returning := []; d_comment := "" |}).
  exists d, ("DELETE FROM " ++ quote t ++ " WHERE (" ++ quote c ++ " " ++ cmp_text o ++ " map[" ++ r ++ ")").
  split; [reflexivity|].
  assert (W : write_stmt (StDelete d)
    = Ok [W "DELETE "; W "FROM "; W (quote t); W " "; W "WHERE "; W "("; W (quote c); W (" " ++ cmp_text o ++ " "); B g; W ")"]).
  { destruct c as [|a c]; [discriminate NC|]. destruct H, o; reflexivity. }
  split; [|split].
  - unfold query. rewrite W. cbn [bind]. unfold run_std. cbn [fold_left std_step std_init std_buf std_vals length app].
    change (string_of_nat (0 + 1)) with "1". rewrite !sapp_assoc. reflexivity.
  - unfold to_string. rewrite W. cbn [bind]. unfold run_raw. cbn [run_raw_from]. rewrite M.
    cbn [bind]. rewrite !sapp_assoc. reflexivity.
  - intro e. apply whole_none.
    replace ("DELETE FROM " ++ quote t ++ " WHERE (" ++ quote c ++ " " ++ cmp_text o ++ " map[" ++ r ++ ")")
      with (("DELETE FROM " ++ (quote t ++ String " " "WHERE (") ++ (quote c ++ " " ++ cmp_text o ++ " ") ++ "map") ++ "[" ++ (r ++ ")"))
      by (rewrite !sapp_assoc; reflexivity).
    apply ended_stop. apply closed_app; [eexists; reflexivity|]. apply closed_app; [|apply closed_app].
    + apply ended_app; [apply ended_name, T|reflexivity|eexists; reflexivity].
    + apply (ended_app (no_args e) (quote c) " " (cmp_text o ++ " ")); [apply ended_name, C|reflexivity|exact (closed_operator (no_args e) o)].
    + exists [], (LWord "map"), [KWord "map"]. repeat split. discriminate.
Qed.
Print Assumptions C73_map_refuted.

(* The text does not even tell which slice was given: an element that holds a space reads as two. *)
Theorem C73_distinct_refuted {O : Oracle} : prints_slices O -> forall t c o x y,
  plain_name t = true -> plain_name c = true ->
  exists d1 d2, 
    (do d <- lk_delete (GStr t); do e <- cmp_expr (lk_condition (GStr c)) o (GStrs [x; y]); del_step d (DelWhere e)) = Ok d1
    /\ (do d <- lk_delete (GStr t); do e <- cmp_expr (lk_condition (GStr c)) o (GStrs [x ++ " " ++ y]); del_step d (DelWhere e)) = Ok d2
    /\ to_string (StDelete d1) = to_string (StDelete d2) /\ query (StDelete d1) <> query (StDelete d2).
Proof.
  intros P t c o x y T C.
  destruct (C73_condition_refuted P t c o _ _ T C (array_strs [x; y])) as (d1 & E1 & Q1 & S1 & _).
  destruct (C73_condition_refuted P t c o _ _ T C (array_strs [x ++ " " ++ y])) as (d2 & E2 & Q2 & S2 & _).
  exists d1, d2. rewrite S1, S2, Q1, Q2. repeat split; [assumption..|]. intro H.
  assert (K : [GStrs [x; y]] = [GStrs [x ++ " " ++ y]] :> list gval) by congruence. discriminate K.
Qed.
Print Assumptions C73_distinct_refuted.

(* What does hold: a nil, a boolean, an integer, bytes, a time, a string (with backslash escapes on,
   or without characters that need them), a valuer or an encoder of these is read from the text of
   String() as the value that it denotes. C54 says it for every statement. Missing: slices, maps,
   floats and other values that are printed by fmt. *)
Theorem C73_scalar_partial {O : Oracle} : forall escapes t c o v u a,
  plain_name t = true -> plain_name c = true -> stands_for v = Some u -> literal_says escapes u = Some a ->
  exists d text, (do d <- lk_delete (GStr t); do e <- cmp_expr (lk_condition (GStr c)) o v; del_step d (DelWhere e)) = Ok d
  /\ to_string (StDelete d) = Ok text
  /\ read_delete (no_args escapes) text
     = Some {| de_from := [{| tb_only := false; tb_name := parts_of t; tb_alias := [] |}]; de_using := [];
               de_where := Some (FCmp (MName (parts_of c)) (sql_op o) a); de_returning := [] |}.
Proof.
  intros escapes t c o v u a T C Hv Hu.
  assert (E : exists e, cmp_expr (lk_condition (GStr c)) o v = Ok e).
  { destruct v; try discriminate Hv; cbn in Hv;
      repeat match type of Hv with context [match ?k with _ => _ end] => destruct k; try discriminate Hv end;
      destruct o; eexists; reflexivity. }
  destruct E as [e E].
  assert (D : exists d, lk_delete (GStr t) = Ok d) by (destruct t; [discriminate T|]; eexists; reflexivity).
  destruct D as [d D].
  assert (X : exists d', del_step d (DelWhere e) = Ok d').
  { injection D as <-. eexists. reflexivity. }
  destruct X as [d' X].
  assert (S : del_says (m := Inline escapes) d'
    {| de_from := [{| tb_only := false; tb_name := parts_of t; tb_alias := [] |}]; de_using := [];
       de_where := Some (FCmp (MName (parts_of c)) (sql_op o) a); de_returning := [] |}).
  { apply (del_where (m := Inline escapes) d _ e (FCmp (MName (parts_of c)) (sql_op o) a) d'
      (del_new (m := Inline escapes) _ _ d (table_string t T) D)); [|exact X].
    apply (says_cmp (m := Inline escapes) c o v a e C); [|exact E].
    apply operand_value, value_bound. unfold bound_as. rewrite Hv. exact Hu. }
  destruct (C54_delete_text_read_back escapes d' _ S) as (text & H1 & H2).
  exists d', text. rewrite D, E. cbn [bind]. auto.
Qed.
Print Assumptions C73_scalar_partial.

(* The hypotheses are met, and what the texts look like. *)
Definition fmt_oracle : Oracle := {|
  o_print := fun _ => true;
  o_float := fun f => string_of_Z f ++ ".5";
  o_sprint := fun g => match g with GStrs l => bracketed l | GInts _ l => bracketed (map string_of_Z l)
                       | GMapStr _ | GMapAny _ => "map[]" | _ => "?" end;
  o_sort := insertion_sort |}.
Example C73_oracle_ex : prints_slices fmt_oracle /\ prints_maps fmt_oracle /\ sort_contract (o_sort (Oracle := fmt_oracle))
  /\ plain_name (O := fmt_oracle) "posts" = true /\ plain_name (O := fmt_oracle) "tags" = true.
Proof. repeat split; try reflexivity; try apply insertion_contract; intro; exists "]"; reflexivity. Qed.
Example C73_texts_ex :
  (exists d, (do d <- lk_delete (GStr "posts"); do e <- cmp_expr (lk_condition (GStr "tags")) OpContains (GStrs ["go"; "it's"]); del_step d (DelWhere e)) = Ok d
    /\ query (O := fmt_oracle) (StDelete d) = Ok ("DELETE FROM ""posts"" WHERE (""tags"" @> $1)", [GStrs ["go"; "it's"]])
    /\ to_string (O := fmt_oracle) (StDelete d) = Ok "DELETE FROM ""posts"" WHERE (""tags"" @> [go it's])")
  /\ (exists u, (do u <- lk_update (GStr "posts"); upd_step u (UpdSet [GPair (GColumn (lk_column "scores")) (GInts KInt64 [1; -2]%Z)])) = Ok u
    /\ to_string (O := fmt_oracle) (StUpdate u) = Ok "UPDATE ""posts"" SET ""scores"" = [1 -2]").
Proof.
  split; eexists; repeat split; vm_compute; reflexivity.
Qed.
