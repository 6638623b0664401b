(* C01-C06: the three renderings of a statement. *)
From Verif Require Import EraseP EmbedP Sort.

(* ------------------------------------------------------------------------- *)
(* C01                                                                         *)
(* ------------------------------------------------------------------------- *)

(* Two statements that differ only in bound values have the same text, and as many arguments;
   they panic together. *)
Theorem C01_text_independent_of_values {O : Oracle} : forall s1 s2,
  erase_stmt s1 = erase_stmt s2 ->
  match query s1, query s2 with
  | Ok (t1, vs1), Ok (t2, vs2) => t1 = t2 /\ length vs1 = length vs2
  | Panic p1, Panic p2 => p1 = p2
  | _, _ => False
  end.
Proof.
  intros s1 s2 E.
  pose proof (query_natural (fun _ => GBool true) ltac:(discriminate) s1) as H1.
  pose proof (query_natural (fun _ => GBool true) ltac:(discriminate) s2) as H2.
  unfold erase_stmt in E. rewrite E in H1. rewrite H1 in H2.
  destruct (query s1) as [[t1 v1]|p1], (query s2) as [[t2 v2]|p2]; cbn in H2; try discriminate.
  - injection H2 as -> Hm. split; [reflexivity|].
    apply (f_equal (@length _)) in Hm. rewrite !map_length in Hm. exact Hm.
  - congruence.
Qed.
Print Assumptions C01_text_independent_of_values.

Theorem C01_named_text_independent_of_values {O : Oracle} : forall s1 s2,
  erase_stmt s1 = erase_stmt s2 ->
  match named_query s1, named_query s2 with
  | Ok (t1, m1), Ok (t2, m2) => t1 = t2 /\ map fst m1 = map fst m2
  | Panic p1, Panic p2 => p1 = p2
  | _, _ => False
  end.
Proof.
  intros s1 s2 E.
  pose proof (named_query_natural (fun _ => GBool true) ltac:(discriminate) s1) as H1.
  pose proof (named_query_natural (fun _ => GBool true) ltac:(discriminate) s2) as H2.
  unfold erase_stmt in E. rewrite E in H1. rewrite H1 in H2.
  destruct (named_query s1) as [[t1 v1]|p1], (named_query s2) as [[t2 v2]|p2]; cbn in H2; try discriminate.
  - injection H2 as -> Hm. split; [reflexivity|].
    apply (f_equal (map fst)) in Hm. rewrite !map_map in Hm. cbn in Hm. exact Hm.
  - congruence.
Qed.
Print Assumptions C01_named_text_independent_of_values.

(* Replacing values replaces the arguments and nothing else. *)
Theorem C01_arguments_follow_values {O : Oracle} : forall f s,
  (forall g, g <> GNil -> f g <> GNil) ->
  query (subst_stmt f s) = map_args f (query s)
  /\ named_query (subst_stmt f s) = map_named f (named_query s).
Proof. intros f s Hf. split; [apply query_natural, Hf|apply named_query_natural, Hf]. Qed.
Print Assumptions C01_arguments_follow_values.

(* The methods that take values put them in value positions: with any other value of a
   bindable type, the expression is the same up to values. *)
Theorem C01_comparison_value {O : Oracle} : forall left op v v',
  bindable v = true -> bindable v' = true ->
  exists e e', cmp_expr left op v = Ok e /\ cmp_expr left op v' = Ok e' /\ erase e = erase e'.
Proof.
  intros left op v v' H H'. destruct (erase_compare left op v H) as [e [E Q]].
  destruct (erase_compare left op v' H') as [e' [E' Q']]. exists e, e'. rewrite Q, Q'. auto.
Qed.
Print Assumptions C01_comparison_value.

Theorem C01_in_values {O : Oracle} : forall left vs vs',
  forallb bindable vs = true -> forallb bindable vs' = true -> length vs = length vs' ->
  exists e e', expr_in left vs = Ok e /\ expr_in left vs' = Ok e' /\ erase e = erase e'.
Proof.
  intros left vs vs' H H' L. destruct (erase_in left vs H) as [e [E Q]].
  destruct (erase_in left vs' H') as [e' [E' Q']]. exists e, e'. rewrite Q, Q', L. auto.
Qed.
Print Assumptions C01_in_values.

Theorem C01_between_values {O : Oracle} : forall id a b a' b',
  forallb bindable [a; b; a'; b'] = true ->
  exists e e', ident_between id a b = Ok e /\ ident_between id a' b' = Ok e' /\ erase e = erase e'.
Proof.
  intros id a b a' b' H. cbn in H. rewrite !andb_true_iff in H. destruct H as (Ha & Hb & Ha' & Hb' & _).
  destruct (erase_between id a b Ha Hb) as [e [E Q]].
  destruct (erase_between id a' b' Ha' Hb') as [e' [E' Q']]. exists e, e'. rewrite Q, Q'. auto.
Qed.
Print Assumptions C01_between_values.

Theorem C01_set_value : forall p k v v', bindable v = true -> bindable v' = true ->
  match merge_arg p (GPair k v), merge_arg p (GPair k v') with
  | Ok a, Ok b => erase_pairs a = erase_pairs b
  | Panic x, Panic y => x = y
  | _, _ => False
  end.
Proof. exact erase_pair. Qed.
Print Assumptions C01_set_value.

Theorem C01_insert_values : forall vs vs',
  forallb bindable vs = true -> forallb bindable vs' = true -> length vs = length vs' -> vs <> [] ->
  exists e e', new_array_list vs = Ok e /\ new_array_list vs' = Ok e' /\ erase e = erase e'.
Proof.
  intros vs vs' H H' L N. destruct (erase_values vs H N) as [e [E Q]].
  assert (N' : vs' <> []) by (destruct vs, vs'; cbn in L; congruence).
  destruct (erase_values vs' H' N') as [e' [E' Q']]. exists e, e'. rewrite Q, Q', L. auto.
Qed.
Print Assumptions C01_insert_values.

(* DELETE FROM "users" WHERE (("name" = v1) AND ("id" IN (v2, v3))) *)
Definition sample (v1 v2 v3 : gval) : stmt := StDelete {|
  d_from := [FTable (lk_table "users")]; d_using := [];
  d_where := EInfix (EInfix (EIdent (GStr "name")) (Some "=") (EValue v1)) (Some "AND")
                    (EIn (EIdent (GStr "id")) "IN" (EArray [EValue v2; EValue v3]));
  d_returning := []; d_comment := "" |}.

Example C01_sample :
  erase_stmt (sample (GStr "x'; DROP TABLE users; --") (GInt KInt 1) (GInt KInt 2))
  = erase_stmt (sample (GBool false) (GStr "$9") (GBytes "")).
Proof. reflexivity. Qed.

(* The sample is what the API builds. *)
Example sample_built :
  (do c1 <- cmp_expr (lk_condition (GStr "name")) OpEqual (GStr "bob");
   do c2 <- expr_in (lk_condition (GStr "id")) [GInt KInt 7; GInt KInt 8];
   do d <- lk_delete (GStr "users");
   do d <- del_run d [DelWhere c1; DelAnd c2];
   Ok (StDelete d))
  = Ok (sample (GStr "bob") (GInt KInt 7) (GInt KInt 8)).
Proof. reflexivity. Qed.

(* ------------------------------------------------------------------------- *)
(* C02-C05                                                                     *)
(* ------------------------------------------------------------------------- *)

(* The text shows $1, $2, ... in the holes of a template, and the arguments are the values
   in those holes, which are the values of the statement in reading order. *)
Theorem C02_placeholders_match_arguments {O : Oracle} : forall s text vs,
  query s = Ok (text, vs) ->
  exists q : sql, text = fill dollar 1 q /\ vs = args q /\ vs = stmt_values s.
Proof.
  intros s text vs H. rewrite query_template in H. destruct (template s) as [q|p] eqn:E; [|discriminate].
  injection H as <- <-. exists q. rewrite <- (template_args s q E). auto.
Qed.
Print Assumptions C02_placeholders_match_arguments.

Theorem C03_named_arguments {O : Oracle} : forall s text vs ntext m,
  query s = Ok (text, vs) -> named_query s = Ok (ntext, m) ->
  (exists q : sql, text = fill dollar 1 q /\ vs = args q /\ ntext = fill colon 1 q)
  /\ map fst m = map (fun i => "arg_" ++ string_of_nat i) (seq 1 (length vs))
  /\ NoDup (map fst m)
  /\ map snd m = vs
  /\ (forall i, 1 <= i <= length vs ->
        map_get ("arg_" ++ string_of_nat i) m = nth_error vs (i - 1)).
Proof.
  intros s text vs ntext m H1 H2. rewrite query_template in H1. rewrite named_query_template in H2.
  destruct (template s) as [q|p]; [|discriminate]. injection H1 as <- <-. injection H2 as <- <-.
  assert (L : length (names_from 1 (length (args q))) = length (args q)).
  { unfold names_from. rewrite map_length, seq_length. reflexivity. }
  assert (F : forall A B (x : list A) (y : list B), length x = length y ->
            map fst (combine x y) = x /\ map snd (combine x y) = y).
  { clear. intros A B. induction x as [|a x IH]; intros [|b y] H; cbn in *; try discriminate; [auto|].
    destruct (IH y) as [-> ->]; auto. }
  destruct (F _ _ _ _ L) as [F1 F2].
  split; [exists q; auto|]. split; [exact F1|]. split; [|split; [exact F2|]].
  - rewrite F1. unfold names_from. apply FinFun.Injective_map_NoDup; [|apply seq_NoDup].
    intros a b Hab. apply arg_name_inj. exact Hab.
  - intros i Hi. clear F1 F2 F L. revert i Hi. generalize (args q) as l. intro l.
    enough (G : forall k i, k <= i < k + length l ->
      map_get ("arg_" ++ string_of_nat i) (combine (names_from k (length l)) l) = nth_error l (i - k)).
    { intros i Hi. apply (G 1 i). lia. }
    induction l as [|v l IH]; intros k i Hi; cbn [length] in *; [lia|].
    unfold names_from. cbn [seq map combine map_get].
    destruct (String.eqb _ _) eqn:E.
    + apply String.eqb_eq in E. apply (arg_name_inj i k) in E. subst. rewrite Nat.sub_diag. reflexivity.
    + assert (i <> k) by (intros ->; rewrite String.eqb_refl in E; discriminate).
      fold (names_from (S k) (length l)). rewrite IH by lia.
      replace (i - k) with (S (i - S k)) by lia. reflexivity.
Qed.
Print Assumptions C03_named_arguments.

(* NamedQuery and Query return together. *)
Theorem C03_named_panics_with_query {O : Oracle} : forall s p,
  query s = Panic p <-> named_query s = Panic p.
Proof.
  intros s p. rewrite query_template, named_query_template. destruct (template s); split; congruence.
Qed.
Print Assumptions C03_named_panics_with_query.

(* String() shows the literals of the same values in the same holes. [literal v] is what
   String() prints for v alone, see C41 and C10. *)
Theorem C04_string_is_query_with_literals {O : Oracle} : forall s text vs,
  query s = Ok (text, vs) ->
  if existsb valuer_error vs
  then exists p, to_string s = Panic p
  else exists q : sql, text = fill dollar 1 q /\ vs = args q
                       /\ to_string s = Ok (fill (fun _ => literal) 1 q).
Proof.
  intros s text vs H. rewrite query_template in H. destruct (template s) as [q|p] eqn:E; [|discriminate].
  injection H as <- <-. pose proof (to_string_template s q E) as T.
  assert (P : forallb printable (args q) = negb (existsb valuer_error (args q))).
  { generalize (args q) as l. induction l as [|v l IH]; cbn; [reflexivity|].
    rewrite IH, printable_valuer. destruct (valuer_error v); reflexivity. }
  rewrite P in T. destruct (existsb valuer_error (args q)); cbn [negb] in T; [exact T|].
  exists q. auto.
Qed.
Print Assumptions C04_string_is_query_with_literals.

Theorem C04_string_panics_with_query {O : Oracle} : forall s p,
  query s = Panic p -> to_string s = Panic p.
Proof.
  intros s p H. rewrite query_template in H. destruct (template s) eqn:E; [discriminate|].
  injection H as ->. apply to_string_panic, E.
Qed.
Print Assumptions C04_string_panics_with_query.

Theorem C05_nil_is_never_bound {O : Oracle} : forall s text vs,
  query s = Ok (text, vs) -> ~ In GNil vs.
Proof.
  intros s text vs H. destruct (C02_placeholders_match_arguments s text vs H) as [q [_ [_ ->]]].
  apply stmt_values_not_nil.
Qed.
Print Assumptions C05_nil_is_never_bound.

(* x OP nil is the text ("x" OP NULL), with no hole. *)
Theorem C05_nil_operand_is_null {O : Oracle} : forall x op, x <> "" ->
  exists e, cmp_expr (lk_condition (GStr x)) op GNil = Ok e
            /\ expr_sql e = Ok (lit ("(" ++ quote x ++ " " ++ cmp_text op ++ " NULL)")).
Proof.
  intros x op H. exists (EInfix (EIdent (GStr x)) (Some (cmp_text op)) (EValue GNil)).
  split; [destruct op; reflexivity|].
  assert (Hx : no_str x = false).
  { unfold no_str. destruct (String.eqb_spec x ""); congruence. }
  assert (Hc : no_str (cmp_text op) = false) by (destruct op; reflexivity).
  unfold expr_sql, flat, lk_condition. cbn [write_expr]. unfold defined.
  cbn [is_empty is_nil orb or_res]. rewrite Hx, Hc. cbn [or_res bind].
  cbn [write_ident write_value w cat bind app flatten].
  f_equal. rewrite !lit_app, !app_nil_r. rewrite <- !app_assoc. reflexivity.
Qed.
Print Assumptions C05_nil_operand_is_null.

Example C02_sample :
  @query go_oracle (sample (GStr "bob") GNil (GInt KInt 8))
  = Ok ("DELETE FROM ""users"" WHERE ((""name"" = $1) AND (""id"" IN (NULL, $2)))",
        [GStr "bob"; GInt KInt 8])
  /\ @named_query go_oracle (sample (GStr "bob") GNil (GInt KInt 8))
  = Ok ("DELETE FROM ""users"" WHERE ((""name"" = :arg_1) AND (""id"" IN (NULL, :arg_2)))",
        [("arg_1", GStr "bob"); ("arg_2", GInt KInt 8)])
  /\ @to_string go_oracle (sample (GStr "bob") GNil (GInt KInt 8))
  = Ok "DELETE FROM ""users"" WHERE ((""name"" = 'bob') AND (""id"" IN (NULL, 8)))".
Proof. repeat split; vm_compute; reflexivity. Qed.

(* ------------------------------------------------------------------------- *)
(* C06                                                                         *)
(* ------------------------------------------------------------------------- *)

(* A SELECT that occurs in a statement is rendered there as it is on its own, with its
   placeholders numbered from the number of values bound before it, and its arguments are
   a contiguous part of the statement's. *)
Theorem C06_subquery_is_contiguous {O : Oracle} : forall sub s text vs,
  in_stmt (ESelect sub) s -> query s = Ok (text, vs) ->
  exists before q after : sql,
    query (StSelect sub) = Ok (fill dollar 1 q, args q)
    /\ text = fill dollar 1 before
              ++ fill dollar (1 + length (args before)) q
              ++ fill dollar (1 + length (args before) + length (args q)) after
    /\ vs = (args before ++ args q ++ args after)%list.
Proof.
  intros sub s text vs Hin H. rewrite query_template in H. destruct (template s) as [t|] eqn:E; [|discriminate].
  injection H as <- <-. destruct (embedded _ s t Hin E) as (y & pre & post & Hy & ->).
  exists pre, y, post. split; [|split].
  - rewrite query_template. unfold template, expr_sql in *. cbn [write_stmt]. cbn [write_expr] in Hy.
    unfold write_select. rewrite Hy. reflexivity.
  - rewrite !fill_app. reflexivity.
  - rewrite !args_app. reflexivity.
Qed.
Print Assumptions C06_subquery_is_contiguous.

(* The positions the property names are rendered positions. *)
Theorem C06_positions {O : Oracle} : forall sub, nonempty (s_exprs sub) = true ->
  (forall left op, exists e, cmp_expr left op (g_select sub) = Ok e /\ within (ESelect sub) e)
  /\ (forall left, exists e, expr_in left [g_select sub] = Ok e /\ within (ESelect sub) e)
  /\ (exists e, lk_exists (g_select sub) = Ok e /\ within (ESelect sub) e)
  /\ (exists e, lk_not_exists (g_select sub) = Ok e /\ within (ESelect sub) e)
  /\ (forall name q, name <> "" -> exists cte, lk_with name (g_select sub) = Ok cte
        /\ in_stmt (ESelect sub) (StSelect (with_with q [cte]))).
Proof.
  intros sub Hs. split; [|split; [|split; [|split]]].
  - intros left op. unfold cmp_expr, infix_wrapped, infix_plain. cbn [new_expression g_select bind new_wrapper].
    destruct (cmp_wraps op); (eexists; split; [reflexivity|]).
    + apply within_part with (c := EWrap (ESelect sub)); [cbn; tauto|].
      apply within_part with (c := ESelect sub); [cbn; tauto|apply within_here].
    + apply within_part with (c := ESelect sub); [cbn; tauto|apply within_here].
  - intro left. eexists. split; [reflexivity|].
    apply within_part with (c := EArray [ESelect sub]); [cbn; tauto|].
    apply within_part with (c := ESelect sub); [cbn; tauto|apply within_here].
  - eexists. split; [reflexivity|].
    apply within_part with (c := ESelect sub); [cbn; tauto|apply within_here].
  - eexists. split; [reflexivity|].
    apply within_part with (c := ESelect sub); [cbn; tauto|apply within_here].
  - intros name q Hn. eexists. split; [reflexivity|]. exists (ESelect sub). split; [|apply within_here].
    cbn [stmt_parts]. unfold select_parts. apply in_or_app. left. cbn [s_with with_with flat_map].
    unfold with_parts. cbn [wq_name wq_sub].
    destruct (no_str name) eqn:E; [apply String.eqb_eq in E; congruence|].
    unfold keep, kept, cond_empty. cbn [is_nil is_empty]. rewrite Hs. cbn. tauto.
Qed.
Print Assumptions C06_positions.

(* A subquery with two arguments after one argument of the outer statement. *)
Definition sub_sample : select :=
  with_where (with_from (with_exprs new_select [SColumn (lk_column "id")]) [FTable (lk_table "t")])
    (EInfix (EInfix (EIdent (GStr "a")) (Some "=") (EValue (GInt KInt 1))) (Some "OR")
            (EInfix (EIdent (GStr "b")) (Some "=") (EValue (GInt KInt 2)))).
Definition outer_sample : stmt := StDelete {|
  d_from := [FTable (lk_table "users")]; d_using := [];
  d_where := EInfix (EInfix (EIdent (GStr "n")) (Some "=") (EValue (GInt KInt 0))) (Some "AND")
                    (EIn (EIdent (GStr "id")) "IN" (EArray [ESelect sub_sample]));
  d_returning := []; d_comment := "" |}.
Example C06_sample :
  @in_stmt go_oracle (ESelect sub_sample) outer_sample
  /\ @query go_oracle outer_sample
     = Ok ("DELETE FROM ""users"" WHERE ((""n"" = $1) AND (""id"" IN (SELECT ""id"" FROM ""t"" WHERE ((""a"" = $2) OR (""b"" = $3)))))",
           [GInt KInt 0; GInt KInt 1; GInt KInt 2]).
Proof.
  split; [|vm_compute; reflexivity].
  eexists. split; [left; reflexivity|].
  eapply within_part; [right; left; reflexivity|].
  eapply within_part; [right; left; reflexivity|].
  eapply within_part; [left; reflexivity|]. apply within_here.
Qed.
