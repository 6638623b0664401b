(* C23-C27: the assignments of UPDATE ... SET, ON CONFLICT DO UPDATE SET and Insert.Set. *)
From Verif Require Import Calls CallsP AssignP AliasP RowsP PropsClauses.

(* SET c1 = e1, c2 = e2, ... *)
Definition set_list {O : Oracle} (cols : list column) (es : list expr) : res sql :=
  do qs <- map_res expr_sql es; Ok (lit "SET " ++ commas (assignments cols qs))%list.

(* SET (c1, c2, ...) = (e1, e2, ...) *)
Definition set_columns {O : Oracle} (cols : list column) (es : list expr) : res sql :=
  do qs <- map_res expr_sql es;
  Ok (lit "SET (" ++ commas (map column_sql cols) ++ lit ") = (" ++ commas qs ++ lit ")")%list.

(* UPDATE with a given SET clause *)
Definition update_setting {O : Oracle} (u : update) (set : res sql) : res sql :=
  clauses_sql
    [listed "WITH " with_item (u_with u) "";
     Some (Ok (lit "UPDATE"));
     flag (u_only u) "ONLY";
     Some (Ok (table_sql (u_table u)));
     Some set;
     listed "FROM " from_item (u_from u) "";
     cond_clause "WHERE " (u_where u);
     listed "RETURNING " select_item (u_returning u) ""] (u_comment u).

(* ------------------------------------------------------------------------- *)
(* C23                                                                         *)
(* ------------------------------------------------------------------------- *)

(* An Update whose Set calls hold the pairs and maps of history h renders SET with each column
   of h once, with its last value, and no other column. *)
Theorem C23_update {O : Oracle} : forall g u0 cs u h, sort_contract o_sort ->
  lk_update g = Ok u0 -> upd_run u0 cs = Ok u -> history (set_args cs) h -> h <> [] ->
  exists cols es, columns_of h cols /\ final_values h cols es
    /\ query (StUpdate u) = rendered (update_setting u (set_list cols es)).
Proof.
  intros g u0 cs u h C L R H N. destruct (lk_update_fresh g u0 L) as [T E].
  pose proof H as (kvs & A & _).
  assert (M : p_mode (u_set u) <> PArray) by (eapply upd_run_assoc; [exact R|rewrite E; discriminate|exact A]).
  pose proof (upd_run_set cs u0 u R M) as S. rewrite E in S.
  destruct (holds_mode PUnknown _ _ h ltac:(discriminate) S H) as (Ho & Mo & _). specialize (Mo N).
  destruct (set_sql_assoc (u_set u) h Mo Ho (proj1 (C _))) as (es & Co & Fi & Q).
  exists (o_sort (p_cols (u_set u))), es. split; [exact Co|]. split; [exact Fi|].
  rewrite C45_update_clauses.
  - unfold update_clauses. rewrite Q. reflexivity.
  - rewrite (upd_run_table cs u0 u R). exact T.
  - unfold pairs_empty. rewrite Mo. destruct Ho as (_ & _ & _ & Z). destruct (p_map (u_set u)); [|reflexivity].
    exfalso. apply N, Z. reflexivity.
Qed.
Print Assumptions C23_update.

(* The same for DoUpdate, whose clause is a SET after ON CONFLICT (...) DO UPDATE. *)
Theorem C23_do_update {O : Oracle} : forall args p h, sort_contract o_sort ->
  lk_do_update args = Ok (GConflictUpdate p) -> history args h -> h <> [] ->
  exists cols es, columns_of h cols /\ final_values h cols es
    /\ forall i target, t_name (i_into i) <> ""%string -> target <> [] ->
       query (StInsert (ins_with_conflict i target (Some (ActUpdate p))))
       = rendered (clauses_sql
           [Some (Ok (lit "INSERT INTO " ++ table_sql (i_into i))%list);
            listed "(" column_item (i_columns i) ")";
            cond_clause "VALUES " (i_values i);
            Some (do q <- set_list cols es;
                  Ok (lit "ON CONFLICT (" ++ commas (map column_sql target) ++ lit ") " ++ lit "DO UPDATE " ++ q)%list);
            listed "RETURNING " select_item (i_returning i) ""] (i_comment i)).
Proof.
  intros args p h C L H N. unfold lk_do_update, to_set in L.
  destruct (merge_set _ args) as [p'|] eqn:S; [|discriminate L]. injection L as ->.
  destruct (holds_mode PAssoc _ _ h ltac:(discriminate) S H) as (Ho & Mo & _). specialize (Mo N).
  destruct (set_sql_assoc p h Mo Ho (proj1 (C _))) as (es & Co & Fi & Q).
  exists (o_sort (p_cols p)), es. split; [exact Co|]. split; [exact Fi|].
  intros i target T NT. rewrite C45_insert_clauses by exact T. unfold insert_clauses.
  cbn [ins_with_conflict i_into i_columns i_values i_conflict_target i_conflict_action i_returning i_comment conflict_clause].
  assert (Z : pairs_empty p = false).
  { unfold pairs_empty. rewrite Mo. destruct Ho as (_ & _ & _ & Z). destruct (p_map p); [|reflexivity].
    exfalso. apply N, Z. reflexivity. }
  rewrite Z, Q. destruct target as [|t target]; [contradiction|].
  unfold set_list. destruct (map_res expr_sql es); cbn [bind]; rewrite <- ?app_assoc; reflexivity.
Qed.
Print Assumptions C23_do_update.

(* a = 1, b = 2, then a = 3 *)
Definition assign_twice : list upd_call :=
  [UpdSet [GMap [(GStr "a", GInt KInt 1); (GStr "b", GInt KInt 2)]]; UpdWhere (ERaw "c"); UpdSet [GPair (GStr " a") (GInt KInt 3)]].
Example C23_example :
  exists u h, (do u0 <- lk_update (GStr "t"); upd_run u0 assign_twice) = Ok u
    /\ history (set_args assign_twice) h /\ h <> []
    /\ last_write h (lk_column "a") = Some (EValue (GInt KInt 3))
    /\ query (O := go_oracle) (StUpdate u)
       = Ok ("UPDATE ""t"" SET ""a"" = $1, ""b"" = $2 WHERE c", [GInt KInt 3; GInt KInt 2]).
Proof.
  eexists. eexists. split; [vm_compute; reflexivity|]. split; [eexists; split; vm_compute; reflexivity|].
  split; [discriminate|]. split; vm_compute; reflexivity.
Qed.
Example C23_do_update_example :
  exists p h, lk_do_update [GPair (GStr "a") (GInt KInt 1); GMapAny [("a", GInt KInt 2)]] = Ok (GConflictUpdate p)
    /\ history [GPair (GStr "a") (GInt KInt 1); GMapAny [("a", GInt KInt 2)]] h /\ h <> [].
Proof.
  eexists. eexists. split; [vm_compute; reflexivity|]. split; [eexists; split; vm_compute; reflexivity|discriminate].
Qed.
(* The contract assumed of sort.Slice can be met. *)
Example C23_contract : sort_contract (@o_sort go_oracle).
Proof. exact insertion_contract. Qed.

(* ------------------------------------------------------------------------- *)
(* C24                                                                         *)
(* ------------------------------------------------------------------------- *)

(* Columns without alias are written in increasing order of name, and the SET clause is
   determined by the final values: any two histories that leave the same values, in any order
   of calls, give the same clause. *)
Theorem C24_sorted {O : Oracle} : forall g u0 cs u h, sort_contract o_sort ->
  lk_update g = Ok u0 -> upd_run u0 cs = Ok u -> history (set_args cs) h -> h <> [] -> unaliased (map fst h) ->
  exists cols es, columns_of h cols /\ final_values h cols es
    /\ StronglySorted (fun a b => str_ltb (c_name a) (c_name b) = true) cols
    /\ query (StUpdate u) = rendered (update_setting u (set_list cols es)).
Proof.
  intros g u0 cs u h C L R H N U. destruct (lk_update_fresh g u0 L) as [T E].
  pose proof H as (kvs & A & _).
  assert (M : p_mode (u_set u) <> PArray) by (eapply upd_run_assoc; [exact R|rewrite E; discriminate|exact A]).
  pose proof (upd_run_set cs u0 u R M) as S. rewrite E in S.
  destruct (holds_mode PUnknown _ _ h ltac:(discriminate) S H) as (Ho & Mo & _). specialize (Mo N).
  destruct (set_sql_assoc (u_set u) h Mo Ho (proj1 (C _))) as (es & Co & Fi & Q).
  pose proof Ho as (_ & (ND & IC) & _ & Z).
  exists (o_sort (p_cols (u_set u))), es. split; [exact Co|]. split; [exact Fi|]. split.
  - apply sorted_by_name; [exact C| |exact ND]. unfold unaliased in *. rewrite Forall_forall in *. intros c Hc. apply U, IC, Hc.
  - rewrite C45_update_clauses.
    + unfold update_clauses. rewrite Q. reflexivity.
    + rewrite (upd_run_table cs u0 u R). exact T.
    + unfold pairs_empty. rewrite Mo. destruct (p_map (u_set u)); [|reflexivity].
      exfalso. apply N, Z. reflexivity.
Qed.
Print Assumptions C24_sorted.

Theorem C24_canonical {O : Oracle} : forall g u0 cs cs' u u' h h', sort_contract o_sort ->
  lk_update g = Ok u0 -> upd_run u0 cs = Ok u -> upd_run u0 cs' = Ok u' ->
  history (set_args cs) h -> history (set_args cs') h' -> h <> [] -> unaliased (map fst h) ->
  (forall c, last_write h c = last_write h' c) ->
  exists set, query (StUpdate u) = rendered (update_setting u set)
           /\ query (StUpdate u') = rendered (update_setting u' set).
Proof.
  intros g u0 cs cs' u u' h h' C L R R' H H' N U W.
  assert (N' : h' <> []).
  { intro X. subst h'. destruct h as [|[c e] h]; [contradiction|].
    assert (Y : In c (map fst ((c, e) :: h))) by (left; reflexivity). apply last_write_in in Y.
    destruct Y as (x & Y). rewrite W in Y. discriminate Y. }
  assert (U' : unaliased (map fst h')).
  { unfold unaliased in *. rewrite Forall_forall in *. intros c Hc. apply U. apply last_write_in. rewrite W. apply last_write_in. exact Hc. }
  destruct (C24_sorted g u0 cs u h C L R H N U) as (cols & es & Co & Fi & So & Q).
  destruct (C24_sorted g u0 cs' u' h' C L R' H' N' U') as (cols' & es' & Co' & Fi' & So' & Q').
  assert (UC : forall h cols, columns_of h cols -> unaliased (map fst h) -> unaliased cols).
  { intros a b (_ & I) X. unfold unaliased in *. rewrite Forall_forall in *. intros c Hc. apply X, I, Hc. }
  assert (EC : cols = cols').
  { apply by_name_unique; eauto. exact (same_columns h h' cols cols' Co Co' W). }
  subst cols'. assert (EE : es = es').
  { clear -Fi Fi' W. revert es' Fi'. unfold final_values in *. induction Fi as [|c e cols es Hc F IH]; intros es' Fi'; inversion Fi'; subst; [reflexivity|].
    f_equal; [rewrite W in Hc; congruence|]. apply IH. assumption. }
  subst es'. eauto.
Qed.
Print Assumptions C24_canonical.

(* In whatever order Go visits the entries of the maps given to Set, the outcome is the same,
   when the keys of a map are distinct columns without alias. *)
Theorem C24_iteration_order {O : Oracle} : forall g u0 cs cs', sort_contract o_sort ->
  lk_update g = Ok u0 -> reiterated_calls cs cs' ->
  Forall distinct_keys (set_args cs) -> Forall plain_keys (set_args cs) ->
  same_outcome (do u <- upd_run u0 cs; query (StUpdate u)) (do u <- upd_run u0 cs'; query (StUpdate u))
  /\ same_outcome (do u <- upd_run u0 cs; named_query (StUpdate u)) (do u <- upd_run u0 cs'; named_query (StUpdate u)).
Proof.
  intros g u0 cs cs' C L R D K. destruct (lk_update_fresh g u0 L) as [_ E].
  assert (X : like upd_like (upd_run u0 cs) (upd_run u0 cs')).
  { apply upd_run_like; [|exact R|exact D|exact K]. split; [rewrite E; apply empty_like|apply upd_like_refl_set]. }
  destruct (upd_run u0 cs) as [u|], (upd_run u0 cs') as [u'|]; cbn in X; try contradiction; [|split; exact I].
  cbn [bind]. rewrite !query_rendered, !named_query_template, (template_like u u' C X). split; apply same_refl.
Qed.
Print Assumptions C24_iteration_order.

(* A string key never has an alias, so plain_keys holds of every map[string]interface{}. *)
Theorem C24_string_keys_are_plain : forall l, plain_keys (GMapAny l).
Proof.
  intros l kv c H E. apply in_map_iff in H. destruct H as ([k v] & <- & _). cbn [fst snd] in E. unfold to_column in E.
  cbn [bind lk_column c_name] in E. destruct (no_str _); [discriminate E|]. injection E as <-. reflexivity.
Qed.
Print Assumptions C24_string_keys_are_plain.

Definition visited1 : list upd_call := [UpdSet [GMap [(GStr "b", GInt KInt 1); (GColumn (lk_column "a"), GInt KInt 2)]]; UpdOnly].
Definition visited2 : list upd_call := [UpdSet [GMap [(GColumn (lk_column "a"), GInt KInt 2); (GStr "b", GInt KInt 1)]]; UpdOnly].
Example C24_example : reiterated_calls visited1 visited2 /\ visited1 <> visited2
  /\ Forall distinct_keys (set_args visited1) /\ Forall plain_keys (set_args visited1)
  /\ (do u0 <- lk_update (GStr "t"); do u <- upd_run u0 visited1; query (O := go_oracle) (StUpdate u))
     = Ok ("UPDATE ONLY ""t"" SET ""a"" = $1, ""b"" = $2", [GInt KInt 2; GInt KInt 1]).
Proof.
  split; [|split; [discriminate|split; [|split; [|vm_compute; reflexivity]]]].
  - constructor; [|constructor; [reflexivity|constructor]]. constructor; [|constructor]. cbn. apply perm_swap.
  - constructor; [|constructor]. cbn. constructor; [|constructor; [intros []|constructor]]. intros [H|[]]. discriminate H.
  - constructor; [|constructor]. cbn. intros kv c [<-|[<-|[]]] E; vm_compute in E; injection E as <-; reflexivity.
Qed.
Example C24_canonical_example :
  exists u u' h h', (do u0 <- lk_update (GStr "t"); upd_run u0 [UpdSet [GPair (GStr "b") (GInt KInt 1)]; UpdSet [GPair (GStr "a") (GInt KInt 2)]]) = Ok u
    /\ (do u0 <- lk_update (GStr "t"); upd_run u0 [UpdSet [GPair (GStr "a") (GInt KInt 9); GPair (GStr "b") (GInt KInt 1); GPair (GStr "a") (GInt KInt 2)]]) = Ok u'
    /\ history [GPair (GStr "b") (GInt KInt 1); GPair (GStr "a") (GInt KInt 2)] h
    /\ history [GPair (GStr "a") (GInt KInt 9); GPair (GStr "b") (GInt KInt 1); GPair (GStr "a") (GInt KInt 2)] h'
    /\ (forall c, last_write h c = last_write h' c) /\ unaliased (map fst h)
    /\ query (O := go_oracle) (StUpdate u) = query (O := go_oracle) (StUpdate u').
Proof.
  do 4 eexists. split; [vm_compute; reflexivity|]. split; [vm_compute; reflexivity|].
  split; [eexists; split; vm_compute; reflexivity|]. split; [eexists; split; vm_compute; reflexivity|].
  split; [|split; [repeat constructor|vm_compute; reflexivity]].
  intro c. cbn [last_write]. destruct (col_eqb c {| c_name := "a"; c_alias := "" |}), (col_eqb c {| c_name := "b"; c_alias := "" |}); reflexivity.
Qed.

(* False when two keys of a map stand for the same column: which value is sent depends on the
   order in which Go visits the map. *)
Theorem C24_colliding_keys_refuted :
  exists l l', Permutation l l'
    /\ (do u0 <- lk_update (GStr "t"); do u <- upd_run u0 [UpdSet [GMapAny l]]; query (O := go_oracle) (StUpdate u))
       = Ok ("UPDATE ""t"" SET ""a"" = $1", [GInt KInt 2])
    /\ (do u0 <- lk_update (GStr "t"); do u <- upd_run u0 [UpdSet [GMapAny l']]; query (O := go_oracle) (StUpdate u))
       = Ok ("UPDATE ""t"" SET ""a"" = $1", [GInt KInt 1]).
Proof.
  exists [("a", GInt KInt 1); (" a", GInt KInt 2)], [(" a", GInt KInt 2); ("a", GInt KInt 1)].
  split; [apply perm_swap|]. split; vm_compute; reflexivity.
Qed.
Print Assumptions C24_colliding_keys_refuted.

(* ------------------------------------------------------------------------- *)
(* C25                                                                         *)
(* ------------------------------------------------------------------------- *)

(* Rendering sorts the columns of the builder in place, stmt/set.go:131: this is the builder
   after one rendering. *)
Definition after_rendering {O : Oracle} (u : update) : update :=
  let p := u_set u in
  match p_mode p with
  | PAssoc => upd_with_set u {| p_mode := p_mode p; p_map := p_map p; p_cols := o_sort (p_cols p); p_exprs := p_exprs p |}
  | _ => u
  end.

(* The comparison looks at names or aliases: a column with smaller name and a column with
   smaller alias are each less than the other. The statement alternates between two texts. *)
Definition alternating : list upd_call :=
  [UpdSet [GPair (GColumn {| c_name := "a"; c_alias := "z" |}) (GInt KInt 1);
           GPair (GColumn {| c_name := "b"; c_alias := "y" |}) (GInt KInt 2)]].
Theorem C25_rendering_twice_refuted :
  exists u, (do u0 <- lk_update (GStr "t"); upd_run u0 alternating) = Ok u
    /\ query (O := go_oracle) (StUpdate u)
       = Ok ("UPDATE ""t"" SET ""b"" AS ""y"" = $1, ""a"" AS ""z"" = $2", [GInt KInt 2; GInt KInt 1])
    /\ query (O := go_oracle) (StUpdate (after_rendering (O := go_oracle) u))
       = Ok ("UPDATE ""t"" SET ""a"" AS ""z"" = $1, ""b"" AS ""y"" = $2", [GInt KInt 1; GInt KInt 2]).
Proof. eexists. split; [vm_compute; reflexivity|]. split; vm_compute; reflexivity. Qed.
Print Assumptions C25_rendering_twice_refuted.

(* The comparison is not an order, whatever the sorting algorithm. *)
Theorem C25_not_an_order_refuted :
  ~ strict_weak_order col_less [{| c_name := "a"; c_alias := "z" |}; {| c_name := "b"; c_alias := "y" |}].
Proof.
  intros (I & T & _). specialize (T {| c_name := "a"; c_alias := "z" |} {| c_name := "b"; c_alias := "y" |} {| c_name := "a"; c_alias := "z" |}).
  specialize (I {| c_name := "a"; c_alias := "z" |} (or_introl eq_refl)).
  rewrite T in I; try discriminate I; cbn; auto.
Qed.
Print Assumptions C25_not_an_order_refuted.

(* Without aliases, rendering again gives the same SQL. *)
Theorem C25_rendering_twice_partial {O : Oracle} : forall g u0 cs u, sort_contract o_sort ->
  lk_update g = Ok u0 -> upd_run u0 cs = Ok u -> Forall plain_keys (set_args cs) ->
  query (StUpdate (after_rendering u)) = query (StUpdate u)
  /\ named_query (StUpdate (after_rendering u)) = named_query (StUpdate u)
  /\ after_rendering (after_rendering u) = after_rendering u.
Proof.
  intros g u0 cs u C L R K. destruct (lk_update_fresh g u0 L) as [_ E]. unfold after_rendering.
  destruct (p_mode (u_set u)) eqn:M; try (rewrite M; repeat split; reflexivity). cbv zeta.
  assert (A : p_mode (u_set u) <> PArray) by (rewrite M; discriminate).
  pose proof (upd_run_set cs u0 u R A) as S. rewrite E in S.
  destruct (merge_set_holds PUnknown (set_args cs) (u_set u) ltac:(discriminate) S A) as (h & H & Ho).
  assert (U : unaliased (map fst h)).
  { destruct H as (kvs & HA & HH). apply Forall_forall. intros c Hc. apply in_map_iff in Hc. destruct Hc as ([c' e] & <- & Hc). cbn.
    assert (I1 : In (Ok c') (map (fun kv => to_column (fst kv)) kvs)).
    { rewrite (assigns_keys kvs h HH). apply in_map_iff. exists (c', e). split; [reflexivity|exact Hc]. }
    apply in_map_iff in I1. destruct I1 as (kv & Ekv & Hkv).
    clear -K HA Hkv Ekv. revert kvs HA Hkv. induction (set_args cs) as [|a args IH]; intros kvs HA Hkv; cbn [all_pairs] in HA; [injection HA as <-; destruct Hkv|].
    destruct (pairs_of a) as [l|] eqn:P; [|discriminate HA]. destruct (all_pairs args) as [m|]; [|discriminate HA]. injection HA as <-.
    apply Forall_cons_iff in K. destruct K as [Ka K]. apply in_app_or in Hkv. destruct Hkv as [Hkv|Hkv]; [|exact (IH K m eq_refl Hkv)].
    unfold plain_keys in Ka. rewrite P in Ka. exact (Ka kv c' Hkv Ekv). }
  pose proof Ho as (G & (ND & IC) & X & Z).
  assert (UC : unaliased (p_cols (u_set u))).
  { unfold unaliased in *. rewrite Forall_forall in *. intros c Hc. apply U, IC, Hc. }
  pose proof (proj1 (C (p_cols (u_set u)))) as P.
  set (p' := {| p_mode := PAssoc; p_map := p_map (u_set u); p_cols := o_sort (p_cols (u_set u)); p_exprs := p_exprs (u_set u) |}).
  assert (Ho' : holds p' h).
  { split; [exact G|]. split; [|split; [exact X|exact Z]]. split; [exact (Permutation_NoDup P ND)|].
    intro c. rewrite <- IC. split; apply Permutation_in; [symmetry|]; exact P. }
  assert (LK : upd_like (upd_with_set u p') u).
  { split; [|destruct u; reflexivity]. split; [rewrite M; reflexivity|]. split; [intro F; exfalso; apply F; reflexivity|].
    intros _. exists h, h. split; [exact Ho'|]. split; [exact Ho|]. split; [reflexivity|exact U]. }
  split; [|split].
  - rewrite !query_rendered, (template_like _ _ C LK). reflexivity.
  - rewrite !named_query_template, (template_like _ _ C LK). reflexivity.
  - assert (SS : o_sort (o_sort (p_cols (u_set u))) = o_sort (p_cols (u_set u)));
      [|cbn [upd_with_set u_set p_mode p_map p_cols p_exprs p']; rewrite SS; reflexivity].
    apply by_name_unique.
    + apply sorted_by_name; [exact C|exact (unaliased_perm _ _ P UC)|exact (Permutation_NoDup P ND)].
    + apply sorted_by_name; [exact C|exact UC|exact ND].
    + exact (unaliased_perm _ _ (proj1 (C _)) (unaliased_perm _ _ P UC)).
    + exact (unaliased_perm _ _ P UC).
    + intro c. split; apply Permutation_in; [symmetry|]; apply (proj1 (C _)).
Qed.
Print Assumptions C25_rendering_twice_partial.
(* Exactly when sort.Slice is given an order: no two columns have their names in one order and
   their aliases in the other. *)
Theorem C25_order_exactly_partial : forall l, strict_weak_order col_less l <->
  forall a b, In a l -> In b l ->
    ~ (str_ltb (c_name a) (c_name b) = true /\ str_ltb (c_alias b) (c_alias a) = true).
Proof. exact agreeing_swo. Qed.
Print Assumptions C25_order_exactly_partial.

(* Such columns, aliased or not, are written in increasing order, and rendering again gives the
   same SQL. *)
Theorem C25_agreeing_columns_partial {O : Oracle} : forall g u0 cs u h, sort_contract o_sort ->
  lk_update g = Ok u0 -> upd_run u0 cs = Ok u -> history (set_args cs) h -> h <> [] ->
  (forall a b, In a (map fst h) -> In b (map fst h) ->
     ~ (str_ltb (c_name a) (c_name b) = true /\ str_ltb (c_alias b) (c_alias a) = true)) ->
  (exists cols es, columns_of h cols /\ final_values h cols es
    /\ StronglySorted (fun a b => str_ltb (c_name a) (c_name b) || str_ltb (c_alias a) (c_alias b) = true) cols
    /\ query (StUpdate u) = rendered (update_setting u (set_list cols es)))
  /\ query (StUpdate (after_rendering u)) = query (StUpdate u)
  /\ named_query (StUpdate (after_rendering u)) = named_query (StUpdate u)
  /\ to_string (StUpdate (after_rendering u)) = to_string (StUpdate u)
  /\ after_rendering (after_rendering u) = after_rendering u.
Proof.
  intros g u0 cs u h C L R H N G. destruct (lk_update_fresh g u0 L) as [T E].
  pose proof H as (kvs & A & _).
  assert (M : p_mode (u_set u) <> PArray) by (eapply upd_run_assoc; [exact R|rewrite E; discriminate|exact A]).
  pose proof (upd_run_set cs u0 u R M) as S. rewrite E in S.
  destruct (holds_mode PUnknown _ _ h ltac:(discriminate) S H) as (Ho & Mo & _). specialize (Mo N).
  destruct (set_sql_assoc (u_set u) h Mo Ho (proj1 (C _))) as (es & Co & Fi & Q).
  pose proof Ho as (_ & (ND & IC) & _ & Z).
  assert (GC : agreeing (p_cols (u_set u))).
  { intros a b Ha Hb. apply G; apply IC; assumption. }
  split.
  - exists (o_sort (p_cols (u_set u))), es. split; [exact Co|]. split; [exact Fi|]. split.
    + apply sorted_increasing; assumption.
    + rewrite C45_update_clauses.
      * unfold update_clauses. rewrite Q. reflexivity.
      * rewrite (upd_run_table cs u0 u R). exact T.
      * unfold pairs_empty. rewrite Mo. destruct (p_map (u_set u)); [|reflexivity].
        exfalso. apply N, Z. reflexivity.
  - assert (W : write_stmt (StUpdate (after_rendering u)) = write_stmt (StUpdate u)).
    { unfold after_rendering. rewrite Mo. cbv zeta. cbn [write_stmt]. unfold write_update.
      cbn [upd_with_set u_set u_with u_table u_only u_from u_where u_returning u_comment p_mode p_map p_cols p_exprs].
      unfold write_set, write_pairs, pairs_values, pairs_empty. cbn [p_mode p_map p_cols p_exprs]. rewrite Mo.
      rewrite (sort_twice _ _ C GC ND). reflexivity. }
    unfold query, named_query, to_string. rewrite W. split; [reflexivity|]. split; [reflexivity|]. split; [reflexivity|].
    unfold after_rendering. rewrite Mo. cbv zeta. cbn [upd_with_set u_set p_mode p_map p_cols p_exprs].
    rewrite (sort_twice _ _ C GC ND). reflexivity.
Qed.
Print Assumptions C25_agreeing_columns_partial.

Definition aliased_set : list upd_call :=
  [UpdSet [GPair (GColumn {| c_name := "b"; c_alias := "y" |}) (GInt KInt 2);
           GPair (GColumn {| c_name := "a"; c_alias := "x" |}) (GInt KInt 1);
           GPair (GColumn {| c_name := "b"; c_alias := "z" |}) (GInt KInt 3)]].
Example C25_agreeing_ex : exists h, history (set_args aliased_set) h
  /\ map fst h = [{| c_name := "b"; c_alias := "y" |}; {| c_name := "a"; c_alias := "x" |}; {| c_name := "b"; c_alias := "z" |}]
  /\ forall a b, In a (map fst h) -> In b (map fst h) ->
       ~ (str_ltb (c_name a) (c_name b) = true /\ str_ltb (c_alias b) (c_alias a) = true).
Proof.
  eexists. split; [eexists; split; vm_compute; reflexivity|]. split; [reflexivity|].
  intros a b Ha Hb. cbn in Ha, Hb.
  repeat (destruct Ha as [<-|Ha]; [repeat (destruct Hb as [<-|Hb]; [intros [X Y]; vm_compute in X, Y; discriminate|]); destruct Hb|]).
  destruct Ha.
Qed.

Example C25_example : Forall plain_keys (set_args assign_twice)
  /\ exists u, (do u0 <- lk_update (GStr "t"); upd_run u0 (assign_twice ++ [UpdSet [GPair (GStr "Z") (GInt KInt 1)]])%list) = Ok u
     /\ after_rendering (O := go_oracle) u <> u.
Proof.
  split.
  - repeat apply Forall_cons; try apply Forall_nil; cbn; intros kv c H E;
      repeat (destruct H as [<-|H]; [vm_compute in E; injection E as <-; reflexivity|]); destruct H.
  - eexists. split; [vm_compute; reflexivity|]. vm_compute. discriminate.
Qed.

(* ------------------------------------------------------------------------- *)
(* C26                                                                         *)
(* ------------------------------------------------------------------------- *)

(* A column, or a string of columns. *)
Definition has_columns (cs : list upd_call) : Prop := exists g, In g (set_args cs) /\ is_column_arg g = true.
(* At least one pair. *)
Definition has_pairs (cs : list upd_call) : Prop := exists g l, In g (set_args cs) /\ pairs_of g = Some l /\ l <> [].

Lemma listed_no_pairs : forall args cols, listed_columns args = Some cols ->
  forall g l, In g args -> pairs_of g = Some l -> l = [].
Proof.
  induction args as [|a args IH]; intros cols E g l H P; [destruct H|]. cbn [listed_columns] in E.
  destruct (listed_columns args) as [m|] eqn:M; [|discriminate E]. destruct H as [->|H]; [|exact (IH m eq_refl g l H P)].
  destruct (is_column_arg g) eqn:A; [destruct g; try discriminate A; discriminate P|]. rewrite P in E. destruct l; [reflexivity|discriminate E].
Qed.
Lemma all_pairs_no_columns : forall args kvs, all_pairs args = Some kvs -> forall g, In g args -> is_column_arg g = false.
Proof.
  induction args as [|a args IH]; intros kvs E g H; [destruct H|]. cbn [all_pairs] in E.
  destruct (pairs_of a) as [l|] eqn:P; [|discriminate E]. destruct (all_pairs args) as [m|]; [|discriminate E].
  destruct H as [->|H]; [|exact (IH m eq_refl g H)]. destruct g; try reflexivity; discriminate P.
Qed.

(* Whatever else is called, an Update that was given both columns and pairs panics. *)
Theorem C26_never_mixed : forall g u0 cs, lk_update g = Ok u0 -> has_columns cs -> has_pairs cs ->
  exists p, upd_run u0 cs = Panic p.
Proof.
  intros g u0 cs L (a & Ha & A) (b & l & Hb & P & N). destruct (upd_run u0 cs) as [u|p] eqn:R; [|eauto]. exfalso.
  destruct (lk_update_fresh g u0 L) as [_ E].
  assert (M : p_mode (u_set u) = PArray \/ p_mode (u_set u) <> PArray) by (destruct (p_mode (u_set u)); auto; right; discriminate).
  destruct M as [M|M].
  - destruct (upd_run_list cs u0 u R M) as (cols & es & LC & _). apply N. exact (listed_no_pairs _ _ LC b l Hb P).
  - pose proof (upd_run_set cs u0 u R M) as S. destruct (merge_set_kind _ _ _ S M) as (kvs & K).
    rewrite (all_pairs_no_columns _ _ K a Ha) in A. discriminate A.
Qed.
Print Assumptions C26_never_mixed.

(* Using needs columns: without them it panics. *)
Theorem C26_using_needs_columns : forall g u0 cs, lk_update g = Ok u0 -> ~ has_columns cs ->
  (exists l, In (UpdUsing l) cs) -> exists p, upd_run u0 cs = Panic p.
Proof.
  intros g u0 cs L N (l & U). destruct (upd_run u0 cs) as [u|p] eqn:R; [|eauto]. exfalso.
  destruct (lk_update_fresh g u0 L) as [_ E].
  assert (A : p_mode (u_set u) = PArray).
  { clear -R U. revert u0 R. unfold upd_run. induction cs as [|c cs IH]; intros u0 R; [destruct U|]. cbn [fold_res] in R.
    destruct (upd_step u0 c) as [u1|] eqn:E1; [|discriminate R]. cbn [bind] in R. destruct U as [->|U]; [|exact (IH U u1 R)].
    apply (upd_run_array cs u1 u R). exact (proj2 (upd_step_set u0 _ u1 E1)). }
  destruct (upd_run_list cs u0 u R A) as (cols & es & LC & _ & C & _).
  assert (X : p_mode (u_set u0) = PUnknown) by (rewrite E; reflexivity).
  assert (K : forall args cols, listed_columns args = Some cols -> (forall g, In g args -> is_column_arg g = false) -> all_pairs args = Some []).
  { clear. induction args as [|a args IH]; intros cols LC F; [reflexivity|]. cbn [listed_columns all_pairs] in *.
    destruct (listed_columns args) as [m|]; [|discriminate LC]. rewrite (F a (or_introl eq_refl)) in LC.
    destruct (pairs_of a) as [[|x y]|]; try discriminate LC. rewrite (IH m eq_refl); [reflexivity|]. intros g Hg. apply F. right. exact Hg. }
  assert (F : forall g, In g (set_args cs) -> is_column_arg g = false).
  { intros x Hx. destruct (is_column_arg x) eqn:Y; [|reflexivity]. exfalso. apply N. exists x. split; assumption. }
  assert (M : p_mode (u_set u) <> PArray); [|contradiction].
  eapply upd_run_assoc; [exact R|rewrite X; discriminate|exact (K _ _ LC F)].
Qed.
Print Assumptions C26_using_needs_columns.

(* With columns, the clause is SET (columns in the order given) = (expressions given to Using),
   and there is at least one column and one expression. With pairs it is the clause of C23.
   No other UPDATE renders. *)
Theorem C26_two_syntaxes {O : Oracle} : forall g u0 cs u r, sort_contract o_sort ->
  lk_update g = Ok u0 -> upd_run u0 cs = Ok u -> query (StUpdate u) = Ok r ->
  (has_columns cs /\ exists cols es, listed_columns (set_args cs) = Some cols /\ cols <> []
     /\ map_res new_expression (using_args cs) = Ok es /\ es <> []
     /\ Ok r = rendered (update_setting u (set_columns cols es)))
  \/ (has_pairs cs /\ using_args cs = [] /\ exists h cols es, history (set_args cs) h
     /\ columns_of h cols /\ cols <> [] /\ final_values h cols es
     /\ Ok r = rendered (update_setting u (set_list cols es))).
Proof.
  intros g u0 cs u r C L R Q. destruct (lk_update_fresh g u0 L) as [T E].
  assert (NE : pairs_empty (u_set u) = false).
  { rewrite query_rendered, update_sql in Q. destruct (pairs_empty (u_set u)); [|reflexivity]. rewrite orb_true_r in Q. discriminate Q. }
  assert (M : p_mode (u_set u) = PArray \/ p_mode (u_set u) <> PArray) by (destruct (p_mode (u_set u)); auto; right; discriminate).
  destruct M as [M|M].
  - left. destruct (upd_run_list cs u0 u R M) as (cols & es & LC & UE & C1 & C2 & C3). rewrite E in C1, C2, C3. cbn [empty_pairs p_cols p_exprs p_map app] in *.
    assert (HC : has_columns cs).
    { destruct (existsb is_column_arg (set_args cs)) eqn:X.
      - apply existsb_exists in X. exact X.
      - exfalso. assert (K : all_pairs (set_args cs) = Some []).
        { clear -LC X. revert cols LC X. induction (set_args cs) as [|a args IH]; intros cols LC X; [reflexivity|]. cbn [listed_columns all_pairs existsb] in *.
          apply orb_false_elim in X. destruct X as [X Y]. rewrite X in LC. destruct (listed_columns args) as [m|]; [|discriminate LC].
          destruct (pairs_of a) as [[|x y]|]; try discriminate LC. rewrite (IH m eq_refl Y). reflexivity. }
        assert (p_mode (u_set u) <> PArray); [|contradiction]. eapply upd_run_assoc; [exact R|rewrite E; discriminate|exact K]. }
    split; [exact HC|]. exists cols, es. split; [exact LC|].
    split.
    { destruct HC as (a & Ha & A). clear -LC Ha A. revert cols LC. induction (set_args cs) as [|b args IH]; intros cols LC; [destruct Ha|]. cbn [listed_columns] in LC.
      destruct (listed_columns args) as [m|]; [|discriminate LC]. destruct Ha as [->|Ha].
      - rewrite A in LC. destruct (to_columns [a]) as [l|] eqn:TC; [|discriminate LC]. injection LC as <-.
        assert (l <> []). { apply (concat_res_nonempty a l TC). destruct a; try discriminate A; eauto. }
        destruct l; [contradiction|discriminate].
      - specialize (IH Ha m eq_refl). destruct (is_column_arg b).
        + destruct (to_columns [b]) as [l|]; [|discriminate LC]. injection LC as <-. destruct l; [exact IH|discriminate].
        + destruct (pairs_of b) as [[|x y]|]; try discriminate LC. injection LC as <-. exact IH. }
    split; [exact UE|]. split.
    { intros ->. unfold pairs_empty in NE. rewrite M, C2, C3 in NE. discriminate NE. }
    rewrite <- Q, C45_update_clauses; [|rewrite (upd_run_table cs u0 u R); exact T|exact NE].
    unfold update_clauses, update_setting, set_sql. rewrite M, C1, C2. reflexivity.
  - right. pose proof (upd_run_set cs u0 u R M) as S. rewrite E in S.
    destruct (merge_set_holds PUnknown (set_args cs) (u_set u) ltac:(discriminate) S M) as (h & H & Ho).
    assert (N : h <> []).
    { intros ->. destruct Ho as (_ & _ & X & Z). unfold pairs_empty in NE. rewrite X, (proj1 Z eq_refl) in NE.
      destruct (p_mode (u_set u)); discriminate NE. }
    split.
    { destruct H as (kvs & A & HH). assert (K : kvs <> []) by (intros ->; injection HH as <-; contradiction).
      clear -A K. revert kvs A K. unfold has_pairs. induction (set_args cs) as [|a args IH]; intros kvs A K; cbn [all_pairs] in A; [injection A as <-; contradiction|].
      destruct (pairs_of a) as [l|] eqn:P; [|discriminate A]. destruct (all_pairs args) as [m|]; [|discriminate A]. injection A as <-.
      destruct l as [|x l].
      - destruct (IH m eq_refl K) as (b & lb & Hb & Pb). exists b, lb. split; [right; exact Hb|exact Pb].
      - exists a, (x :: l). split; [left; reflexivity|]. split; [exact P|discriminate]. }
    split.
    { clear -R M. revert u0 R. unfold upd_run. induction cs as [|c cs IH]; intros u0 R; [reflexivity|]. cbn [fold_res] in R.
      destruct (upd_step u0 c) as [u1|] eqn:E1; [|discriminate R]. cbn [bind] in R. cbn [using_args flat_map].
      change (flat_map _ cs) with (using_args cs). rewrite (IH u1 R), app_nil_r. destruct c; try reflexivity. exfalso. apply M.
      apply (upd_run_array cs u1 u R). exact (proj2 (upd_step_set u0 _ u1 E1)). }
    destruct (C23_update g u0 cs u h C L R H N) as (cols & es & Co & Fi & QQ).
    exists h, cols, es. split; [exact H|]. split; [exact Co|]. split; [|split; [exact Fi|rewrite <- Q; exact QQ]].
    intros ->. destruct h as [|[c e] h]; [contradiction|]. destruct Co as (_ & I). apply (I c). left. reflexivity.
Qed.
Print Assumptions C26_two_syntaxes.

Definition column_list : list upd_call := [UpdSet [GStr "b, a"]; UpdSet [GColumn (lk_column "c")]; UpdUsing [GInt KInt 1; GInt KInt 2; GInt KInt 3]].
Example C26_example :
  has_columns column_list /\ has_pairs assign_twice
  /\ (do u0 <- lk_update (GStr "t"); do u <- upd_run u0 column_list; query (O := go_oracle) (StUpdate u))
     = Ok ("UPDATE ""t"" SET (""b"", ""a"", ""c"") = ($1, $2, $3)", [GInt KInt 1; GInt KInt 2; GInt KInt 3])
  /\ has_columns (column_list ++ assign_twice)%list /\ has_pairs (column_list ++ assign_twice)%list.
Proof.
  split; [exists (GStr "b, a"); split; [left|]; reflexivity|].
  split; [eexists; eexists; split; [left; reflexivity|split; [reflexivity|discriminate]]|].
  split; [vm_compute; reflexivity|].
  split; [exists (GStr "b, a"); split; [left|]; reflexivity|].
  eexists; eexists; split; [right; right; left; reflexivity|split; [reflexivity|discriminate]].
Qed.

(* The numbers of columns and expressions are not compared. *)
Theorem C26_same_number_refuted :
  (do u0 <- lk_update (GStr "t"); do u <- upd_run u0 [UpdSet [GStr "a, b"]; UpdUsing [GInt KInt 1]]; query (O := go_oracle) (StUpdate u))
  = Ok ("UPDATE ""t"" SET (""a"", ""b"") = ($1)", [GInt KInt 1]).
Proof. vm_compute. reflexivity. Qed.
Print Assumptions C26_same_number_refuted.

(* ------------------------------------------------------------------------- *)
(* C27                                                                         *)
(* ------------------------------------------------------------------------- *)

(* Insert.Set writes each assigned column once, and one row with its last value at the same
   place. *)
Theorem C27_columns_and_values {O : Oracle} : forall i args i' h, sort_contract o_sort ->
  ins_step i (InsSet args) = Ok i' -> history args h -> h <> [] -> t_name (i_into i) <> ""%string ->
  exists cols es, columns_of h cols /\ final_values h cols es /\ length cols = length es
    /\ query (StInsert i') = rendered (clauses_sql
         [Some (Ok (lit "INSERT INTO " ++ table_sql (i_into i))%list);
          Some (Ok (lit "(" ++ commas (map column_sql cols) ++ lit ")")%list);
          Some (do q <- row_sql es; Ok (lit "VALUES " ++ q)%list);
          conflict_clause (i_conflict_target i) (i_conflict_action i);
          listed "RETURNING " select_item (i_returning i) ""] (i_comment i)).
Proof.
  intros i args i' h C S H N T. cbn [ins_step] in S. destruct (nonempty (i_columns i)); [discriminate S|].
  destruct (cond_empty (i_values i)) as [[|]|]; try discriminate S. cbn [bind] in S.
  destruct (to_set args) as [p|] eqn:P; [|discriminate S]. cbn [bind] in S. unfold to_set in P.
  destruct (holds_mode PAssoc _ _ h ltac:(discriminate) P H) as (Ho & Mo & _). specialize (Mo N).
  destruct (pairs_values_assoc p h Mo Ho (proj1 (C _))) as (es & Co & Fi & V). rewrite V in S. cbn [bind fst snd] in S.
  set (cols := o_sort (p_cols p)) in *. exists cols, es. split; [exact Co|]. split; [exact Fi|].
  assert (Len : length cols = length es) by (clear -Fi; unfold final_values in Fi; induction Fi; cbn; congruence). split; [exact Len|].
  assert (NN : Forall (fun e => is_nil e = false) es).
  { assert (A : Forall (fun ce => is_nil (snd ce) = false) h).
    { destruct H as (kvs & _ & HH). clear -HH. revert h HH. induction kvs as [|kv kvs IH]; intros h HH; cbn [map_res] in HH; [injection HH as <-; constructor|].
      unfold assigns at 1 in HH. destruct (to_column (fst kv)); [|discriminate HH]. cbn [bind] in HH.
      destruct (new_expression (snd kv)) as [e|] eqn:E; [|discriminate HH]. cbn [bind] in HH.
      destruct (map_res assigns kvs) as [h1|]; [|discriminate HH]. injection HH as <-. constructor; [|apply IH; reflexivity].
      apply wrapper_not_nil. exact (not_nil_expr _ _ E). }
    assert (B : forall h c e, Forall (fun ce : column * expr => is_nil (snd ce) = false) h -> last_write h c = Some e -> is_nil e = false).
    { clear. induction h as [|[d x] h IH]; intros c e A L; [discriminate L|]. apply Forall_cons_iff in A. destruct A as [A1 A2]. cbn [last_write] in L.
      destruct (last_write h c) as [y|] eqn:Y; [injection L as <-; exact (IH c y A2 Y)|]. destruct (col_eqb c d); [|discriminate L]. injection L as <-. exact A1. }
    clear -Fi A B. unfold final_values in Fi. induction Fi as [|c e cols es L F IH]; constructor; [exact (B h c e A L)|exact IH]. }
  assert (ES : es <> []).
  { intros ->. destruct cols; [|discriminate Len]. destruct h as [|[c e] h]; [contradiction|]. destruct Co as (_ & I). apply (I c). left. reflexivity. }
  assert (Z : new_array_list [GExprs es] = Ok (EArrayList [EArray es])).
  { unfold new_array_list, new_array. cbn [to_array_list row_elems map_res bind nonempty to_array slice_elems].
    rewrite (exprs_back es NN). reflexivity. }
  rewrite Z in S. cbn [bind] in S. injection S as <-. rewrite C45_insert_clauses by exact T.
  unfold insert_clauses. cbn [ins_with_values ins_with_columns i_into i_columns i_values i_conflict_target i_conflict_action i_returning i_comment].
  assert (CN : listed "(" column_item cols ")" = Some (Ok (lit "(" ++ commas (map column_sql cols) ++ lit ")")%list)).
  { unfold listed. rewrite columns_items. destruct cols; [|reflexivity]. destruct es; [contradiction|discriminate Len]. }
  rewrite CN. change [EArray es] with (map EArray [es]). rewrite rows_written by discriminate.
  unfold values_clause. cbn [map_res]. destruct (row_sql es); cbn [bind commas sepd]; [|reflexivity].
  reflexivity.
Qed.
Print Assumptions C27_columns_and_values.

Example C27_example :
  exists i i' h, lk_insert (O := go_oracle) (GStr "t") = Ok i
    /\ ins_step (O := go_oracle) i (InsSet [GMapAny [("b", GInt KInt 1); ("a", GStr "x")]; GPair (GStr "b") (GExpr (ERaw "now()"))]) = Ok i'
    /\ history [GMapAny [("b", GInt KInt 1); ("a", GStr "x")]; GPair (GStr "b") (GExpr (ERaw "now()"))] h /\ h <> []
    /\ t_name (i_into i) <> ""%string
    /\ query (O := go_oracle) (StInsert i') = Ok ("INSERT INTO ""t"" (""a"", ""b"") VALUES ($1, now())", [GStr "x"]).
Proof.
  eexists. eexists. eexists. split; [vm_compute; reflexivity|]. split; [vm_compute; reflexivity|].
  split; [eexists; split; [vm_compute; reflexivity|]; vm_compute; reflexivity|].
  split; [discriminate|]. split; [discriminate|vm_compute; reflexivity].
Qed.

(* Insert.Set without pairs is accepted and writes an empty row, which is not SQL. *)
Theorem C27_no_pairs_refuted :
  (do i <- lk_insert (O := go_oracle) (GStr "t"); do i <- ins_step (O := go_oracle) i (InsSet []); query (O := go_oracle) (StInsert i))
  = Ok ("INSERT INTO ""t"" VALUES ()", []).
Proof. vm_compute. reflexivity. Qed.
Print Assumptions C27_no_pairs_refuted.

(* Column-list arguments make Insert.Set panic. *)
Theorem C27_columns_panic {O : Oracle} : forall i args g, In g args -> is_column_arg g = true ->
  exists p, ins_step i (InsSet args) = Panic p.
Proof.
  intros i args g Hg A. cbn [ins_step]. destruct (nonempty (i_columns i)); [eauto|].
  destruct (cond_empty (i_values i)) as [[|]|]; cbn [bind]; eauto.
  destruct (to_set args) as [p|] eqn:P; cbn [bind]; [|eauto]. exfalso. unfold to_set in P.
  assert (B : forall args p p', p_mode p = PAssoc -> merge_set p args = Ok p' -> In g args -> False).
  { clear -A. unfold merge_set. induction args as [|a args IH]; intros p p' M E H; [destruct H|]. cbn [fold_res] in E.
    destruct (merge_arg p a) as [q|] eqn:Q; [|discriminate E]. cbn [bind] in E.
    destruct (merge_arg_kind _ _ _ Q) as [(l & L & X)|(_ & _ & X)]; [|contradiction].
    destruct H as [->|H]; [destruct g; try discriminate A; discriminate L|].
    apply (IH q p'); [|exact E|exact H]. destruct X as [[_ ->]|(_ & X & _)]; [exact M|exact X]. }
  eapply (B args); [|exact P|exact Hg]. reflexivity.
Qed.
Print Assumptions C27_columns_panic.
