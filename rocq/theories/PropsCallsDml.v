(* C56: the order of calls on an Insert, Update or Delete builder. *)
From Verif Require Import CallsDmlP Sort.

(* Both ways of building give the same SQL and arguments from each of the three methods, or
   both panic. *)
Definition same_sql {O : Oracle} (a b : res stmt) : Prop :=
  same_outcome (do s <- a; query s) (do s <- b; query s)
  /\ same_outcome (do s <- a; named_query s) (do s <- b; named_query s)
  /\ same_outcome (do s <- a; to_string s) (do s <- b; to_string s).

Lemma same_rendered {O : Oracle} {A} (f : A -> stmt) : forall a b, same_outcome a b ->
  same_sql (do q <- a; Ok (f q)) (do q <- b; Ok (f q)).
Proof.
  intros a b H. assert (E : same_outcome (do q <- a; Ok (f q)) (do q <- b; Ok (f q))) by (apply same_bind, H).
  repeat split; apply same_bind, E.
Qed.

Theorem C56_insert_calls {O : Oracle} : forall i cs cs', reorders ins_group_eq ins_group_of cs cs' ->
  same_outcome (ins_run i cs) (ins_run i cs')
  /\ same_sql (do q <- ins_run i cs; Ok (StInsert q)) (do q <- ins_run i cs'; Ok (StInsert q)).
Proof. intros i cs cs' H. apply (ins_reordered i) in H. split; [exact H|apply same_rendered, H]. Qed.
Print Assumptions C56_insert_calls.

Theorem C56_update_calls {O : Oracle} : forall u cs cs', reorders upd_group_eq upd_group_of cs cs' ->
  same_outcome (upd_run u cs) (upd_run u cs')
  /\ same_sql (do q <- upd_run u cs; Ok (StUpdate q)) (do q <- upd_run u cs'; Ok (StUpdate q)).
Proof. intros u cs cs' H. apply (upd_reordered u) in H. split; [exact H|apply same_rendered, H]. Qed.
Print Assumptions C56_update_calls.

Theorem C56_delete_calls {O : Oracle} : forall d cs cs', reorders del_group_eq del_group_of cs cs' ->
  same_outcome (del_run d cs) (del_run d cs')
  /\ same_sql (do q <- del_run d cs; Ok (StDelete q)) (do q <- del_run d cs'; Ok (StDelete q)).
Proof. intros d cs cs' H. apply (del_reordered d) in H. split; [exact H|apply same_rendered, H]. Qed.
Print Assumptions C56_delete_calls.

(* Columns and Values can be swapped as well; with Set, both orders panic when the first call
   set something. *)
Theorem C56_columns_values {O : Oracle} : forall i a b,
  same_outcome (ins_run i [InsColumns a; InsValues b]) (ins_run i [InsValues b; InsColumns a]).
Proof.
  intros i [|g a] b; unfold ins_run; cbn [fold_res ins_step bind].
  - destruct (cond_empty (i_values i)) as [[]|]; cbn [bind]; try exact I.
    destruct (new_array_list b); cbn [bind]; [reflexivity|exact I].
  - destruct (nonempty (i_columns i)) eqn:N; cbn [bind].
    + destruct (cond_empty (i_values i)) as [[]|]; cbn [bind]; try exact I.
      destruct (new_array_list b); cbn [bind]; [|exact I]. cbn [i_columns ins_with_values]. rewrite N. exact I.
    + destruct (to_columns (g :: a)) as [cols|] eqn:Ec; cbn [bind i_values ins_with_columns].
      * destruct (cond_empty (i_values i)) as [[]|]; cbn [bind]; try exact I.
        destruct (new_array_list b); cbn [bind]; [|exact I]. cbn [i_columns ins_with_values]. rewrite N. cbn [bind]. reflexivity.
      * destruct (cond_empty (i_values i)) as [[]|]; cbn [bind]; try exact I.
        destruct (new_array_list b); cbn [bind]; [|exact I]. cbn [i_columns ins_with_values]. rewrite N. cbn [bind]. exact I.
Qed.
Print Assumptions C56_columns_values.

(* On one clause the order matters: Set after Set in the other order gives another value, Or
   before And another condition; Using before Set panics. *)
Theorem C56_one_clause_order_matters {O : Oracle} : forall t,
  (exists u, lk_update (GStr (String "t" t)) = Ok u
     /\ ~ same_outcome (upd_run u [UpdSet [GPair (GStr "a") (GInt KInt 1)]; UpdSet [GPair (GStr "a") (GInt KInt 2)]])
                       (upd_run u [UpdSet [GPair (GStr "a") (GInt KInt 2)]; UpdSet [GPair (GStr "a") (GInt KInt 1)]])
     /\ ~ same_outcome (upd_run u [UpdSet [GStr "a"]; UpdUsing [GInt KInt 1]])
                       (upd_run u [UpdUsing [GInt KInt 1]; UpdSet [GStr "a"]]))
  /\ (exists d, lk_delete (GStr (String "t" t)) = Ok d
     /\ ~ same_outcome (del_run d [DelWhere (ERaw "a"); DelAnd (ERaw "b"); DelOr (ERaw "c")])
                       (del_run d [DelWhere (ERaw "a"); DelOr (ERaw "c"); DelAnd (ERaw "b")])).
Proof.
  intro t. split.
  - eexists. split; [reflexivity|]. split; intro H; vm_compute in H; [discriminate H|exact H].
  - eexists. split; [reflexivity|]. intro H; vm_compute in H. discriminate H.
Qed.
Print Assumptions C56_one_clause_order_matters.

(* Three permutations that meet the hypotheses. *)
Definition ins1 : list ins_call :=
  [InsReturning [GStr "id"]; InsColumns [GStr "a, b"]; InsOnConflict [GStr "a"; GConflictNo];
   InsValues [GAnys [GInt KInt 1; GInt KInt 2]]; InsComment "c"].
Definition ins2 : list ins_call :=
  [InsComment "c"; InsColumns [GStr "a, b"]; InsValues [GAnys [GInt KInt 1; GInt KInt 2]];
   InsOnConflict [GStr "a"; GConflictNo]; InsReturning [GStr "id"]].
Example C56_insert_ex : reorders ins_group_eq ins_group_of ins1 ins2 /\ ins1 <> ins2
  /\ (do i <- lk_insert (O := go_oracle) (GStr "t"); do i <- ins_run (O := go_oracle) i ins1; query (O := go_oracle) (StInsert i))
     = Ok ("INSERT INTO ""t"" (""a"", ""b"") VALUES ($1, $2) ON CONFLICT (""a"") DO NOTHING RETURNING ""id""; -- c",
           [GInt KInt 1; GInt KInt 2]).
Proof. split; [intros []; reflexivity|]. split; [discriminate|vm_compute; reflexivity]. Qed.

Definition upd1 : list upd_call :=
  [UpdWhere (ERaw "x"); UpdSet [GPair (GStr "b") (GInt KInt 1)]; UpdOnly; UpdOr (ERaw "y"); UpdFrom (GStr "u");
   UpdSet [GPair (GStr "a") (GInt KInt 2)]; UpdReturning [GStr "id"]].
Definition upd2 : list upd_call :=
  [UpdReturning [GStr "id"]; UpdFrom (GStr "u"); UpdOnly; UpdSet [GPair (GStr "b") (GInt KInt 1)]; UpdWhere (ERaw "x");
   UpdSet [GPair (GStr "a") (GInt KInt 2)]; UpdOr (ERaw "y")].
Example C56_update_ex : reorders upd_group_eq upd_group_of upd1 upd2 /\ upd1 <> upd2
  /\ (do u <- lk_update (GStr "t"); do u <- upd_run u upd1; query (O := go_oracle) (StUpdate u))
     = Ok ("UPDATE ONLY ""t"" SET ""a"" = $1, ""b"" = $2 FROM ""u"" WHERE (x OR y) RETURNING ""id""",
           [GInt KInt 2; GInt KInt 1]).
Proof. split; [intros []; reflexivity|]. split; [discriminate|vm_compute; reflexivity]. Qed.

Definition del1 : list del_call := [DelReturning [GStr "id"]; DelWhere (ERaw "x"); DelUsing [GStr "u"]; DelAnd (ERaw "y")].
Definition del2 : list del_call := [DelUsing [GStr "u"]; DelWhere (ERaw "x"); DelAnd (ERaw "y"); DelReturning [GStr "id"]].
Example C56_delete_ex : reorders del_group_eq del_group_of del1 del2 /\ del1 <> del2
  /\ (do d <- lk_delete (GStr "t"); do d <- del_run d del1; query (O := go_oracle) (StDelete d))
     = Ok ("DELETE FROM ""t"" USING ""u"" WHERE (x AND y) RETURNING ""id""", []).
Proof. split; [intros []; reflexivity|]. split; [discriminate|vm_compute; reflexivity]. Qed.
