(* C28, C29: the rows of INSERT and the ON CONFLICT clause. *)
From Verif Require Import RowsP Sort PropsClauses.

(* ------------------------------------------------------------------------- *)
(* C28                                                                         *)
(* ------------------------------------------------------------------------- *)

(* Values with a slice of slices writes one parenthesised row for each inner slice, in order,
   with the elements of the slice in order. It panics exactly when an element is not accepted. *)
Theorem C28_batch {O : Oracle} : forall i g rows, batch g rows -> rows <> [] ->
  Forall (fun r => single_exception r = false) rows -> cond_empty (i_values i) = Ok true -> t_name (i_into i) <> ""%string ->
  match map_res row_exprs rows with
  | Panic p => ins_step i (InsValues [g]) = Panic p
  | Ok es => length es = length rows
             /\ exists i', ins_step i (InsValues [g]) = Ok i'
                  /\ query (StInsert i') = rendered (insert_values i (values_clause es))
  end.
Proof.
  intros i g rows B N F V T. cbn [ins_step]. rewrite V. cbn [bind]. unfold new_array_list.
  rewrite (batch_rows g rows B), (plain_rows rows F). destruct (map_res row_exprs rows) as [es|] eqn:E; [|reflexivity].
  pose proof (map_res_length _ _ _ _ _ E) as L. pose proof (map_res_nonempty _ _ _ _ _ E N) as M.
  split; [exact L|]. cbn [bind]. destruct es as [|e es]; [contradiction|]. cbn [map nonempty].
  eexists. split; [reflexivity|]. rewrite C45_insert_clauses by exact T.
  unfold insert_clauses, insert_values. cbn [ins_with_values i_into i_columns i_values i_conflict_target i_conflict_action i_returning i_comment].
  rewrite <- (map_cons EArray). rewrite rows_written by discriminate. reflexivity.
Qed.
Print Assumptions C28_batch.

(* Values with several arguments, or one that is not nil, a slice or a batch, is one row. *)
Theorem C28_single_row {O : Oracle} : forall i row, row <> [] -> single_exception row = false ->
  row_elems (hd GNil row) = [] -> cond_empty (i_values i) = Ok true -> t_name (i_into i) <> ""%string ->
  match row_exprs row with
  | Panic p => ins_step i (InsValues row) = Panic p
  | Ok es => exists i', ins_step i (InsValues row) = Ok i'
               /\ query (StInsert i') = rendered (insert_values i (values_clause [es]))
  end.
Proof.
  intros i row N S R V T. cbn [ins_step]. rewrite V. cbn [bind]. unfold new_array_list.
  destruct row as [|v row]; [contradiction|]. unfold to_array_list. cbn [hd] in R. rewrite R. cbn [map_res bind nonempty].
  rewrite (plain_row (v :: row) S). destruct (row_exprs (v :: row)) as [es|]; [|reflexivity]. cbn [bind].
  eexists. split; [reflexivity|]. rewrite C45_insert_clauses by exact T.
  unfold insert_clauses, insert_values. cbn [ins_with_values i_into i_columns i_values i_conflict_target i_conflict_action i_returning i_comment].
  change [EArray es] with (map EArray [es]). rewrite rows_written by discriminate. reflexivity.
Qed.
Print Assumptions C28_single_row.

(* One slice is one row with its elements. *)
Theorem C28_one_slice {O : Oracle} : forall i g l, slice_elems g = Some l -> cond_empty (i_values i) = Ok true -> t_name (i_into i) <> ""%string ->
  match row_exprs l with
  | Panic p => ins_step i (InsValues [g]) = Panic p
  | Ok es => exists i', ins_step i (InsValues [g]) = Ok i'
               /\ query (StInsert i') = rendered (insert_values i (values_clause [es]))
  end.
Proof.
  intros i g l S V T. cbn [ins_step]. rewrite V. cbn [bind].
  assert (E : new_array_list [g] = do es <- row_exprs l; Ok (EArrayList [EArray es])).
  { unfold new_array_list, to_array_list, new_array, row_exprs.
    assert (R : row_elems g = []) by (destruct g; try discriminate S; try reflexivity; destruct k; try discriminate S; reflexivity).
    rewrite R. cbn [map_res bind nonempty].
    assert (A : to_array g = map_res new_expression l).
    { unfold to_array. destruct g; try discriminate S; rewrite S; reflexivity. }
    rewrite A. destruct (map_res new_expression l); reflexivity. }
  rewrite E. destruct (row_exprs l) as [es|]; [|reflexivity]. cbn [bind].
  eexists. split; [reflexivity|]. rewrite C45_insert_clauses by exact T.
  unfold insert_clauses, insert_values. cbn [ins_with_values i_into i_columns i_values i_conflict_target i_conflict_action i_returning i_comment].
  change [EArray es] with (map EArray [es]). rewrite rows_written by discriminate. reflexivity.
Qed.
Print Assumptions C28_one_slice.

Definition fresh_insert : insert := ins_with_columns (ins_with_into new_insert (lk_table "t")) [lk_column "a"; lk_column "b"].
Example C28_example :
  batch (GAnyss [[GInt KInt 1; GNil]; [GStr "x"; GExpr (ERaw "now()")]; [GInt KInt 1; GNil]]) [[GInt KInt 1; GNil]; [GStr "x"; GExpr (ERaw "now()")]; [GInt KInt 1; GNil]]
  /\ cond_empty (i_values fresh_insert) = Ok true
  /\ (do i <- ins_step (O := go_oracle) fresh_insert (InsValues [GAnyss [[GInt KInt 1; GNil]; [GStr "x"; GExpr (ERaw "now()")]; [GInt KInt 1; GNil]]]);
      query (O := go_oracle) (StInsert i))
     = Ok ("INSERT INTO ""t"" (""a"", ""b"") VALUES ($1, NULL), ($2, now()), ($3, NULL)", [GInt KInt 1; GStr "x"; GInt KInt 1]).
Proof. split; [constructor|]. split; [reflexivity|vm_compute; reflexivity]. Qed.
Example C28_rows_example : Forall (fun r : list gval => single_exception r = false) [[GInt KInt 1; GNil]; [GStr "x"; GExpr (ERaw "now()")]; [GInt KInt 1; GNil]]
  /\ single_exception [GStr "x"; GNil] = false /\ row_elems (GStr "x") = [] /\ slice_elems (GInts KInt [1; 2]%Z) = Some [GInt KInt 1; GInt KInt 2].
Proof. repeat split; repeat constructor. Qed.

(* False for rows of one element that is nil or a slice, and for the empty batch. *)
Definition values_text (args : list gval) : res (string * list gval) :=
  do i <- ins_step (O := go_oracle) fresh_insert (InsValues args); query (O := go_oracle) (StInsert i).
Theorem C28_exceptions_refuted :
  values_text [GNil] = Ok ("INSERT INTO ""t"" (""a"", ""b"") VALUES ()", [])
  /\ values_text [GAnyss [[GNil]]] = Ok ("INSERT INTO ""t"" (""a"", ""b"") VALUES ()", [])
  /\ values_text [GAnyss [[GStrs ["x"; "y"]]; [GInt KInt 1]]]
     = Ok ("INSERT INTO ""t"" (""a"", ""b"") VALUES ($1, $2), ($3)", [GStr "x"; GStr "y"; GInt KInt 1])
  /\ is_ok (values_text [GAnyss []]) = false
  /\ is_ok (values_text [GStrss []]) = false
  /\ values_text [] = Panic PIndex.
Proof. repeat split; vm_compute; reflexivity. Qed.
Print Assumptions C28_exceptions_refuted.

(* The rows are not compared with the columns, nor with each other. *)
Theorem C28_row_lengths_refuted :
  values_text [GIntss KInt [[1]; [2; 3; 4]]%Z] = Ok ("INSERT INTO ""t"" (""a"", ""b"") VALUES ($1), ($2, $3, $4)", [GInt KInt 1; GInt KInt 2; GInt KInt 3; GInt KInt 4]).
Proof. vm_compute. reflexivity. Qed.
Print Assumptions C28_row_lengths_refuted.

(* Only the first argument of Values is looked at when it is a slice of rows: the others are dropped, whatever they are. *)
Theorem C28_extra_dropped_refuted : forall {O : Oracle} i g rows rest, batch g rows -> rows <> [] ->
  ins_step i (InsValues (g :: rest)) = ins_step i (InsValues [g]).
Proof.
  intros O i g rows rest B N. unfold ins_step. destruct (cond_empty (i_values i)) as [[]|]; try reflexivity. cbn [bind].
  unfold new_array_list. rewrite (batch_rows g rows B).
  destruct rows as [|r rows]; [congruence|]. cbn [map_res]. destruct (new_array r); [|reflexivity]. cbn [bind].
  destruct (map_res new_array rows); reflexivity.
Qed.
Print Assumptions C28_extra_dropped_refuted.
Example C28_extra_dropped_ex : batch (GIntss KInt [[1; 2]]%Z) [[GInt KInt 1; GInt KInt 2]]
  /\ values_text [GIntss KInt [[1; 2]]%Z; GIntss KInt [[3; 4]]%Z; GOther "struct"]
     = Ok ("INSERT INTO ""t"" (""a"", ""b"") VALUES ($1, $2)", [GInt KInt 1; GInt KInt 2]).
Proof. split; [constructor|vm_compute; reflexivity]. Qed.

(* ------------------------------------------------------------------------- *)
(* C29                                                                         *)
(* ------------------------------------------------------------------------- *)

(* If OnConflict returns, its arguments were columns, an action, and anything; the clause has
   these columns and this action; DO UPDATE has at least one column. *)
Theorem C29_returns {O : Oracle} : forall i args i', i_conflict_target i = [] ->
  ins_step i (InsOnConflict args) = Ok i' ->
  exists targets a rest cols, conflict_args args targets a rest /\ map_res to_column targets = Ok cols
    /\ (a <> ActNothing -> cols <> [])
    /\ (t_name (i_into i) <> ""%string ->
        query (StInsert i') = rendered (insert_conflict i (conflict_clause cols (Some a)))).
Proof.
  intros i args i' T0 S. cbn [ins_step] in S. destruct (conflict_empty (i_conflict_action i)); [|discriminate S].
  destruct args as [|g args]; [discriminate S|]. destruct (on_conflict_loop (g :: args) (i_conflict_target i)) as [[t a]|] eqn:L; [|discriminate S].
  injection S as <-. destruct (conflict_loop _ _ _ _ L) as (targets & rest & cols & A & M & Et & N). rewrite T0 in Et. cbn [app] in Et. subst t.
  exists targets, a, rest, cols. split; [exact A|]. split; [exact M|]. split; [exact N|].
  intro T. rewrite C45_insert_clauses by exact T. reflexivity.
Qed.
Print Assumptions C29_returns.

(* And it returns whenever the arguments have that form; what follows the action is ignored. *)
Theorem C29_accepts {O : Oracle} : forall i args targets a rest cols, i_conflict_target i = [] ->
  conflict_empty (i_conflict_action i) = true ->
  conflict_args args targets a rest -> map_res to_column targets = Ok cols -> (a <> ActNothing -> targets <> []) ->
  ins_step i (InsOnConflict args) = Ok (ins_with_conflict i cols (Some a)).
Proof.
  intros i args targets a rest cols T0 E (g & -> & G & F) M N. cbn [ins_step]. rewrite E.
  assert (L : on_conflict_loop (targets ++ g :: rest)%list (i_conflict_target i) = Ok (cols, a)).
  { rewrite T0. apply (conflict_loop_done targets a rest g cols [] G F M). intros H. exact (map_res_nonempty _ _ _ _ _ M (N H)). }
  rewrite L. destruct (targets ++ g :: rest)%list as [|x l] eqn:X; [destruct targets; discriminate X|reflexivity].
Qed.
Print Assumptions C29_accepts.

(* Without an action, or with DO UPDATE and no column, it panics. *)
Theorem C29_panics {O : Oracle} : forall i args,
  (forall g, In g args -> is_action g = false) -> exists p, ins_step i (InsOnConflict args) = Panic p.
Proof.
  intros i args H. destruct (ins_step i (InsOnConflict args)) as [i'|p] eqn:S; [|eauto]. exfalso.
  cbn [ins_step] in S. destruct (conflict_empty (i_conflict_action i)); [|discriminate S].
  destruct args as [|g args]; [discriminate S|]. destruct (on_conflict_loop (g :: args) (i_conflict_target i)) as [[t a]|] eqn:L; [|discriminate S].
  destruct (conflict_loop _ _ _ _ L) as (targets & rest & cols & (x & E & X & _) & _).
  assert (Hx : In x (g :: args)) by (rewrite E; apply in_or_app; right; left; reflexivity).
  specialize (H x Hx). destruct x; discriminate.
Qed.
Print Assumptions C29_panics.
Theorem C29_update_needs_target {O : Oracle} : forall i p rest, i_conflict_target i = [] ->
  exists x, ins_step i (InsOnConflict (GConflictUpdate p :: rest)) = Panic x.
Proof. intros i p rest T. cbn [ins_step on_conflict_loop]. rewrite T. destruct (conflict_empty _); cbn; eauto. Qed.
Print Assumptions C29_update_needs_target.

(* An Insert on which OnConflict was not called has no target. *)
Theorem C29_no_target_before {O : Oracle} : forall g i0 cs i, lk_insert g = Ok i0 -> ins_run i0 cs = Ok i ->
  (forall args, ~ In (InsOnConflict args) cs) ->
  i_conflict_target i = [] /\ i_conflict_action i = None /\ t_name (i_into i) <> ""%string.
Proof.
  intros g i0 cs i L R N.
  assert (B : i_conflict_target i0 = [] /\ i_conflict_action i0 = None /\ t_name (i_into i0) <> ""%string).
  { unfold lk_insert in L. cbn [ins_step new_insert i_into] in L. cbn [zero_table t_name no_str String.eqb] in L.
    destruct (to_into g) as [t|] eqn:E; [|discriminate L]. injection L as <-. split; [reflexivity|]. split; [reflexivity|]. cbn.
    unfold to_into in E. destruct g; try discriminate E; cbn [bind] in E; destruct (no_str _) eqn:Z; try discriminate E; injection E as <-;
      unfold no_str in Z; apply String.eqb_neq; exact Z. }
  clear L. revert i0 B R. unfold ins_run. induction cs as [|c cs IH]; intros i0 B R; cbn [fold_res] in R; [injection R as <-; exact B|].
  destruct (ins_step i0 c) as [i1|] eqn:S; [|discriminate R]. cbn [bind] in R. apply (IH ltac:(intros a Ha; exact (N a (or_intror Ha))) i1); [|exact R].
  destruct B as (B1 & B2 & B3). destruct c; cbn [ins_step] in S.
  - destruct (no_str _) eqn:Z; [|discriminate S]. unfold no_str in Z. apply String.eqb_eq in Z. contradiction.
  - destruct args; [injection S as <-; auto|]. destruct (nonempty _); [discriminate S|]. destruct (to_columns _); [|discriminate S]. injection S as <-. auto.
  - destruct (cond_empty _) as [[|]|]; try discriminate S. cbn [bind] in S. destruct (new_array_list _); [|discriminate S]. injection S as <-. auto.
  - destruct (nonempty _); [discriminate S|]. destruct (to_selexprs _); [|discriminate S]. injection S as <-. auto.
  - injection S as <-. auto.
  - exfalso. exact (N args (or_introl eq_refl)).
  - destruct (nonempty _); [discriminate S|]. destruct (cond_empty _) as [[|]|]; try discriminate S. cbn [bind] in S.
    destruct (to_set _); [|discriminate S]. cbn [bind] in S. destruct (pairs_values _); [|discriminate S]. cbn [bind] in S.
    destruct (new_array_list _); [|discriminate S]. injection S as <-. auto.
Qed.
Print Assumptions C29_no_target_before.

Example C29_example :
  conflict_args [GStr "a"; GColumn (lk_column "b"); GConflictNo; GStr "ignored"] [GStr "a"; GColumn (lk_column "b")] ActNothing [GStr "ignored"]
  /\ (do i <- ins_step (O := go_oracle) fresh_insert (InsOnConflict [GStr "a"; GColumn (lk_column "b"); GConflictNo; GStr "ignored"]); query (O := go_oracle) (StInsert i))
     = Ok ("INSERT INTO ""t"" (""a"", ""b"") ON CONFLICT (""a"", ""b"") DO NOTHING", [])
  /\ (do u <- lk_do_update [GPair (GStr "c") (GInt KInt 1)];
      do i <- ins_step (O := go_oracle) fresh_insert (InsOnConflict [GStr "a"; u]); query (O := go_oracle) (StInsert i))
     = Ok ("INSERT INTO ""t"" (""a"", ""b"") ON CONFLICT (""a"") DO UPDATE SET ""c"" = $1", [GInt KInt 1]).
Proof.
  split; [eexists; split; [reflexivity|]; split; [reflexivity|repeat constructor]|]. split; vm_compute; reflexivity.
Qed.

(* DoUpdate() without pairs is accepted and the clause is not written; a second OnConflict is
   then accepted and keeps the target of the first. *)
Theorem C29_empty_update_refuted :
  (do u <- lk_do_update []; do i <- ins_step (O := go_oracle) fresh_insert (InsOnConflict [GStr "a"; u]); query (O := go_oracle) (StInsert i))
  = Ok ("INSERT INTO ""t"" (""a"", ""b"")", [])
  /\ (do u <- lk_do_update []; do i <- ins_run (O := go_oracle) fresh_insert [InsOnConflict [GStr "a"; u]; InsOnConflict [GStr "b"; GConflictNo]]; query (O := go_oracle) (StInsert i))
     = Ok ("INSERT INTO ""t"" (""a"", ""b"") ON CONFLICT (""a"", ""b"") DO NOTHING", []).
Proof. split; vm_compute; reflexivity. Qed.
Print Assumptions C29_empty_update_refuted.
