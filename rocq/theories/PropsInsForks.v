(* C59: Insert builders, and the actions of ON CONFLICT, can be shared. *)
From Coq Require Import Lia Permutation.
From Verif Require Import Calls CallsP AssignP AliasP RowsP PropsClauses Mem Forks MemP ForksP ArgsP PropsForks InsForks InsForksP.
Local Open Scope list_scope.

(* ------------------------------------------------------------------------- *)
(* Specification                                                               *)
(* ------------------------------------------------------------------------- *)

(* Every DoUpdate(...) that the program passes to OnConflict satisfies P. *)
Definition each_action (P : pairs -> Prop) (acts : list pairs) (p : list ins_cmd) : Prop :=
  forall i c args a, In (Call i c) p -> call_value acts c = InsOnConflict args -> In (GConflictUpdate a) args -> P a.

(* The result of a call of DoUpdate, whose columns do not have their names in one order and their
   aliases in the other. Columns without aliases never do (unaliased_agreeing). *)
Definition do_update_value (a : pairs) : Prop :=
  (exists args, lk_do_update args = Ok (GConflictUpdate a)) /\ agreeing (p_cols a).

(* A call of DoUpdate that assigns something. *)
Definition assigns_something (a : pairs) : Prop := pairs_empty a = false.

Definition ins_sql {O : Oracle} (i : insert) := (query (StInsert i), named_query (StInsert i)).

(* ------------------------------------------------------------------------- *)
(* Renderings                                                                  *)
(* ------------------------------------------------------------------------- *)

Lemma sort_permuted : forall sort l l', sort_contract sort -> agreeing l -> NoDup l -> Permutation l' l -> sort l' = sort l.
Proof.
  intros sort l l' C G N P.
  assert (G' : agreeing l') by (apply (agreeing_incl l); [intros x Hx; exact (Permutation_in x P Hx)|exact G]).
  apply increasing_unique.
  - apply sorted_increasing; [exact C|exact G'|]. exact (Permutation_NoDup (Permutation_sym P) N).
  - apply sorted_increasing; assumption.
  - apply (agreeing_incl l'); [|exact G']. intros x Hx. exact (Permutation_in x (Permutation_sym (proj1 (C l'))) Hx).
  - intro x. split; intro Hx.
    + apply (Permutation_in x (proj1 (C l))), (Permutation_in x P), (Permutation_in x (Permutation_sym (proj1 (C l'))) Hx).
    + apply (Permutation_in x (proj1 (C l'))), (Permutation_in x (Permutation_sym P)), (Permutation_in x (Permutation_sym (proj1 (C l))) Hx).
Qed.

Lemma do_update_columns : forall a, do_update_value a -> p_mode a = PAssoc -> NoDup (p_cols a).
Proof.
  intros a ((args & E) & _) M. unfold lk_do_update, to_set in E.
  destruct (merge_set _ args) as [p|] eqn:S; [|discriminate E]. injection E as ->.
  destruct (merge_set_holds PAssoc args a ltac:(discriminate) S) as (h & _ & (_ & (N & _) & _)); [congruence|exact N].
Qed.

Lemma same_action_sql {O : Oracle} : forall a l, sort_contract o_sort -> do_update_value a ->
  Permutation l (p_cols a) -> (p_mode a <> PAssoc -> l = p_cols a) -> write_pairs (with_cols a l) = write_pairs a.
Proof.
  intros a l C D P Q. destruct (p_mode a) eqn:M.
  - rewrite Q by discriminate. destruct a; reflexivity.
  - unfold write_pairs, pairs_values. cbn [with_cols p_mode p_cols p_map p_exprs pairs_empty].
    rewrite M, (sort_permuted o_sort (p_cols a) l C (proj2 D) (do_update_columns a D M) P).
    unfold pairs_empty. cbn [with_cols p_mode p_map p_exprs]. reflexivity.
  - rewrite Q by discriminate. destruct a; reflexivity.
Qed.

Definition action_in (P : pairs -> Prop) (i : insert) : Prop :=
  match i_conflict_action i with Some (ActUpdate a) => P a | _ => True end.

Lemma same_insert_sql {O : Oracle} : forall v u, sort_contract o_sort -> action_in do_update_value u -> same_insert v u ->
  ins_sql v = ins_sql u.
Proof.
  intros v u C D [E S].
  assert (T : template (StInsert v) = template (StInsert u)).
  { unfold template. f_equal. cbn [write_stmt]. rewrite E. unfold action_in in D.
    destruct (i_conflict_action u) as [[|a]|] eqn:Eu; cbn [same_action] in S.
    - rewrite S, <- Eu. destruct u; reflexivity.
    - destruct S as (l & -> & P & Q). destruct u as [i1 i2 i3 i4 i5 i6 i7]. cbn [i_conflict_action] in Eu. subst i5.
      unfold write_insert. cbn [ins_with_conflict i_into i_columns i_values i_conflict_target i_conflict_action i_returning i_comment].
      change (conflict_empty (Some (ActUpdate (with_cols a l)))) with (conflict_empty (Some (ActUpdate a))).
      unfold write_conflict, write_action, write_set. rewrite (same_action_sql a l C D P Q). reflexivity.
    - rewrite S, <- Eu. destruct u; reflexivity. }
  unfold ins_sql. rewrite !query_rendered, !named_query_template, T. reflexivity.
Qed.

Lemma loop_action : forall args t t' a, on_conflict_loop args t = Ok (t', ActUpdate a) -> In (GConflictUpdate a) args.
Proof.
  induction args as [|v args IH]; intros t t' a E; [discriminate E|].
  destruct v; try discriminate E; cbn [on_conflict_loop] in E.
  1, 2: match type of E with context [to_column ?x] => destruct (to_column x) end; [|discriminate E]; cbn [bind] in E; right; eapply IH; eassumption.
  destruct (nonempty t); [|discriminate E]. injection E as _ <-. left. reflexivity.
Qed.

Lemma value_run_actions {O : Oracle} : forall P acts p regs, each_action P acts p ->
  (forall u, In (Some u) regs -> action_in P u) ->
  forall u, In (Some u) (value_run lk_insert (fun i c => ins_step i (call_value acts c)) regs p) -> action_in P u.
Proof.
  intros P acts. induction p as [|x p IH]; intros regs E H u Hu; [destruct Hu|].
  assert (E' : each_action P acts p) by (intros i c args a Hc; apply (E i c args a); right; exact Hc).
  assert (Nth : forall i w, nth i regs None = Some w -> action_in P w).
  { intros i w Ei. apply H. rewrite <- Ei. apply nth_In. destruct (Nat.lt_ge_cases i (length regs)) as [L|G]; [exact L|].
    rewrite nth_overflow in Ei by exact G. discriminate Ei. }
  destruct x as [a|i c|i]; cbn [value_run] in Hu.
  - apply (IH (regs ++ [ok (lk_insert a)]) E'); [|exact Hu]. intros v Hv. apply in_app_or in Hv. destruct Hv as [Hv|[Hv|[]]]; [exact (H v Hv)|].
    unfold lk_insert in Hv. cbn in Hv. destruct (to_into a); cbn in Hv; [|discriminate Hv]. injection Hv as <-. exact I.
  - match type of Hu with In _ (value_run _ _ (regs ++ [?y]) p) => apply (IH (regs ++ [y]) E') end; [|exact Hu].
    intros v Hv. apply in_app_or in Hv. destruct Hv as [Hv|[Hv|[]]]; [exact (H v Hv)|].
    destruct (nth i regs None) as [w|] eqn:Ei; [|discriminate Hv]. pose proof (Nth i w Ei) as W.
    destruct (ins_step w (call_value acts c)) as [v'|] eqn:S; cbn in Hv; [|discriminate Hv]. injection Hv as ->.
    specialize (E i c). destruct (call_value acts c) as [y|y|y|y|y|args|y].
    6:{ cbn [ins_step] in S. destruct (conflict_empty (i_conflict_action w)); [|discriminate S].
        destruct args as [|y args]; [discriminate S|]. destruct (on_conflict_loop (y :: args) (i_conflict_target w)) as [[t a]|] eqn:L; [|discriminate S].
        cbn [bind] in S. injection S as <-. unfold action_in. cbn [ins_with_conflict i_conflict_action].
        destruct a as [|a]; [exact I|]. apply (E (y :: args) a (or_introl eq_refl) eq_refl). exact (loop_action _ _ _ _ L). }
    all: match type of S with ins_step _ ?d = _ => destruct (ins_step_other d w [] None I) as [_ S2] end; rewrite S in S2;
      destruct S2 as [_ S2]; unfold action_in in *; rewrite S2; exact W.
  - destruct Hu as [Hu|Hu]; [exact (Nth i u Hu)|]. exact (IH regs E' H u Hu).
Qed.

Lemma insert_outputs {O : Oracle} : forall vs us, sort_contract o_sort -> Forall2 same_inserted vs us ->
  (forall u, In (Some u) us -> action_in do_update_value u) ->
  map (option_map ins_sql) vs = map (option_map ins_sql) us.
Proof.
  intros vs us C H. induction H as [|v u vs us S H IH]; intros P; [reflexivity|]. cbn [map].
  rewrite IH by (intros w Hw; apply P; right; exact Hw). f_equal.
  destruct v as [v|], u as [u|]; cbn in S |- *; try contradiction S; [|reflexivity].
  f_equal. apply same_insert_sql; [exact C|apply P; left; reflexivity|exact S].
Qed.

Lemma each_assigning {O : Oracle} : forall acts p, each_action assigns_something acts p -> assigning acts p.
Proof.
  intros acts p H i c Hc. unfold assigning_call. destruct (call_value acts c) eqn:E; try exact I.
  apply Forall_forall. intros v Hv. destruct v; try exact I. exact (H i c _ _ Hc E Hv).
Qed.

(* ------------------------------------------------------------------------- *)
(* C59                                                                         *)
(* ------------------------------------------------------------------------- *)

(* Programs that call several methods on one builder, pass one action to several builders and
   render any of them at any time: if every action assigns something, they print what they would
   print if builders and actions were values, whatever the capacities chosen by append. *)
Theorem C59_forks {O : Oracle} : forall g acts p, sort_contract o_sort ->
  each_action do_update_value acts p -> each_action assigns_something acts p ->
  map (option_map ins_sql) (ins_memory g acts p) = map (option_map ins_sql) (ins_values acts p).
Proof.
  intros g acts p C D A. apply insert_outputs; [exact C| |].
  - apply insert_free; [intro l; apply (proj1 (C l))|]. apply each_assigning. exact A.
  - apply value_run_actions; [exact D|intros u []].
Qed.
Print Assumptions C59_forks.

(* The statement of builder k is the one of its own chain of calls, whatever else the program
   did with the builders and the actions of that chain. *)
Theorem C59_forks_chain {O : Oracle} : forall g acts p k a cs, sort_contract o_sort ->
  each_action do_update_value acts p -> each_action assigns_something acts p -> chain p k a cs ->
  option_map ins_sql (last (ins_memory g acts (p ++ [Show k])) None)
  = option_map ins_sql (ok (do i <- lk_insert a; ins_run i (map (call_value acts) cs))).
Proof.
  intros g acts p k a cs C D A Hc.
  assert (Ex : forall P, each_action P acts p -> each_action P acts (p ++ [Show k])).
  { intros P H i c args x Hi. apply (H i c args x). apply in_app_or in Hi. destruct Hi as [Hi|[Hi|[]]]; [exact Hi|discriminate Hi]. }
  assert (L : forall l : list (option insert), option_map ins_sql (last l None) = last (map (option_map ins_sql) l) None).
  { induction l as [|x l IH]; [reflexivity|]. destruct l; [reflexivity|exact IH]. }
  rewrite L, C59_forks, <- L; [|exact C|apply Ex; exact D|apply Ex; exact A]. f_equal.
  unfold ins_values. rewrite (value_shows lk_insert (fun i c => ins_step i (call_value acts c)) p k a cs Hc). f_equal.
  destruct (lk_insert a) as [i|e]; [|reflexivity]. cbn [bind]. clear. revert i. unfold ins_run.
  induction cs as [|c cs IH]; intro i; [reflexivity|]. cbn [map fold_res]. destruct (ins_step i (call_value acts c)); cbn [bind]; [apply IH|reflexivity].
Qed.
Print Assumptions C59_forks_chain.

(* With any actions, if no builder is the receiver of two calls. *)
Theorem C59_once {O : Oracle} : forall g acts p, sort_contract o_sort ->
  each_action do_update_value acts p -> NoDup (receivers p) ->
  map (option_map ins_sql) (ins_memory g acts p) = map (option_map ins_sql) (ins_values acts p).
Proof.
  intros g acts p C D A. apply insert_outputs; [exact C| |].
  - apply insert_linear; [intro l; apply (proj1 (C l))|]. exact A.
  - apply value_run_actions; [exact D|intros u []].
Qed.
Print Assumptions C59_once.

(* Whatever the columns: the same statement but for the order of the assignments. *)
Theorem C59_any_columns {O : Oracle} : forall g acts p, (forall l, Permutation l (o_sort l)) ->
  each_action assigns_something acts p \/ NoDup (receivers p) ->
  Forall2 same_inserted (ins_memory g acts p) (ins_values acts p).
Proof.
  intros g acts p P [H|H]; [apply insert_free; [exact P|apply each_assigning; exact H]|apply insert_linear; assumption].
Qed.
Print Assumptions C59_any_columns.

(* The second hypothesis of C59_forks is needed: after OnConflict("a", "b", "c", DoUpdate()),
   which leaves the clause empty but keeps the target, the two forks share the array of the
   target, and the second replaces the last column of the first. *)
Definition no_assignment : gval := GConflictUpdate {| p_mode := PAssoc; p_map := []; p_cols := []; p_exprs := [] |}.
Definition two_targets : list ins_cmd :=
  [New (GStr "t"); Call 0 (IOther (InsOnConflict [GStr "a"; GStr "b"; GStr "c"; no_assignment]));
   Call 1 (IOther (InsOnConflict [GStr "d"; GConflictNo])); Show 2;
   Call 1 (IOther (InsOnConflict [GStr "e"; GConflictNo])); Show 2].
Theorem C59_empty_action_shares_target :
  lk_do_update [] = Ok no_assignment
  /\ map (option_map (fun i => query (O := go_oracle) (StInsert i))) (ins_memory (O := go_oracle) go_growth [] two_targets)
     = [Some (Ok ("INSERT INTO ""t"" ON CONFLICT (""a"", ""b"", ""c"", ""d"") DO NOTHING", []));
        Some (Ok ("INSERT INTO ""t"" ON CONFLICT (""a"", ""b"", ""c"", ""e"") DO NOTHING", []))].
Proof. split; [reflexivity|]. vm_compute. reflexivity. Qed.
Print Assumptions C59_empty_action_shares_target.

(* Whatever the growth policy: when the array of the target of a builder whose clause is empty
   has room for one more column, two forks by OnConflict end with the same target. *)
Theorem C59_spare_capacity_shares_target {O : Oracle} : forall g acts h b c c',
  valid (ih_targets h) (ir_target b) -> (sl_len (ir_target b) < sl_cap (ir_target b))%nat ->
  conflict_empty (i_conflict_action (ins_view h b)) = true -> no_str (c_name c) = false -> no_str (c_name c') = false ->
  let call := fun c => IConflict [Plain (GColumn c); Plain GConflictNo] in
  let h1 := fst (ins_do g acts h b (call c)) in
  let h2 := fst (ins_do g acts h1 b (call c')) in
  exists b1 b2, ins_do g acts h b (call c) = (h1, Ok b1) /\ ins_do g acts h1 b (call c') = (h2, Ok b2)
    /\ i_conflict_target (ins_view h1 b1) = i_conflict_target (ins_view h b) ++ [c]
    /\ i_conflict_target (ins_view h2 b1) = i_conflict_target (ins_view h b) ++ [c'].
Proof.
  intros g acts h b c c' V L E Nc Nc' call.
  assert (Es : forall hh x, snd (append zero_column (g_cols g) hh (ir_target b) [x])
             = {| sl_ptr := sl_ptr (ir_target b); sl_len := sl_len (ir_target b) + 1; sl_cap := sl_cap (ir_target b) |}).
  { intros hh x. unfold append. cbn [length]. replace (sl_len (ir_target b) + 1 <=? sl_cap (ir_target b))%nat with true; [reflexivity|].
    symmetry. apply Nat.leb_le. lia. }
  assert (Do : forall hh x, conflict_empty (i_conflict_action (ins_view hh b)) = true -> no_str (c_name x) = false ->
    ins_do g acts hh b (call x)
    = ({| ih_targets := fst (append zero_column (g_cols g) (ih_targets hh) (ir_target b) [x]); ih_sets := ih_sets hh |},
       Ok {| ir_rest := ins_with_conflict (ir_rest b) [] (Some ActNothing);
             ir_target := snd (append zero_column (g_cols g) (ih_targets hh) (ir_target b) [x]); ir_set := None |})).
  { intros hh x Ex Nx. unfold call. cbn [ins_do]. unfold ref_on_conflict. rewrite Ex. cbn [ref_conflict to_column bind]. rewrite Nx. reflexivity. }
  cbv zeta. rewrite (Do h c E Nc). cbn [fst].
  rewrite (Do _ c') by (try exact Nc'; exact E). cbn [fst ih_targets ih_sets].
  eexists. eexists. split; [reflexivity|]. split; [reflexivity|].
  unfold ins_view. cbn [ins_with_conflict i_conflict_target ir_rest ir_target ih_targets].
  pose proof (append_view zero_column (g_cols g) (ih_targets h) (ir_target b) [c] V) as (W1 & _ & _).
  pose proof (append_valid zero_column (g_cols g) (ih_targets h) (ir_target b) [c] (ir_target b) V V) as V1.
  pose proof (append_view zero_column (g_cols g) _ (ir_target b) [c'] V1) as (W2 & _ & _).
  assert (Eb : view (fst (append zero_column (g_cols g) (ih_targets h) (ir_target b) [c])) (ir_target b) = view (ih_targets h) (ir_target b)).
  { apply append_others; [exact V|exact V|]. right. right. apply le_n. }
  cbv zeta in *. split; [exact W1|]. rewrite Es in W2 |- *. rewrite Eb in W2. exact W2.
Qed.
Print Assumptions C59_spare_capacity_shares_target.

(* ------------------------------------------------------------------------- *)
(* The hypotheses hold                                                         *)
(* ------------------------------------------------------------------------- *)

(* One action, given to two forks of a builder and to another builder; rendered in between. *)
Definition shared_args : list gval := [GPair (GStr "b") (GInt KInt 2); GPair (GStr "a") (GInt KInt 1)].
Definition shared_action : pairs :=
  {| p_mode := PAssoc; p_map := [(lk_column "b", EValue (GInt KInt 2)); (lk_column "a", EValue (GInt KInt 1))];
     p_cols := [lk_column "b"; lk_column "a"]; p_exprs := [] |}.
Definition sharing : list ins_cmd :=
  [New (GStr "t"); Call 0 (IOther (InsValues [GStr "v"])); Call 1 (IConflict [Plain (GStr "k"); Act 0]); Show 2;
   Call 1 (IConflict [Plain (GStr "m"); Act 0]); Call 3 (IOther (InsReturning [GStr "id"]));
   New (GStr "u"); Call 5 (IConflict [Plain (GStr "k"); Plain (GStr "l"); Act 0]); Show 6; Show 4; Show 2; Show 1].

Example shared_action_made : lk_do_update shared_args = Ok (GConflictUpdate shared_action).
Proof. vm_compute. reflexivity. Qed.

Example sharing_actions : each_action (fun a => a = shared_action) [shared_action] sharing.
Proof.
  intros i c args a Hc Ec Ha. unfold sharing in Hc.
  repeat (destruct Hc as [Hc|Hc]; [try discriminate Hc; injection Hc as <- <-; try discriminate Ec; injection Ec as <-;
    repeat (destruct Ha as [Ha|Ha]; [try discriminate Ha; injection Ha as <-; reflexivity|]); destruct Ha|]).
  destruct Hc.
Qed.

Example sharing_hypotheses : each_action do_update_value [shared_action] sharing
  /\ each_action assigns_something [shared_action] sharing /\ ~ NoDup (receivers sharing).
Proof.
  split; [|split].
  - intros i c args a Hc Ec Ha. rewrite (sharing_actions i c args a Hc Ec Ha). split; [exists shared_args; exact shared_action_made|].
    apply unaliased_agreeing. repeat constructor.
  - intros i c args a Hc Ec Ha. rewrite (sharing_actions i c args a Hc Ec Ha). reflexivity.
  - intro H. vm_compute in H. inversion H as [|? ? _ H1]. inversion H1 as [|? ? N _]. apply N. left. reflexivity.
Qed.

Example sharing_prints :
  map (option_map (fun i => query (O := go_oracle) (StInsert i))) (ins_memory (O := go_oracle) go_growth [shared_action] sharing)
  = [Some (Ok ("INSERT INTO ""t"" VALUES ($1) ON CONFLICT (""k"") DO UPDATE SET ""a"" = $2, ""b"" = $3", [GStr "v"; GInt KInt 1; GInt KInt 2]));
     Some (Ok ("INSERT INTO ""u"" ON CONFLICT (""k"", ""l"") DO UPDATE SET ""a"" = $1, ""b"" = $2", [GInt KInt 1; GInt KInt 2]));
     Some (Ok ("INSERT INTO ""t"" VALUES ($1) ON CONFLICT (""m"") DO UPDATE SET ""a"" = $2, ""b"" = $3 RETURNING ""id""", [GStr "v"; GInt KInt 1; GInt KInt 2]));
     Some (Ok ("INSERT INTO ""t"" VALUES ($1) ON CONFLICT (""k"") DO UPDATE SET ""a"" = $2, ""b"" = $3", [GStr "v"; GInt KInt 1; GInt KInt 2]));
     Some (Ok ("INSERT INTO ""t"" VALUES ($1)", [GStr "v"]))].
Proof. vm_compute. reflexivity. Qed.

(* Rendering does change the memory: the columns of the action are sorted after the first Show. *)
Example sharing_sorts :
  option_map (fun i => match i_conflict_action i with Some (ActUpdate a) => map c_name (p_cols a) | _ => [] end)
    (last (ins_memory (O := go_oracle) go_growth [shared_action] (sharing ++ [Show 2])) None) = Some ["a"; "b"]%string.
Proof. vm_compute. reflexivity. Qed.

Example sharing_chain : chain sharing 4 (GStr "t") [IOther (InsValues [GStr "v"]); IConflict [Plain (GStr "m"); Act 0]; IOther (InsReturning [GStr "id"])].
Proof.
  apply (chain_call sharing 4 3 _ _ [_; _]); [reflexivity|lia|]. apply (chain_call sharing 3 1 _ _ [_]); [reflexivity|lia|].
  apply (chain_call sharing 1 0 _ _ []); [reflexivity|lia|]. apply chain_new. reflexivity.
Qed.

(* A builder that is used once after an empty action: only C59_once says what it prints. *)
Definition retried : list ins_cmd := firstn 4 two_targets.
Example retried_hypotheses : NoDup (receivers retried) /\ each_action do_update_value [] retried
  /\ ~ each_action assigns_something [] retried.
Proof.
  split; [|split].
  - repeat constructor; cbn; intuition discriminate.
  - assert (N : do_update_value {| p_mode := PAssoc; p_map := []; p_cols := []; p_exprs := [] |}).
    { split; [exists []; reflexivity|intros x y []]. }
    intros i c args a Hc Ec Ha. unfold retried, two_targets, no_assignment in Hc. cbn [firstn] in Hc.
    repeat (destruct Hc as [Hc|Hc]; [try discriminate Hc; injection Hc as <- <-; injection Ec as <-;
      repeat (destruct Ha as [Ha|Ha]; [try discriminate Ha; injection Ha as <-; exact N|]); destruct Ha|]).
    destruct Hc.
  - intro H. specialize (H 0%nat _ _ _ (or_intror (or_introl eq_refl)) eq_refl (or_intror (or_intror (or_intror (or_introl eq_refl))))).
    discriminate H.
Qed.

(* A builder whose array has room, as after the first call of two_targets. *)
Example room_left : exists (h : ins_heap) (b : ins_ref), valid (ih_targets h) (ir_target b)
  /\ (sl_len (ir_target b) < sl_cap (ir_target b))%nat /\ conflict_empty (i_conflict_action (ins_view h b)) = true
  /\ i_conflict_target (ins_view h b) = map lk_column ["a"; "b"; "c"]%string.
Proof.
  pose (b0 := {| ir_rest := ins_with_into new_insert (lk_table "t"); ir_target := nil_slice; ir_set := None |}).
  pose (r := ins_do (O := go_oracle) go_growth [] {| ih_targets := []; ih_sets := [] |} b0
    (IOther (InsOnConflict [GStr "a"; GStr "b"; GStr "c"; no_assignment]))).
  destruct (snd r) as [b|] eqn:E; [|vm_compute in E; discriminate E]. exists (fst r), b. vm_compute in E. injection E as <-.
  split; [right; vm_compute; repeat split; lia|]. split; [vm_compute; lia|]. split; reflexivity.
Qed.
