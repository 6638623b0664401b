(* Writing a statement panics exactly when something is missing. *)
From Coq Require Import Permutation.
From Verif Require Export GapsP.
Local Open Scope list_scope.

Section Statements.
  Context {O : Oracle} (sorts : forall l, Permutation l (o_sort l)).

  Lemma returning_outcome : forall l, ~ Exists item_wraps_nil l ->
    outcome (when (nonempty l) (w " " +++ write_returning l)) (Exists item_gap l) (Exists nil_in_item l).
  Proof.
    intros l W.
    assert (H : forall x, In x (flat_map selexpr_children l) -> decided x).
    { intros x X. apply written_or_missing. intro K. apply W. apply in_flat_map in X. destruct X as (j & J & X).
      apply Exists_exists. exists j. split; [exact J|]. exists x. split; assumption. }
    apply items_outcome in H. destruct l as [|i l].
    - apply (outcome_mono _ _ _ _ _ (outcome_ok _)); [split; [intros []|intro K; inversion K]|intros []].
    - cbn [nonempty when]. unfold write_returning.
      apply (outcome_mono _ _ _ _ _ (outcome_cat _ _ _ _ _ _ (outcome_w " ") (outcome_cat _ _ _ _ _ _ (outcome_w "RETURNING ") H))); tauto.
  Qed.

  Lemma no_list {A} : forall l : list A, nonempty l = false <-> l = [].
  Proof. intros [|x l]; split; intro H; try reflexivity; discriminate H. Qed.

  Lemma pairs_empty_iff : forall p, pairs_empty p = true <-> p_mode p = PUnknown \/ (p_map p = [] /\ p_exprs p = []).
  Proof.
    intros [m mp cs es]. unfold pairs_empty. cbn [p_mode p_map p_exprs].
    destruct m; [split; intro H; [left; reflexivity|reflexivity]| |];
      rewrite Bool.andb_true_iff, !Bool.negb_true_iff, !no_list; split; intro H; try tauto; destruct H as [H|H]; try discriminate H; exact H.
  Qed.

  Lemma assoc_outcome : forall m cols,
    outcome (map_res (fun c => match pm_get c m with
                               | Some e => Ok e
                               | None => Panic (PMsg "loukoum: invalid state for stmt.PairContainer")
                               end) cols) (Exists (fun c => pm_get c m = None) cols) False.
  Proof.
    intros m cols. induction cols as [|c cols IH]; cbn [map_res].
    - apply (outcome_mono _ _ _ _ _ (outcome_ok _)); [split; [intros []|intro K; inversion K]|intros []].
    - destruct (pm_get c m) as [e|] eqn:E; cbn [bind].
      + destruct IH as [(es & -> & H)|(p & -> & H & K)]; cbn [bind].
        * left. eexists. split; [reflexivity|]. intro K. inversion K; subst; [congruence|contradiction].
        * right. exists p. split; [reflexivity|]. split; [right; exact H|exact K].
      + right. eexists. split; [reflexivity|]. split; [left; exact E|]. left. eexists. split; [reflexivity|]. cbn. tauto.
  Qed.

  Lemma assoc_values : forall m cols es,
    map_res (fun c => match pm_get c m with
                      | Some e => Ok e
                      | None => Panic (PMsg "loukoum: invalid state for stmt.PairContainer")
                      end) cols = Ok es ->
    forall c e, In (c, e) (combine cols es) <-> In c cols /\ pm_get c m = Some e.
  Proof.
    intros m cols. induction cols as [|d cols IH]; intros es H c e; cbn [map_res] in H.
    - injection H as <-. cbn. tauto.
    - destruct (pm_get d m) as [x|] eqn:E; [|discriminate H]. cbn [bind] in H.
      destruct (map_res _ cols) as [ys|] eqn:M; [|discriminate H]. cbn [bind] in H. injection H as <-. cbn [combine In].
      rewrite (IH ys eq_refl). split.
      + intros [K|[K1 K2]]; [injection K as <- <-; split; [left; reflexivity|exact E]|split; [right; exact K1|exact K2]].
      + intros [[<- | K1] K2]; [left; congruence|right; split; assumption].
  Qed.

  Definition found {A} (P : A -> Prop) (o : option A) : Prop := match o with Some x => P x | None => False end.

  Lemma pm_get_in : forall c m e, pm_get c m = Some e -> exists d, In (d, e) m.
  Proof.
    intros c m e. induction m as [|[d x] m IH]; cbn [pm_get]; [discriminate|].
    destruct (col_eqb c d).
    - intro H. injection H as ->. exists d. left. reflexivity.
    - intro H. destruct (IH H) as (d' & I). exists d'. right. exact I.
  Qed.

  Lemma pairs_outcome : forall p, ~ pairs_wrap_nil p -> outcome (write_set p) (pairs_gap p) (nil_in_pairs p).
  Proof.
    intros p W. unfold write_set, write_pairs.
    destruct (pairs_empty p) eqn:E.
    { right. eexists. split; [reflexivity|]. split.
      - apply pairs_empty_iff in E. unfold pairs_gap. destruct (p_mode p); [exact I| |]; left;
          destruct E as [E|E]; try discriminate E; exact E.
      - left. eexists. split; [reflexivity|]. cbn. tauto. }
    assert (NE : ~ (p_mode p = PUnknown \/ (p_map p = [] /\ p_exprs p = []))) by (rewrite <- pairs_empty_iff, E; discriminate).
    unfold pairs_gap, nil_in_pairs. destruct (p_mode p) eqn:M; [tauto| |].
    - unfold pairs_values. rewrite M.
      assert (In_cols : forall c, In c (o_sort (p_cols p)) <-> In c (p_cols p)).
      { intro c. split; apply Permutation_in; [apply Permutation_sym|]; apply sorts. }
      destruct (assoc_outcome (p_map p) (o_sort (p_cols p))) as [(es & Hes & H)|(q & Hq & H & K)].
      2:{ rewrite Hq. cbn [bind]. right. exists q. split; [reflexivity|]. split; [|destruct K as [K|[_ []]]; left; exact K].
          right. apply Exists_exists in H. destruct H as (c & I & N). exists c. rewrite N. split; [apply In_cols; exact I|exact Logic.I]. }
      rewrite Hes. cbn [bind fst snd]. pose proof (assoc_values _ _ _ Hes) as V.
      assert (HP : forall ce, In ce (combine (o_sort (p_cols p)) es) -> outcome (write_pair ce) (gap (snd ce)) (nil_inside (snd ce))).
      { intros [c e] I. apply V in I. destruct I as [_ I]. unfold write_pair. cbn [fst snd].
        apply (outcome_mono _ _ _ _ _ (outcome_cat _ _ _ _ _ _ (outcome_cat _ _ _ _ _ _ (outcome_column c) (outcome_w " = "))
          (written_or_missing e ltac:(intro K; apply W; left; apply Exists_exists; apply pm_get_in in I; destruct I as (d & I); exists (d, e); split; assumption)))); tauto. }
      apply outcome_sep with (sep := ", ") in HP.
      apply (outcome_mono _ _ _ _ _ (outcome_cat _ _ _ _ _ _ (outcome_w "SET ") HP)).
      + rewrite Exists_exists. split.
        * intros [[]|([c e] & I & G)]. right. exists c. apply V in I. destruct I as [I ->]. split; [apply In_cols; exact I|exact G].
        * intros [K|(c & I & G)]; [tauto|]. right. apply In_cols in I.
          destruct (pm_get c (p_map p)) as [e|] eqn:Eg.
          -- exists (c, e). split; [apply V; split; assumption|exact G].
          -- exfalso. apply H. apply Exists_exists. exists c. split; assumption.
      + rewrite Exists_exists. intros [[]|([c e] & I & G)]. left. exists c, e. apply V in I. destruct I as [I Ee].
        split; [apply In_cols; exact I|]. split; assumption.
    - assert (HP : forall x, In x (p_exprs p) -> decided x).
      { intros x X. apply written_or_missing. intro K. apply W. right. apply Exists_exists. exists x. split; assumption. }
      apply outcome_sep with (sep := ", ") in HP.
      apply (outcome_mono _ _ _ _ _ (outcome_cat _ _ _ _ _ _ (outcome_w "SET ") (outcome_cat _ _ _ _ _ _ (outcome_cat _ _ _ _ _ _
        (outcome_cat _ _ _ _ _ _ (outcome_cat _ _ _ _ _ _ (outcome_cat _ _ _ _ _ _ (outcome_cat _ _ _ _ _ _ (outcome_w "(") (outcome_columns _)) (outcome_w ")"))
          (outcome_w " = ")) (outcome_w "(")) HP) (outcome_w ")")))).
      + rewrite Exists_exists. tauto.
      + tauto.
  Qed.

  Lemma conflict_outcome : forall l a, (forall p, a = Some (ActUpdate p) -> ~ pairs_wrap_nil p) ->
    outcome (when (negb (conflict_empty a)) (w " " +++ write_conflict l a)) (conflict_gap a)
            (exists p, a = Some (ActUpdate p) /\ nil_in_pairs p).
  Proof.
    intros l [[|p]|] W; cbn [conflict_empty action_empty negb when conflict_gap].
    - unfold write_conflict. cbn [action_empty].
      apply (outcome_mono _ _ _ _ _ (outcome_cat _ _ _ _ _ _ (outcome_w " ") (outcome_cat _ _ _ _ _ _ (outcome_cat _ _ _ _ _ _ (outcome_w _)
        (outcome_when _ _ _ _ (outcome_cat _ _ _ _ _ _ (outcome_when _ _ _ _ (outcome_cat _ _ _ _ _ _ (outcome_cat _ _ _ _ _ _ (outcome_w _) (outcome_columns l)) (outcome_w _))) (outcome_w _))))
        (outcome_w _)))); tauto.
    - destruct (pairs_empty p) eqn:E; cbn [negb when].
      + apply pairs_empty_iff in E. apply (outcome_mono _ _ _ _ _ (outcome_ok _)); tauto.
      + assert (NE : ~ (p_mode p = PUnknown \/ (p_map p = [] /\ p_exprs p = []))) by (rewrite <- pairs_empty_iff, E; discriminate).
        unfold write_conflict. cbn [action_empty]. rewrite E. cbn [write_action].
        apply (outcome_mono _ _ _ _ _ (outcome_cat _ _ _ _ _ _ (outcome_w " ") (outcome_cat _ _ _ _ _ _ (outcome_cat _ _ _ _ _ _ (outcome_w _)
          (outcome_when _ _ _ _ (outcome_cat _ _ _ _ _ _ (outcome_when _ _ _ _ (outcome_cat _ _ _ _ _ _ (outcome_cat _ _ _ _ _ _ (outcome_w _) (outcome_columns l)) (outcome_w _))) (outcome_w _))))
          (outcome_cat _ _ _ _ _ _ (outcome_w _) (pairs_outcome p (W p eq_refl)))))).
        * assert (D1 : p_map p = [] \/ p_map p <> []) by (destruct (p_map p); [left; reflexivity|right; discriminate]).
          assert (D2 : p_exprs p = [] \/ p_exprs p <> []) by (destruct (p_exprs p); [left; reflexivity|right; discriminate]).
          tauto.
        * intros H. exists p. split; [reflexivity|]. tauto.
    - apply (outcome_mono _ _ _ _ _ (outcome_ok _)); tauto.
  Qed.

  Theorem statement_outcome : forall s, ~ stmt_wraps_nil s -> outcome (write_stmt s) (lacks_part s) (nil_in s).
  Proof.
    intros [s|i|u|d] W; cbn [write_stmt lacks_part nil_in stmt_wraps_nil] in *.
    - exact (written_or_missing (ESelect s) W).
    - unfold write_insert. destruct (no_str (t_name (i_into i))) eqn:En.
      { right. eexists. split; [reflexivity|]. split; [left; exact (no_str_true _ En)|]. left. eexists. split; [reflexivity|]. cbn. tauto. }
      apply no_str_false in En.
      assert (Wv : ~ wraps_nil (i_values i)) by tauto.
      assert (Hv : outcome (unless (cond_empty (i_values i)) (w " " +++ write_values (i_values i))) (clause_gap (i_values i)) (~ blank (i_values i) /\ nil_inside (i_values i))).
      { apply clause_outcome; [exact Wv|]. intro B. unfold write_values, unless.
        destruct (clause_emptiness _ Wv) as [[_ B']|[-> _]]; [contradiction|]. cbn [bind].
        apply (outcome_mono _ _ _ _ _ (outcome_cat _ _ _ _ _ _ (outcome_w " ") (outcome_cat _ _ _ _ _ _ (outcome_w "VALUES ") (written_or_missing _ Wv)))); tauto. }
      assert (Hc := conflict_outcome (i_conflict_target i) (i_conflict_action i) ltac:(intros p Ep K; apply W; right; left; exists p; split; assumption)).
      assert (Hr := returning_outcome (i_returning i) ltac:(tauto)).
      apply (outcome_mono _ _ _ _ _ (outcome_cat _ _ _ _ _ _ (outcome_cat _ _ _ _ _ _ (outcome_cat _ _ _ _ _ _ (outcome_cat _ _ _ _ _ _
        (outcome_cat _ _ _ _ _ _ (outcome_cat _ _ _ _ _ _ (outcome_w _) (outcome_table _))
          (outcome_when _ _ _ _ (outcome_cat _ _ _ _ _ _ (outcome_cat _ _ _ _ _ _ (outcome_w _) (outcome_columns _)) (outcome_w _))))
        Hv) Hc) Hr) (outcome_when _ _ _ _ (outcome_w _)))).
      + tauto.
      + assert (~ blank (i_values i) -> i_values i <> ENil) by (intros B K; apply B; rewrite K; constructor). tauto.
    - unfold write_update. destruct (no_str (t_name (u_table u)) || pairs_empty (u_set u)) eqn:En.
      { right. eexists. split; [reflexivity|]. split.
        - apply Bool.orb_true_iff in En. destruct En as [En|En]; [left; exact (no_str_true _ En)|]. right; left.
          apply pairs_empty_iff in En. unfold pairs_gap. destruct (p_mode (u_set u)); [exact I| |]; left;
            destruct En as [En|En]; try discriminate En; exact En.
        - left. eexists. split; [reflexivity|]. cbn. tauto. }
      apply Bool.orb_false_iff in En. destruct En as [En Ep]. apply no_str_false in En.
      assert (Hp := pairs_outcome (u_set u) ltac:(tauto)).
      assert (Hw := withs_outcome (u_with u) ltac:(intros q Q; assert (K : ~ wraps_nil (wq_sub q)) by
        (intro K; apply W; right; left; apply Exists_exists; exists q; split; assumption); split; [exact K|exact (written_or_missing _ K)])).
      assert (Ww : ~ wraps_nil (u_where u)) by tauto.
      assert (Hh := where_outcome (u_where u) Ww (written_or_missing _ Ww)).
      assert (Hr := returning_outcome (u_returning u) ltac:(tauto)).
      apply (outcome_mono _ _ _ _ _ (outcome_cat _ _ _ _ _ _ (outcome_cat _ _ _ _ _ _ (outcome_cat _ _ _ _ _ _ (outcome_cat _ _ _ _ _ _
        (outcome_cat _ _ _ _ _ _ (outcome_cat _ _ _ _ _ _ (outcome_cat _ _ _ _ _ _ (outcome_cat _ _ _ _ _ _ (outcome_cat _ _ _ _ _ _ (outcome_cat _ _ _ _ _ _
          Hw (outcome_w _)) (outcome_when _ _ _ _ (outcome_w _))) (outcome_w _)) (outcome_table _)) (outcome_w _)) Hp)
          (from_outcome _)) Hh) Hr) (outcome_when _ _ _ _ (outcome_w _)))).
      + tauto.
      + assert (~ blank (u_where u) -> u_where u <> ENil) by (intros B K; apply B; rewrite K; constructor).
        assert (Exists (fun q => wq_name q <> "" /\ ~ blank (wq_sub q) /\ nil_inside (wq_sub q)) (u_with u) ->
                Exists (fun q => nil_inside (wq_sub q) /\ wq_sub q <> ENil) (u_with u)).
        { intro K. apply Exists_exists in K. apply Exists_exists. destruct K as (q & I & _ & B & N). exists q. split; [exact I|].
          split; [exact N|]. intro K. apply B. rewrite K. constructor. }
        tauto.
    - unfold write_delete. destruct (nonempty (d_from d)) eqn:En.
      2:{ right. eexists. split; [reflexivity|]. split; [left; apply no_list; exact En|]. left. eexists. split; [reflexivity|]. cbn. tauto. }
      assert (N : d_from d <> []) by (intro K; apply no_list in K; congruence).
      assert (Ww : ~ wraps_nil (d_where d)) by tauto.
      assert (Hh := where_outcome (d_where d) Ww (written_or_missing _ Ww)).
      assert (Hr := returning_outcome (d_returning d) ltac:(tauto)).
      apply (outcome_mono _ _ _ _ _ (outcome_cat _ _ _ _ _ _ (outcome_cat _ _ _ _ _ _ (outcome_cat _ _ _ _ _ _ (outcome_cat _ _ _ _ _ _
        (outcome_cat _ _ _ _ _ _ (outcome_w _) (outcome_froms _))
        (outcome_when _ _ _ _ (outcome_cat _ _ _ _ _ _ (outcome_w _) (outcome_when _ _ _ _ (outcome_cat _ _ _ _ _ _ (outcome_w _) (outcome_tables _))))))
        Hh) Hr) (outcome_when _ _ _ _ (outcome_w _)))).
      + tauto.
      + assert (~ blank (d_where d) -> d_where d <> ENil) by (intros B K; apply B; rewrite K; constructor). tauto.
  Qed.
End Statements.
