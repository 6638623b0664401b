(* Proofs for C23-C27. *)
From Coq Require Export Permutation Sorted.
From Verif Require Export Assign Sort ClausesP.

Lemma col_eqb_true : forall a b, col_eqb a b = true <-> a = b.
Proof.
  intros [n a] [m b]. unfold col_eqb. cbn. split.
  - intro H. apply andb_prop in H. destruct H as [H K]. apply String.eqb_eq in H, K. congruence.
  - intro H. injection H as -> ->. rewrite !String.eqb_refl. reflexivity.
Qed.
Lemma col_eqb_refl : forall a, col_eqb a a = true.
Proof. intro a. apply col_eqb_true. reflexivity. Qed.
Lemma col_eqb_sym : forall a b, col_eqb a b = col_eqb b a.
Proof.
  intros a b. destruct (col_eqb b a) eqn:E.
  - apply col_eqb_true in E. subst. apply col_eqb_refl.
  - destruct (col_eqb a b) eqn:F; [|reflexivity]. apply col_eqb_true in F. subst. rewrite col_eqb_refl in E. discriminate E.
Qed.

Lemma pm_get_set : forall c e m c', pm_get c' (pm_set c e m) = if col_eqb c' c then Some e else pm_get c' m.
Proof.
  intros c e. induction m as [|[d x] m IH]; intro c'; cbn [pm_set pm_get]; [reflexivity|].
  destruct (col_eqb c d) eqn:E.
  - apply col_eqb_true in E. subst d. cbn [pm_get]. destruct (col_eqb c' c); reflexivity.
  - cbn [pm_get]. rewrite IH. destruct (col_eqb c' d) eqn:F; [|reflexivity].
    apply col_eqb_true in F. subst d. rewrite col_eqb_sym, E. reflexivity.
Qed.

Lemma last_write_app : forall h h' c, last_write (h ++ h')%list c
  = match last_write h' c with Some e => Some e | None => last_write h c end.
Proof.
  induction h as [|[d x] h IH]; intros h' c; cbn [app last_write]; [destruct (last_write h' c); reflexivity|].
  rewrite IH. destruct (last_write h' c); reflexivity.
Qed.
Lemma last_write_in : forall h c, (exists e, last_write h c = Some e) <-> In c (map fst h).
Proof.
  induction h as [|[d x] h IH]; intro c; cbn [last_write map fst].
  - split; [intros (e & E); discriminate E|contradiction].
  - specialize (IH c). destruct (last_write h c) as [e|].
    + split; [intros _; right; apply IH; eauto|eauto].
    + destruct (col_eqb c d) eqn:E.
      * apply col_eqb_true in E. subst d. split; [left; reflexivity|eauto].
      * split; [intros (e & F); discriminate F|]. intros [<-|I]; [rewrite col_eqb_refl in E; discriminate E|].
        destruct (proj2 IH I) as (e & F). discriminate F.
Qed.

(* What a container in key-value mode knows of the assignments h. *)
Definition holds (p : pairs) (h : list (column * expr)) : Prop :=
  (forall c, pm_get c (p_map p) = last_write h c) /\ columns_of h (p_cols p) /\ p_exprs p = []
  /\ (h = [] <-> p_map p = []).

Definition assoc_like (p : pairs) : Prop := p_mode p <> PArray.

Lemma holds_empty : forall m, holds {| p_mode := m; p_map := []; p_cols := []; p_exprs := [] |} [].
Proof.
  intro m. split; [reflexivity|]. split; [split; [constructor|intro c; reflexivity]|]. split; [reflexivity|]. split; reflexivity.
Qed.

Lemma pm_set_nonnil : forall c e m, pm_set c e m <> [].
Proof. intros c e [|[d x] m]; [discriminate|]. cbn. destruct (col_eqb c d); discriminate. Qed.

Lemma add_holds : forall p h c e, assoc_like p -> holds p h ->
  exists p', pairs_add p c e = Ok p' /\ p_mode p' = PAssoc /\ holds p' (h ++ [(c, e)])%list.
Proof.
  intros p h c e M (G & (N & I) & X & Z).
  assert (E : match p_mode p with PUnknown => PAssoc | m => m end = PAssoc).
  { unfold assoc_like in M. destruct (p_mode p); [reflexivity|reflexivity|contradiction]. }
  unfold pairs_add. rewrite E. eexists. split; [reflexivity|]. split; [reflexivity|].
  split; [|split; [|split; [exact X|]]]; cbn [p_map p_cols].
  - intro d. rewrite pm_get_set, last_write_app. cbn [last_write]. rewrite G. destruct (col_eqb d c); reflexivity.
  - rewrite G. destruct (last_write h c) as [x|] eqn:L.
    + split; [exact N|]. intro d. rewrite map_app, in_app_iff, I. cbn. split; [auto|].
      intros [H|[<-|[]]]; [exact H|]. apply last_write_in. eauto.
    + assert (Nc : ~ In c (p_cols p)).
      { intro H. apply I, last_write_in in H. destruct H as (x & H). congruence. }
      split.
      * apply Permutation_NoDup with (c :: p_cols p); [apply Permutation_cons_append|]. constructor; assumption.
      * intro d. rewrite map_app, !in_app_iff, I. reflexivity.
  - split; intro H.
    + destruct h; discriminate H.
    + exfalso. exact (pm_set_nonnil _ _ _ H).
Qed.

Lemma add_panics_never : forall p h kvs, assoc_like p -> holds p h ->
  match map_res assigns kvs with
  | Ok h' => exists p', fold_res merge_pair kvs p = Ok p' /\ holds p' (h ++ h')%list
               /\ p_mode p' = match kvs with [] => p_mode p | _ => PAssoc end
  | Panic x => fold_res merge_pair kvs p = Panic x
  end.
Proof.
  intros p h kvs. revert p h. induction kvs as [|[k v] kvs IH]; intros p h M H; cbn [map_res fold_res].
  - exists p. rewrite app_nil_r. auto.
  - unfold assigns at 1. unfold merge_pair at 1 3. cbn [fst snd].
    destruct (to_column k) as [c|]; [|reflexivity]. cbn [bind].
    destruct (new_expression v) as [e|]; [|reflexivity]. cbn [bind].
    destruct (add_holds p h c (new_wrapper e) M H) as (p1 & E1 & M1 & H1).
    rewrite E1. cbn [bind]. specialize (IH p1 _ ltac:(unfold assoc_like; rewrite M1; discriminate) H1).
    destruct (map_res assigns kvs) as [h'|x]; cbn [bind].
    + destruct IH as (p' & E & H' & M'). exists p'. split; [exact E|]. rewrite <- app_assoc in H'. split; [exact H'|].
      rewrite M', M1. destruct kvs; reflexivity.
    + exact IH.
Qed.

Lemma merge_arg_pairs : forall p g l, pairs_of g = Some l -> merge_arg p g = fold_res merge_pair l p.
Proof. intros p g l E. destruct g; try discriminate E; injection E as <-; try reflexivity.
  cbn [merge_arg fold_res]. match goal with |- ?a = _ => destruct a; reflexivity end.
Qed.

Lemma fold_res_app : forall A B (f : A -> B -> res A) l l' a,
  fold_res f (l ++ l')%list a = do x <- fold_res f l a; fold_res f l' x.
Proof.
  induction l as [|x l IH]; intros l' a; [reflexivity|]. cbn [app fold_res]. destruct (f a x); [apply IH|reflexivity].
Qed.

Lemma merge_set_pairs : forall args kvs p, all_pairs args = Some kvs -> merge_set p args = fold_res merge_pair kvs p.
Proof.
  unfold merge_set. induction args as [|g args IH]; intros kvs p E; cbn [all_pairs fold_res] in *.
  - injection E as <-. reflexivity.
  - destruct (pairs_of g) as [l|] eqn:G; [|discriminate E]. destruct (all_pairs args) as [m|]; [|discriminate E].
    injection E as <-. rewrite fold_res_app, (merge_arg_pairs p g l G). destruct (fold_res merge_pair l p); [|reflexivity].
    cbn [bind]. apply IH. reflexivity.
Qed.

(* Column-list arguments move the container to column-list mode for good. *)
Lemma pairs_set_mode : forall cols p p', fold_res pairs_set cols p = Ok p' -> cols <> [] ->
  p_mode p' = PArray /\ p_mode p <> PAssoc.
Proof.
  induction cols as [|c cols IH]; intros p p' E N; [contradiction|]. cbn [fold_res] in E.
  unfold pairs_set at 1 in E. destruct (p_mode p) eqn:M; cbn [bind] in E; try discriminate E.
  - destruct cols as [|d cols]; [injection E as <-; split; [reflexivity|discriminate]|].
    destruct (IH _ _ E ltac:(discriminate)) as [H _]. split; [exact H|discriminate].
  - destruct cols as [|d cols]; [injection E as <-; split; [cbn; reflexivity|discriminate]|].
    destruct (IH _ _ E ltac:(discriminate)) as [H _]. split; [exact H|discriminate].
Qed.
Lemma concat_res_nonempty : forall g l, to_columns [g] = Ok l -> (exists s, g = GStr s) \/ (exists c, g = GColumn c) -> l <> [].
Proof.
  intros g l E [(s & ->)|(c & ->)].
  - cbn in E. unfold concat_res in E. cbn [map_res] in E. unfold split_columns in E.
    pose proof (split_nonempty "," s) as N. destruct (split_on "," s) as [|i r]; [contradiction|].
    cbn [map_res] in E. destruct (check_column _); [|discriminate E]. cbn [bind] in E.
    destruct (map_res _ r); [|discriminate E]. cbn in E. injection E as <-. discriminate.
  - cbn in E. unfold concat_res in E. cbn [map_res to_columns1] in E. destruct (check_column c); [|discriminate E].
    cbn in E. injection E as <-. discriminate.
Qed.
Lemma merge_pair_mode : forall p kv p', merge_pair p kv = Ok p' -> p_mode p' = PAssoc /\ p_mode p <> PArray.
Proof.
  intros p [k v] p' E. unfold merge_pair in E. cbn [fst snd] in E. destruct (to_column k); [|discriminate E]. cbn [bind] in E.
  destruct (new_expression v); [|discriminate E]. cbn [bind] in E. unfold pairs_add in E.
  destruct (p_mode p) eqn:M; try discriminate E; injection E as <-; split; (reflexivity || discriminate).
Qed.
Lemma merge_pairs_mode : forall kvs p p', fold_res merge_pair kvs p = Ok p' ->
  match kvs with [] => p' = p | _ => p_mode p' = PAssoc /\ p_mode p <> PArray end.
Proof.
  intros [|kv kvs] p p' E; [injection E as <-; reflexivity|]. revert kv p E.
  induction kvs as [|kv' kvs IH]; intros kv p E; cbn [fold_res] in E;
    destruct (merge_pair p kv) as [p1|] eqn:E1; try discriminate E; cbn [bind] in E.
  - injection E as <-. exact (merge_pair_mode _ _ _ E1).
  - split; [exact (proj1 (IH kv' p1 E))|exact (proj2 (merge_pair_mode _ _ _ E1))].
Qed.

(* The kinds of argument: pairs, or columns of the column-list syntax. *)
Lemma merge_arg_kind : forall p g p', merge_arg p g = Ok p' ->
  (exists l, pairs_of g = Some l /\ (l = [] /\ p' = p \/ l <> [] /\ p_mode p' = PAssoc /\ p_mode p <> PArray))
  \/ (((exists s, g = GStr s) \/ (exists c, g = GColumn c)) /\ p_mode p' = PArray /\ p_mode p <> PAssoc).
Proof.
  intros p g p' E.
  assert (A : forall l, pairs_of g = Some l -> merge_arg p g = Ok p' ->
            exists l, pairs_of g = Some l /\ (l = [] /\ p' = p \/ l <> [] /\ p_mode p' = PAssoc /\ p_mode p <> PArray)).
  { intros l L F. exists l. split; [exact L|]. rewrite (merge_arg_pairs p g l L) in F. apply merge_pairs_mode in F.
    destruct l; [left; auto|right; split; [discriminate|exact F]]. }
  destruct g; try discriminate E; try (left; eapply A; [reflexivity|exact E]).
  - right. split; [left; eauto|]. cbn [merge_arg] in E. destruct (to_columns [GStr s]) as [cols|] eqn:C; [|discriminate E].
    cbn [bind] in E. apply (pairs_set_mode cols); [exact E|]. apply (concat_res_nonempty _ _ C). left. eauto.
  - right. split; [right; eauto|]. cbn [merge_arg] in E. destruct (to_columns [GColumn c]) as [cols|] eqn:C; [|discriminate E].
    cbn [bind] in E. apply (pairs_set_mode cols); [exact E|]. apply (concat_res_nonempty _ _ C). right. eauto.
Qed.

Lemma merge_set_array : forall args p p', merge_set p args = Ok p' -> p_mode p = PArray -> p_mode p' = PArray.
Proof.
  unfold merge_set. induction args as [|g args IH]; intros p p' E M; cbn [fold_res] in E; [injection E as <-; exact M|].
  destruct (merge_arg p g) as [p1|] eqn:E1; [|discriminate E]. cbn [bind] in E. apply (IH p1 p' E).
  destruct (merge_arg_kind _ _ _ E1) as [(l & _ & [[_ ->]|(_ & _ & F)])|(_ & F & _)]; [exact M|contradiction|exact F].
Qed.
Lemma merge_set_kind : forall args p p', merge_set p args = Ok p' -> p_mode p' <> PArray -> exists kvs, all_pairs args = Some kvs.
Proof.
  unfold merge_set. induction args as [|g args IH]; intros p p' E M; cbn [fold_res all_pairs] in *; [eauto|].
  destruct (merge_arg p g) as [p1|] eqn:E1; [|discriminate E]. cbn [bind] in E.
  destruct (IH p1 p' E M) as (m & ->).
  destruct (merge_arg_kind _ _ _ E1) as [(l & -> & _)|(_ & F & _)]; [eauto|].
  exfalso. apply M. exact (merge_set_array args p1 p' E F).
Qed.

(* A set built from nothing in key-value mode. *)
Lemma merge_set_holds : forall m args p, m <> PArray ->
  merge_set {| p_mode := m; p_map := []; p_cols := []; p_exprs := [] |} args = Ok p -> p_mode p <> PArray ->
  exists h, history args h /\ holds p h.
Proof.
  intros m args p M E A. destruct (merge_set_kind _ _ _ E A) as (kvs & K).
  rewrite (merge_set_pairs args kvs _ K) in E.
  pose proof (add_panics_never {| p_mode := m; p_map := []; p_cols := []; p_exprs := [] |} [] kvs M (holds_empty m)) as P.
  destruct (map_res assigns kvs) as [h|x] eqn:H; [|congruence].
  destruct P as (p' & E' & H' & _). assert (p' = p) by congruence. subst p'. exists h. split; [exists kvs; auto|exact H'].
Qed.

(* ------------------------------------------------------------------------- *)
(* Update                                                                      *)
(* ------------------------------------------------------------------------- *)

Lemma use_array : forall args p p', p_mode p = PArray ->
  fold_res (fun p g => do e <- new_expression g; pairs_use p e) args p = Ok p' -> p_mode p' = PArray.
Proof.
  induction args as [|g args IH]; intros p p' M E; cbn [fold_res] in E; [injection E as <-; exact M|].
  destruct (new_expression g); [|discriminate E]. cbn [bind] in E. unfold pairs_use at 1 in E. rewrite M in E. cbn [bind] in E.
  apply IH in E; [exact E|reflexivity].
Qed.

Lemma upd_step_set : forall u c u', upd_step u c = Ok u' ->
  match c with
  | UpdSet args => args <> [] /\ merge_set (u_set u) args = Ok (u_set u')
  | UpdUsing _ => p_mode (u_set u) = PArray /\ p_mode (u_set u') = PArray
  | _ => u_set u' = u_set u
  end.
Proof.
  intros u c u' E. destruct c as [|args|args|args|c|c|c|g|args|c]; cbn [upd_step] in E.
  - injection E as <-. reflexivity.
  - destruct args; [discriminate E|]. destruct (merge_set _ _); [|discriminate E]. injection E as <-. split; [discriminate|reflexivity].
  - destruct (p_mode (u_set u)) eqn:M; try discriminate E. destruct args; [discriminate E|].
    destruct (fold_res _ _ _) as [p|] eqn:F; [|discriminate E]. injection E as <-. split; [reflexivity|].
    exact (use_array _ _ _ M F).
  - injection E as <-. reflexivity.
  - destruct (where_where _ _); [|discriminate E]. injection E as <-. reflexivity.
  - destruct (where_and _ _); [|discriminate E]. injection E as <-. reflexivity.
  - destruct (where_or _ _); [|discriminate E]. injection E as <-. reflexivity.
  - destruct (nonempty _); [discriminate E|]. destruct (to_from _); [|discriminate E]. injection E as <-. reflexivity.
  - destruct (nonempty _); [discriminate E|]. destruct (to_selexprs _); [|discriminate E]. injection E as <-. reflexivity.
  - injection E as <-. reflexivity.
Qed.

Lemma upd_run_array : forall cs u u', upd_run u cs = Ok u' -> p_mode (u_set u) = PArray -> p_mode (u_set u') = PArray.
Proof.
  induction cs as [|c cs IH]; intros u u' E M; unfold upd_run in E; cbn [fold_res] in E; [injection E as <-; exact M|].
  destruct (upd_step u c) as [u1|] eqn:E1; [|discriminate E]. apply (IH u1 u' E).
  pose proof (upd_step_set u c u1 E1) as S. destruct c; try (rewrite S; exact M).
  - destruct S as [_ S]. exact (merge_set_array _ _ _ S M).
  - exact (proj2 S).
Qed.
Lemma upd_run_set : forall cs u u', upd_run u cs = Ok u' -> p_mode (u_set u') <> PArray ->
  merge_set (u_set u) (set_args cs) = Ok (u_set u').
Proof.
  induction cs as [|c cs IH]; intros u u' E M; unfold upd_run in E; cbn [fold_res] in E; [injection E as <-; reflexivity|].
  destruct (upd_step u c) as [u1|] eqn:E1; [|discriminate E]. cbn [bind] in E.
  specialize (IH u1 u' E M). pose proof (upd_step_set u c u1 E1) as S.
  cbn [set_args flat_map]. fold (set_args cs). unfold merge_set. rewrite fold_res_app. fold (merge_set (u_set u)).
  destruct c; cbn [merge_set fold_res bind]; try (rewrite <- S; exact IH).
  - destruct S as [_ S]. unfold merge_set in S. rewrite S. exact IH.
  - exfalso. apply M. exact (upd_run_array cs u1 u' E (proj2 S)).
Qed.

(* ------------------------------------------------------------------------- *)
(* Rendering                                                                   *)
(* ------------------------------------------------------------------------- *)

Section Render.
  Context {O : Oracle}.

  Lemma final_values_lookup : forall p h cols, (forall c, pm_get c (p_map p) = last_write h c) ->
    (forall c, In c cols -> In c (map fst h)) ->
    exists es, map_res (value_of p) cols = Ok es /\ final_values h cols es.
  Proof.
    intros p h cols G. induction cols as [|c cols IH]; intro I; [exists []; split; [reflexivity|constructor]|].
    destruct IH as (es & E & F). { intros d Hd. apply I. right. exact Hd. }
    destruct (proj2 (last_write_in h c) (I c (or_introl eq_refl))) as (e & L).
    exists (e :: es). cbn [map_res]. unfold value_of at 1. rewrite G, L. cbn [bind]. rewrite E. split; [reflexivity|].
    constructor; assumption.
  Qed.

  Lemma set_sql_assoc : forall p h, p_mode p = PAssoc -> holds p h -> Permutation (p_cols p) (o_sort (p_cols p)) ->
    exists es, columns_of h (o_sort (p_cols p)) /\ final_values h (o_sort (p_cols p)) es
      /\ set_sql p = do qs <- map_res expr_sql es; Ok (lit "SET " ++ commas (assignments (o_sort (p_cols p)) qs))%list.
  Proof.
    intros p h M (G & (N & I) & _) P.
    destruct (final_values_lookup p h (o_sort (p_cols p)) G) as (es & E & F).
    { intros c Hc. apply I. apply Permutation_in with (o_sort (p_cols p)); [symmetry; exact P|exact Hc]. }
    exists es. split; [|split; [exact F|]].
    - split; [exact (Permutation_NoDup P N)|]. intro c. rewrite <- I. split; apply Permutation_in; [symmetry|]; exact P.
    - unfold set_sql. rewrite M. cbv zeta. rewrite E. reflexivity.
  Qed.

  Lemma pairs_values_assoc : forall p h, p_mode p = PAssoc -> holds p h -> Permutation (p_cols p) (o_sort (p_cols p)) ->
    exists es, columns_of h (o_sort (p_cols p)) /\ final_values h (o_sort (p_cols p)) es
      /\ pairs_values p = Ok (o_sort (p_cols p), es).
  Proof.
    intros p h M (G & (N & I) & _) P.
    destruct (final_values_lookup p h (o_sort (p_cols p)) G) as (es & E & F).
    { intros c Hc. apply I. apply Permutation_in with (o_sort (p_cols p)); [symmetry; exact P|exact Hc]. }
    exists es. split; [|split; [exact F|]].
    - split; [exact (Permutation_NoDup P N)|]. intro c. rewrite <- I. split; apply Permutation_in; [symmetry|]; exact P.
    - unfold pairs_values. rewrite M. cbv zeta.
      change (map_res (fun c => match pm_get c (p_map p) with
                                | Some e => Ok e
                                | None => Panic (PMsg "loukoum: invalid state for stmt.PairContainer")
                                end) (o_sort (p_cols p))) with (map_res (value_of p) (o_sort (p_cols p))).
      rewrite E. reflexivity.
  Qed.
End Render.

(* ------------------------------------------------------------------------- *)
(* Order                                                                       *)
(* ------------------------------------------------------------------------- *)

Lemma str_ltb_irrefl : forall s, str_ltb s s = false.
Proof. induction s as [|a s IH]; [reflexivity|]. cbn. rewrite N.ltb_irrefl, N.eqb_refl, IH. reflexivity. Qed.
Lemma str_ltb_trans : forall a b c, str_ltb a b = true -> str_ltb b c = true -> str_ltb a c = true.
Proof.
  induction a as [|x a IH]; intros [|y b] [|z c] H K; cbn in *; try discriminate; try reflexivity.
  apply orb_prop in H, K. apply orb_true_iff.
  destruct H as [H|H], K as [K|K].
  - left. apply N.ltb_lt in H, K. apply N.ltb_lt. lia.
  - apply andb_prop in K. destruct K as [K _]. apply N.eqb_eq in K. left. rewrite <- K. exact H.
  - apply andb_prop in H. destruct H as [H _]. apply N.eqb_eq in H. left. rewrite H. exact K.
  - apply andb_prop in H, K. destruct H as [H H'], K as [K K']. apply N.eqb_eq in H, K. right.
    rewrite H, K, N.eqb_refl. exact (IH b c H' K').
Qed.
Lemma str_ltb_total : forall a b, str_ltb a b = false -> str_ltb b a = false -> a = b.
Proof.
  induction a as [|x a IH]; intros [|y b] H K; cbn in *; try discriminate; [reflexivity|].
  apply orb_false_elim in H, K. destruct H as [H H'], K as [K K'].
  apply N.ltb_ge in H, K. assert (E : byte x = byte y) by lia.
  rewrite E, N.eqb_refl in H', K'. cbn in H', K'. apply byte_inj in E. subst y. f_equal. apply IH; assumption.
Qed.

Definition unaliased (l : list column) : Prop := Forall (fun c => c_alias c = "") l.

Lemma col_less_name : forall a b, c_alias a = "" -> c_alias b = "" -> col_less a b = str_ltb (c_name a) (c_name b).
Proof. intros a b A B. unfold col_less. rewrite A, B. cbn. apply orb_false_r. Qed.

Lemma unaliased_swo : forall l, unaliased l -> strict_weak_order col_less l.
Proof.
  intros l U. unfold unaliased in U. rewrite Forall_forall in U. split; [|split].
  - intros x Hx. rewrite col_less_name by auto. apply str_ltb_irrefl.
  - intros x y z Hx Hy Hz. rewrite !col_less_name by auto. apply str_ltb_trans.
  - intros x y z Hx Hy Hz. rewrite !col_less_name by auto. intros A B C D.
    rewrite (str_ltb_total _ _ A B), (str_ltb_total _ _ C D). split; apply str_ltb_irrefl.
Qed.

(* strictly increasing names *)
Definition by_name (l : list column) : Prop := StronglySorted (fun a b => str_ltb (c_name a) (c_name b) = true) l.

Lemma unaliased_perm : forall l l', Permutation l l' -> unaliased l -> unaliased l'.
Proof. intros l l' P U. exact (Permutation_Forall P U). Qed.

Lemma sorted_by_name : forall sort l, sort_contract sort -> unaliased l -> NoDup l -> by_name (sort l).
Proof.
  intros sort l C U N. destruct (C l) as [P S]. specialize (S (unaliased_swo l U)).
  pose proof (unaliased_perm _ _ P U) as U'. pose proof (Permutation_NoDup P N) as N'.
  revert S U' N'. generalize (sort l). clear. intro l. induction l as [|c l IH]; intros S U N; [constructor|].
  apply StronglySorted_inv in S. destruct S as [S F]. inversion U as [|? ? Uc Ul]; subst. inversion N as [|? ? Nc Nl]; subst.
  constructor; [exact (IH S Ul Nl)|]. unfold unaliased in Ul. rewrite Forall_forall in *. intros d Hd.
  specialize (F d Hd). rewrite col_less_name in F by auto.
  destruct (str_ltb (c_name c) (c_name d)) eqn:E; [reflexivity|]. exfalso. apply Nc.
  pose proof (str_ltb_total _ _ E F) as Q. destruct c as [cn ca], d as [dn da]. cbn in *. rewrite (Ul _ Hd : da = "") in Hd.
  rewrite Uc, Q. exact Hd.
Qed.

Lemma by_name_unique : forall l l', by_name l -> by_name l' -> unaliased l -> unaliased l' ->
  (forall c, In c l <-> In c l') -> l = l'.
Proof.
  induction l as [|c l IH]; intros [|d l'] S S' U U' H.
  - reflexivity.
  - exfalso. apply (H d). left. reflexivity.
  - exfalso. apply (H c). left. reflexivity.
  - apply StronglySorted_inv in S, S'. destruct S as [S F], S' as [S' F'].
    inversion U as [|? ? Uc Ul]; subst. inversion U' as [|? ? Ud Ul']; subst.
    rewrite Forall_forall in F, F'.
    assert (E : c = d).
    { destruct (proj1 (H c) (or_introl eq_refl)) as [E|Hc]; [symmetry; exact E|].
      destruct (proj2 (H d) (or_introl eq_refl)) as [E|Hd]; [exact E|]. exfalso.
      pose proof (F' c Hc) as A. pose proof (F d Hd) as B. pose proof (str_ltb_trans _ _ _ A B) as T.
      rewrite str_ltb_irrefl in T. discriminate T. }
    subst d. f_equal. apply IH; try assumption. intro x. split; intro Hx.
    + destruct (proj1 (H x) (or_intror Hx)) as [<-|R]; [|exact R]. exfalso.
      pose proof (F c Hx) as T. rewrite str_ltb_irrefl in T. discriminate T.
    + destruct (proj2 (H x) (or_intror Hx)) as [<-|R]; [|exact R]. exfalso.
      pose proof (F' c Hx) as T. rewrite str_ltb_irrefl in T. discriminate T.
Qed.

(* The insertion sort of package sort meets the contract. *)
Lemma insert_perm : forall x p, Permutation (x :: p) (insert_left x p).
Proof.
  intros x. induction p as [|y p IH]; [reflexivity|]. cbn [insert_left]. destruct (col_less x y); [|reflexivity].
  rewrite <- IH. apply perm_swap.
Qed.
Lemma insertion_perm : forall l, Permutation l (insertion_sort l).
Proof.
  intro l. unfold insertion_sort. rewrite <- Permutation_rev.
  assert (A : forall l p, Permutation (l ++ p)%list (fold_left (fun p x => insert_left x p) l p)).
  { induction l0 as [|x l0 IH]; intro p; [reflexivity|]. cbn [fold_left app]. rewrite <- IH.
    rewrite <- (insert_perm x p). apply Permutation_middle. }
  rewrite <- A, app_nil_r. reflexivity.
Qed.

Section InsertionSorted.
  Context (l : list column) (W : strict_weak_order col_less l).

  Lemma less_asym : forall x y, In x l -> In y l -> col_less x y = true -> col_less y x = false.
  Proof.
    destruct W as (I & T & _). intros x y Hx Hy E. destruct (col_less y x) eqn:F; [|reflexivity].
    rewrite <- (I x Hx). symmetry. exact (T x y x Hx Hy Hx E F).
  Qed.
  Lemma less_neg_trans : forall x y z, In x l -> In y l -> In z l ->
    col_less x y = false -> col_less y z = false -> col_less x z = false.
  Proof.
    destruct W as (I & T & N). intros x y z Hx Hy Hz A B.
    destruct (col_less x z) eqn:E; [|reflexivity].
    destruct (col_less y x) eqn:C.
    - rewrite <- B. symmetry. exact (T y x z Hy Hx Hz C E).
    - destruct (col_less z y) eqn:D.
      + rewrite <- A. symmetry. exact (T x z y Hx Hz Hy E D).
      + destruct (N x y z Hx Hy Hz A C B D) as [F _]. congruence.
  Qed.
  Lemma insert_sorted : forall x p, In x l -> incl p l -> StronglySorted (fun b a => col_less b a = false) p ->
    StronglySorted (fun b a => col_less b a = false) (insert_left x p).
  Proof.
    intros x. induction p as [|y p IH]; intros Hx Hp S; [repeat constructor|]. cbn [insert_left].
    apply StronglySorted_inv in S. destruct S as [S F]. assert (Hy : In y l) by (apply Hp; left; reflexivity).
    assert (Hp' : incl p l) by (intros z Hz; apply Hp; right; exact Hz).
    destruct (col_less x y) eqn:E.
    - constructor; [exact (IH Hx Hp' S)|]. apply Forall_forall. intros z Hz.
      apply Permutation_in with (l' := x :: p) in Hz; [|symmetry; apply insert_perm]. destruct Hz as [<-|Hz].
      + exact (less_asym x y Hx Hy E).
      + rewrite Forall_forall in F. exact (F z Hz).
    - constructor; [constructor; assumption|]. constructor; [exact E|]. rewrite Forall_forall in *. intros z Hz.
      exact (less_neg_trans x y z Hx Hy (Hp' z Hz) E (F z Hz)).
  Qed.
  Lemma inserts_sorted : forall m p, incl m l -> incl p l -> StronglySorted (fun b a => col_less b a = false) p ->
    StronglySorted (fun b a => col_less b a = false) (fold_left (fun p x => insert_left x p) m p).
  Proof.
    induction m as [|x m IH]; intros p Hm Hp S; [exact S|]. cbn [fold_left]. apply IH.
    - intros z Hz. apply Hm. right. exact Hz.
    - intros z Hz. apply Permutation_in with (l' := x :: p) in Hz; [|symmetry; apply insert_perm].
      destruct Hz as [<-|Hz]; [apply Hm; left; reflexivity|exact (Hp z Hz)].
    - apply insert_sorted; [apply Hm; left; reflexivity|exact Hp|exact S].
  Qed.
End InsertionSorted.

Lemma sorted_app1 : forall A (R : A -> A -> Prop) l x, StronglySorted R l -> Forall (fun y => R y x) l ->
  StronglySorted R (l ++ [x])%list.
Proof.
  intros A R l x S F. induction S as [|y l S IH G]; [repeat constructor|]. cbn [app].
  apply Forall_cons_iff in F. destruct F as [Fy Fl]. constructor; [exact (IH Fl)|].
  apply Forall_app. split; [exact G|]. repeat constructor. exact Fy.
Qed.
Lemma sorted_rev : forall A (R : A -> A -> Prop) l, StronglySorted R l -> StronglySorted (fun a b => R b a) (rev l).
Proof.
  intros A R l S. induction S as [|y l S IH F]; [constructor|]. cbn [rev]. apply sorted_app1; [exact IH|].
  apply Forall_rev. exact F.
Qed.
Lemma insertion_contract : sort_contract insertion_sort.
Proof.
  intro l. split; [apply insertion_perm|]. intro W. unfold insertion_sort.
  apply (sorted_rev _ (fun b a => col_less b a = false)).
  apply (inserts_sorted l W); [apply incl_refl|apply incl_nil_l|constructor].
Qed.

(* ------------------------------------------------------------------------- *)
(* Arguments that are pairs leave the column-list syntax alone                   *)
(* ------------------------------------------------------------------------- *)

Lemma merge_set_assoc : forall args kvs p p', all_pairs args = Some kvs -> p_mode p <> PArray ->
  merge_set p args = Ok p' -> p_mode p' <> PArray.
Proof.
  intros args kvs p p' A M E. rewrite (merge_set_pairs args kvs p A) in E. apply merge_pairs_mode in E.
  destruct kvs; [subst; exact M|]. destruct E as [-> _]. discriminate.
Qed.
Lemma all_pairs_app : forall a b kvs, all_pairs (a ++ b)%list = Some kvs ->
  exists k1 k2, all_pairs a = Some k1 /\ all_pairs b = Some k2 /\ kvs = (k1 ++ k2)%list.
Proof.
  induction a as [|g a IH]; intros b kvs E; cbn [app all_pairs] in *; [exists [], kvs; auto|].
  destruct (pairs_of g) as [l|]; [|discriminate E]. destruct (all_pairs (a ++ b)%list) as [m|] eqn:F; [|discriminate E].
  injection E as <-. destruct (IH b m F) as (k1 & k2 & -> & -> & ->). exists (l ++ k1)%list, k2.
  rewrite app_assoc. auto.
Qed.
Lemma upd_run_assoc : forall cs u u' kvs, upd_run u cs = Ok u' -> p_mode (u_set u) <> PArray ->
  all_pairs (set_args cs) = Some kvs -> p_mode (u_set u') <> PArray.
Proof.
  induction cs as [|c cs IH]; intros u u' kvs E M A; unfold upd_run in E; cbn [fold_res] in E; [injection E as <-; exact M|].
  destruct (upd_step u c) as [u1|] eqn:E1; [|discriminate E]. cbn [bind] in E.
  pose proof (upd_step_set u c u1 E1) as S. cbn [set_args flat_map] in A. fold (set_args cs) in A.
  apply all_pairs_app in A. destruct A as (k1 & k2 & A1 & A2 & _).
  apply (IH u1 u' k2 E); [|exact A2].
  destruct c; try (rewrite S; exact M).
  - destruct S as [_ S]. exact (merge_set_assoc _ _ _ _ A1 M S).
  - destruct S as [S _]. contradiction.
Qed.

Lemma holds_mode : forall m args p h, m <> PArray ->
  merge_set {| p_mode := m; p_map := []; p_cols := []; p_exprs := [] |} args = Ok p ->
  history args h -> holds p h /\ (h <> [] -> p_mode p = PAssoc) /\ (m = PAssoc -> p_mode p = PAssoc).
Proof.
  intros m args p h M E (kvs & A & H).
  rewrite (merge_set_pairs args kvs _ A) in E.
  pose proof (add_panics_never {| p_mode := m; p_map := []; p_cols := []; p_exprs := [] |} [] kvs M (holds_empty m)) as P.
  rewrite H in P. destruct P as (p' & E' & H' & M'). assert (p' = p) by congruence. subst p'.
  split; [exact H'|]. cbn [p_mode] in M'. destruct kvs.
  - injection H as <-. split; [contradiction|]. intros ->. exact M'.
  - split; intros _; exact M'.
Qed.

(* history is a function of the arguments *)
Lemma history_fun : forall args h h', history args h -> history args h' -> h = h'.
Proof. intros args h h' (k & A & E) (k' & A' & E'). congruence. Qed.
Lemma history_total : forall m args p, m <> PArray ->
  merge_set {| p_mode := m; p_map := []; p_cols := []; p_exprs := [] |} args = Ok p -> p_mode p <> PArray ->
  exists h, history args h.
Proof. intros m args p M E A. destruct (merge_set_holds m args p M E A) as (h & H & _). eauto. Qed.

Lemma last_write_perm : forall h h', Permutation h h' -> NoDup (map fst h) -> forall c, last_write h c = last_write h' c.
Proof.
  intros h h' P N c.
  assert (A : forall h, NoDup (map fst h) -> forall e, last_write h c = Some e <-> In (c, e) h).
  { clear. induction h as [|[d x] h IH]; intros N e; cbn [last_write]; [split; [discriminate|contradiction]|].
    cbn in N. inversion N as [|? ? Nd Nh]; subst. specialize (IH Nh). destruct (last_write h c) as [y|] eqn:L.
    - split.
      + intro E. right. apply IH, E.
      + intros [E|I]; [|apply IH, I]. injection E as -> ->. exfalso. apply Nd. apply last_write_in. eauto.
    - destruct (col_eqb c d) eqn:E.
      + apply col_eqb_true in E. subst d. split.
        * intro E. injection E as ->. left. reflexivity.
        * intros [E|I]; [injection E as ->; reflexivity|]. exfalso. apply Nd. apply in_map_iff. exists (c, e). auto.
      + split; [discriminate|]. intros [F|I]; [injection F as -> ->; rewrite col_eqb_refl in E; discriminate E|].
        apply IH in I. discriminate I. }
  assert (N' : NoDup (map fst h')) by (exact (Permutation_NoDup (Permutation_map fst P) N)).
  destruct (last_write h c) as [e|] eqn:E.
  - apply A in E; [|exact N]. symmetry. apply A; [exact N'|]. exact (Permutation_in _ P E).
  - destruct (last_write h' c) as [e|] eqn:E'; [|reflexivity]. apply A in E'; [|exact N'].
    apply (Permutation_in _ (Permutation_sym P)) in E'. apply A in E'; [|exact N]. congruence.
Qed.
Lemma map_res_perm : forall A B (f : A -> res B) l l' r, Permutation l l' -> map_res f l = Ok r ->
  exists r', map_res f l' = Ok r' /\ Permutation r r'.
Proof.
  intros A B f l l' r P. revert r. induction P; intros r E.
  - exists r. split; [exact E|reflexivity].
  - cbn [map_res] in *. destruct (f x) as [y|]; [|discriminate E]. cbn [bind] in *.
    destruct (map_res f l) as [s|]; [|discriminate E]. injection E as <-.
    destruct (IHP s eq_refl) as (s' & -> & Q). exists (y :: s'). split; [reflexivity|constructor; exact Q].
  - cbn [map_res] in *. destruct (f y) as [b|]; [|discriminate E]. cbn [bind] in *.
    destruct (f x) as [a|]; [|discriminate E]. cbn [bind] in *.
    destruct (map_res f l) as [s|]; [|discriminate E]. injection E as <-. exists (a :: b :: s). split; [reflexivity|constructor].
  - destruct (IHP1 r E) as (r1 & E1 & Q1). destruct (IHP2 r1 E1) as (r2 & E2 & Q2). exists r2.
    split; [exact E2|]. rewrite Q1. exact Q2.
Qed.

(* ------------------------------------------------------------------------- *)
(* Column-list syntax                                                          *)
(* ------------------------------------------------------------------------- *)

Lemma pairs_set_cols : forall cols p p', fold_res pairs_set cols p = Ok p' ->
  p_cols p' = (p_cols p ++ cols)%list /\ p_exprs p' = p_exprs p /\ p_map p' = p_map p.
Proof.
  induction cols as [|c cols IH]; intros p p' E; cbn [fold_res] in E; [injection E as <-; rewrite app_nil_r; auto|].
  unfold pairs_set at 1 in E. destruct (p_mode p); cbn [bind] in E; try discriminate E;
    destruct (IH _ _ E) as (A & B & C); cbn [p_cols p_exprs p_map] in *; rewrite A, B, C, <- app_assoc; auto.
Qed.
Lemma merge_set_list : forall args p p', merge_set p args = Ok p' -> p_mode p' = PArray ->
  exists cols, listed_columns args = Some cols /\ p_cols p' = (p_cols p ++ cols)%list
    /\ p_exprs p' = p_exprs p /\ p_map p' = p_map p.
Proof.
  unfold merge_set. induction args as [|g args IH]; intros p p' E M; cbn [fold_res listed_columns] in *.
  - injection E as <-. exists []. rewrite app_nil_r. auto.
  - destruct (merge_arg p g) as [p1|] eqn:E1; [|discriminate E]. cbn [bind] in E.
    destruct (IH p1 p' E M) as (m & -> & C & X & Z). rewrite C, X, Z.
    destruct (merge_arg_kind _ _ _ E1) as [(l & L & K)|(G & _ & _)].
    + assert (N : is_column_arg g = false) by (destruct g; try reflexivity; discriminate L). rewrite N, L.
      destruct K as [[-> ->]|(_ & F & _)]; [exists m; auto|]. exfalso.
      assert (A : p_mode p' <> PArray); [|contradiction].
      clear -E F. revert p1 F E. induction args as [|g args IH]; intros p1 F E; cbn [fold_res] in E; [injection E as <-; rewrite F; discriminate|].
      destruct (merge_arg p1 g) as [p2|] eqn:E2; [|discriminate E]. cbn [bind] in E. apply (IH p2); [|exact E].
      destruct (merge_arg_kind _ _ _ E2) as [(l & _ & [[_ ->]|(_ & H & _)])|(_ & _ & H)]; [exact F|exact H|contradiction].
    + assert (Y : is_column_arg g = true) by (destruct G as [(s & ->)|(c & ->)]; reflexivity). rewrite Y.
      assert (T : merge_arg p g = do cols <- to_columns [g]; fold_res pairs_set cols p) by (destruct G as [(s & ->)|(c & ->)]; reflexivity).
      rewrite T in E1. destruct (to_columns [g]) as [l|]; [|discriminate E1]. cbn [bind] in E1.
      destruct (pairs_set_cols l p p1 E1) as (A & B & D). exists (l ++ m)%list. rewrite A, B, D, app_assoc. auto.
Qed.
Lemma use_exprs : forall args p p', fold_res (fun p g => do e <- new_expression g; pairs_use p e) args p = Ok p' ->
  exists es, map_res new_expression args = Ok es /\ p_exprs p' = (p_exprs p ++ es)%list /\ p_cols p' = p_cols p /\ p_map p' = p_map p.
Proof.
  induction args as [|g args IH]; intros p p' E; cbn [fold_res map_res] in *; [injection E as <-; exists []; rewrite app_nil_r; auto|].
  destruct (new_expression g) as [e|]; [|discriminate E]. cbn [bind] in *. unfold pairs_use at 1 in E.
  destruct (p_mode p); try discriminate E. cbn [bind] in E. destruct (IH _ _ E) as (es & -> & A & B & C).
  cbn [p_exprs p_cols p_map bind] in *. exists (e :: es). rewrite A, B, C, <- app_assoc. auto.
Qed.
Lemma map_res_app2 : forall A B (f : A -> res B) l m a b, map_res f l = Ok a -> map_res f m = Ok b ->
  map_res f (l ++ m)%list = Ok (a ++ b)%list.
Proof.
  induction l as [|x l IH]; intros m a b E F; cbn [app map_res] in *; [injection E as <-; exact F|].
  destruct (f x) as [y|]; [|discriminate E]. cbn [bind] in *. destruct (map_res f l) as [c|]; [|discriminate E]. injection E as <-.
  rewrite (IH m c b eq_refl F). reflexivity.
Qed.
Lemma listed_app : forall a b l m, listed_columns a = Some l -> listed_columns b = Some m ->
  listed_columns (a ++ b)%list = Some (l ++ m)%list.
Proof.
  induction a as [|g a IH]; intros b l m E F; cbn [app listed_columns] in *; [injection E as <-; exact F|].
  destruct (listed_columns a) as [k|]; [|discriminate E]. rewrite (IH b k m eq_refl F).
  destruct (is_column_arg g).
  - destruct (to_columns [g]) as [c|]; [|discriminate E]. injection E as <-. rewrite app_assoc. reflexivity.
  - destruct (pairs_of g) as [[|x k']|]; try discriminate E. injection E as <-. reflexivity.
Qed.
Lemma upd_run_list : forall cs u u', upd_run u cs = Ok u' -> p_mode (u_set u') = PArray ->
  exists cols es, listed_columns (set_args cs) = Some cols /\ map_res new_expression (using_args cs) = Ok es
    /\ p_cols (u_set u') = (p_cols (u_set u) ++ cols)%list /\ p_exprs (u_set u') = (p_exprs (u_set u) ++ es)%list
    /\ p_map (u_set u') = p_map (u_set u).
Proof.
  induction cs as [|c cs IH]; intros u u' E M; unfold upd_run in E; cbn [fold_res] in E.
  - injection E as <-. exists [], []. rewrite !app_nil_r. auto.
  - destruct (upd_step u c) as [u1|] eqn:E1; [|discriminate E]. cbn [bind] in E.
    destruct (IH u1 u' E M) as (cols & es & A & B & C & D & F). cbn [set_args using_args flat_map].
    fold (set_args cs) (using_args cs). pose proof (upd_step_set u c u1 E1) as S.
    destruct c; cbn [app]; try (exists cols, es; rewrite S in *; auto; fail).
    + destruct S as [_ S].
      assert (M1 : p_mode (u_set u1) = PArray \/ p_mode (u_set u1) <> PArray) by (destruct (p_mode (u_set u1)); auto; right; discriminate).
      destruct M1 as [M1|M1].
      * destruct (merge_set_list _ _ _ S M1) as (l & L & P & Q & R). exists (l ++ cols)%list, es.
        rewrite (listed_app _ _ _ _ L A), C, D, F, P, Q, R, app_assoc. auto.
      * (* only empty maps so far *)
        destruct (merge_set_kind _ _ _ S M1) as (kvs & K). rewrite (merge_set_pairs _ _ _ K) in S.
        apply merge_pairs_mode in S. destruct kvs as [|kv kvs].
        -- assert (L : listed_columns args = Some []).
           { clear -K. induction args as [|g args IH]; [reflexivity|]. cbn [all_pairs listed_columns] in *.
             destruct (pairs_of g) as [l|] eqn:G; [|discriminate K]. destruct (all_pairs args) as [m|]; [|discriminate K].
             injection K as K. apply app_eq_nil in K. destruct K as [-> ->]. rewrite IH by reflexivity.
             destruct g; try discriminate G; reflexivity. }
           exists cols, es. rewrite (listed_app _ _ _ _ L A), C, D, F, S. auto.
        -- exfalso. destruct S as [S _]. 
           assert (X : p_mode (u_set u') = PAssoc); [|congruence].
           clear -E S. revert u1 S E. induction cs as [|c cs IH]; intros u1 S E; cbn [fold_res] in E; [injection E as <-; exact S|].
           destruct (upd_step u1 c) as [u2|] eqn:E2; [|discriminate E]. cbn [bind] in E. apply (IH u2); [|exact E].
           pose proof (upd_step_set u1 c u2 E2) as T. destruct c; try (rewrite T; exact S).
           ++ destruct T as [_ T]. clear -S T. unfold merge_set in T. revert S T. generalize (u_set u1) (u_set u2).
              induction args as [|g args IH]; intros p p' S T; cbn [fold_res] in T; [injection T as <-; exact S|].
              destruct (merge_arg p g) as [q|] eqn:Q; [|discriminate T]. cbn [bind] in T. apply (IH q p'); [|exact T].
              destruct (merge_arg_kind _ _ _ Q) as [(l & _ & [[_ ->]|(_ & H & _)])|(_ & _ & H)]; [exact S|exact H|contradiction].
           ++ destruct T as [T _]. congruence.
    + destruct S as [S S']. cbn [upd_step] in E1. rewrite S in E1. destruct args as [|g args]; [discriminate E1|].
      destruct (fold_res _ (g :: args) (u_set u)) as [p|] eqn:U; [|discriminate E1]. injection E1 as <-. cbn [upd_with_set u_set] in *.
      destruct (use_exprs _ _ _ U) as (e1 & X & P & Q & R). exists cols, (e1 ++ es)%list.
      rewrite (map_res_app2 _ _ _ _ _ _ _ X B), C, D, F, P, Q, R, app_assoc. auto.
Qed.

Lemma upd_run_assoc_kept : forall cs u u', upd_run u cs = Ok u' -> p_mode (u_set u) = PAssoc -> p_mode (u_set u') = PAssoc.
Proof.
  induction cs as [|c cs IH]; intros u u' E M; unfold upd_run in E; cbn [fold_res] in E; [injection E as <-; exact M|].
  destruct (upd_step u c) as [u1|] eqn:E1; [|discriminate E]. cbn [bind] in E. apply (IH u1 u' E).
  pose proof (upd_step_set u c u1 E1) as T. destruct c; try (rewrite T; exact M).
  - destruct T as [_ T]. clear -M T. unfold merge_set in T. revert M T. generalize (u_set u) (u_set u1).
    induction args as [|g args IH]; intros p p' S T; cbn [fold_res] in T; [injection T as <-; exact S|].
    destruct (merge_arg p g) as [q|] eqn:Q; [|discriminate T]. cbn [bind] in T. apply (IH q p'); [|exact T].
    destruct (merge_arg_kind _ _ _ Q) as [(l & _ & [[_ ->]|(_ & H & _)])|(_ & _ & H)]; [exact S|exact H|contradiction].
  - destruct T as [T _]. congruence.
Qed.

(* ------------------------------------------------------------------------- *)
(* Iteration order                                                             *)
(* ------------------------------------------------------------------------- *)

Definition set_like (p p' : pairs) : Prop :=
  p_mode p = p_mode p' /\ (p_mode p <> PAssoc -> p = p')
  /\ (p_mode p <> PArray -> exists h h', holds p h /\ holds p' h'
        /\ (forall c, last_write h c = last_write h' c) /\ unaliased (map fst h)).
Definition like {A} (R : A -> A -> Prop) (a b : res A) : Prop :=
  match a, b with Ok x, Ok y => R x y | Panic _, Panic _ => True | _, _ => False end.

Lemma reiterated_pairs : forall g g', reiterated g g' ->
  match pairs_of g with
  | Some l => exists l', pairs_of g' = Some l' /\ Permutation l l'
  | None => g = g' \/ (exists l, g = GMap l) \/ (exists l, g = GMapAny l)
  end.
Proof.
  intros g g' R. destruct g; cbn [pairs_of] in *; try (left; exact R).
  - destruct g'; try discriminate R. cbn in *. eexists. split; [reflexivity|]. apply Permutation_map. exact R.
  - destruct g'; try discriminate R. cbn in *. eexists. split; [reflexivity|]. exact R.
  - cbn in R. subst g'. eexists. split; [reflexivity|]. reflexivity.
Qed.
Lemma assigns_keys : forall l h, map_res assigns l = Ok h ->
  map (fun kv => to_column (fst kv)) l = map (fun ce => Ok (fst ce)) h.
Proof.
  induction l as [|kv l IH]; intros h E; cbn [map_res map] in *; [injection E as <-; reflexivity|].
  unfold assigns at 1 in E. destruct (to_column (fst kv)) as [c|] eqn:C; [|discriminate E]. cbn [bind] in E.
  destruct (new_expression (snd kv)) as [e|]; [|discriminate E]. cbn [bind] in E.
  destruct (map_res assigns l) as [h1|]; [|discriminate E]. injection E as <-. cbn [map fst]. rewrite (IH h1 eq_refl). reflexivity.
Qed.
Lemma pairs_array_panic : forall kvs p, p_mode p = PArray -> kvs <> [] -> exists x, fold_res merge_pair kvs p = Panic x.
Proof.
  intros kvs p M N. destruct (fold_res merge_pair kvs p) as [q|x] eqn:E; [|eauto].
  apply merge_pairs_mode in E. destruct kvs; [contradiction|]. destruct E as [_ E]. contradiction.
Qed.
Lemma merge_arg_like : forall p p' g g', set_like p p' -> reiterated g g' -> distinct_keys g -> plain_keys g ->
  like set_like (merge_arg p g) (merge_arg p' g').
Proof.
  intros p p' g g' (M & Q & H) R D K. pose proof (reiterated_pairs g g' R) as RP. unfold distinct_keys, plain_keys in *.
  destruct (pairs_of g) as [l|] eqn:G.
  - destruct RP as (l' & G' & P). rewrite (merge_arg_pairs p g l G), (merge_arg_pairs p' g' l' G').
    assert (A : p_mode p = PArray \/ p_mode p <> PArray) by (destruct (p_mode p); auto; right; discriminate).
    destruct A as [A|A].
    + assert (p = p') by (apply Q; rewrite A; discriminate). subst p'.
      destruct l as [|kv l].
      * apply Permutation_nil in P. subst l'. cbn. repeat split; auto; intro X; contradiction.
      * assert (N : l' <> []) by (intro X; subst l'; symmetry in P; apply Permutation_nil in P; discriminate P).
        destruct (pairs_array_panic (kv :: l) p A) as (x & ->); [discriminate|]. destruct (pairs_array_panic l' p A N) as (y & ->). exact I.
    + destruct (H A) as (h & h' & Hp & Hp' & L & U).
      pose proof (add_panics_never p h l A Hp) as X. pose proof (add_panics_never p' h' l' ltac:(unfold assoc_like; rewrite <- M; exact A) Hp') as X'.
      destruct (map_res assigns l) as [h1|x] eqn:E1.
      * destruct (map_res_perm _ _ _ _ _ _ P E1) as (h1' & E1' & P1). rewrite E1' in X'.
        destruct X as (q & Eq & Hq & Mq). destruct X' as (q' & Eq' & Hq' & Mq'). rewrite Eq, Eq'. cbn.
        assert (MM : p_mode q = p_mode q').
        { rewrite Mq, Mq'. destruct l, l'; auto.
          - apply Permutation_nil in P. discriminate P.
          - symmetry in P. apply Permutation_nil in P. discriminate P. }
        split; [exact MM|]. split.
        -- intro NA. destruct l as [|kv l]; [|rewrite Mq in NA; contradiction].
           apply Permutation_nil in P. subst l'. injection Eq as <-. injection Eq' as <-. apply Q. exact NA.
        -- intros _. exists (h ++ h1)%list, (h' ++ h1')%list. split; [exact Hq|]. split; [exact Hq'|]. split.
           ++ intro c. rewrite !last_write_app. rewrite (last_write_perm h1 h1' P1), L; [reflexivity|].
              rewrite (assigns_keys l h1 E1) in D. rewrite <- map_map in D. apply NoDup_map_inv in D. exact D.
           ++ rewrite map_app. apply Forall_app. split; [exact U|]. apply Forall_forall. intros c Hc.
              apply in_map_iff in Hc. destruct Hc as ([c' e] & <- & Hc). cbn.
              assert (I1 : In (Ok c') (map (fun kv => to_column (fst kv)) l)).
              { rewrite (assigns_keys l h1 E1). apply in_map_iff. exists (c', e). split; [reflexivity|exact Hc]. }
              apply in_map_iff in I1. destruct I1 as (kv & Ekv & Hkv). exact (K kv c' Hkv Ekv).
      * rewrite X. destruct (map_res assigns l') as [h1'|x'] eqn:E1'.
        -- destruct (map_res_perm _ _ _ _ _ _ (Permutation_sym P) E1') as (h1 & E1x & _). rewrite E1 in E1x. discriminate E1x.
        -- rewrite X'. exact I.
  - destruct RP as [<-|[(l & ->)|(l & ->)]]; try discriminate G.
    destruct (merge_arg p g) as [q|x] eqn:E.
    + destruct (merge_arg_kind _ _ _ E) as [(l & L & _)|(_ & Mq & N)]; [congruence|].
      assert (p = p') by (apply Q; exact N). subst p'. rewrite E. cbn. repeat split; auto; intro X; contradiction.
    + destruct (merge_arg p' g) as [q'|x'] eqn:E'; [|exact I].
      destruct (merge_arg_kind _ _ _ E') as [(l & L & _)|(_ & _ & N)]; [congruence|].
      assert (p = p') by (apply Q; rewrite M; exact N). subst p'. rewrite E in E'. discriminate E'.
Qed.
Lemma merge_set_like : forall args args' p p', set_like p p' -> Forall2 reiterated args args' ->
  Forall distinct_keys args -> Forall plain_keys args -> like set_like (merge_set p args) (merge_set p' args').
Proof.
  unfold merge_set. intros args args' p p' S F. revert p p' S. induction F as [|g g' args args' R F IH]; intros p p' S D K; cbn [fold_res]; [exact S|].
  apply Forall_cons_iff in D, K. destruct D as [D Ds], K as [K Ks].
  pose proof (merge_arg_like p p' g g' S R D K) as L.
  destruct (merge_arg p g), (merge_arg p' g'); cbn in L; try contradiction; cbn [bind]; [|exact I].
  apply IH; assumption.
Qed.

Definition upd_like (u u' : update) : Prop :=
  set_like (u_set u) (u_set u') /\ u' = upd_with_set u (u_set u').
Lemma upd_like_refl_set : forall u, u = upd_with_set u (u_set u).
Proof. intros []. reflexivity. Qed.
Lemma upd_step_like : forall u u' c c', upd_like u u' ->
  match c, c' with UpdSet l, UpdSet l' => Forall2 reiterated l l' | _, _ => c = c' end ->
  match c with UpdSet l => Forall distinct_keys l /\ Forall plain_keys l | _ => True end ->
  like upd_like (upd_step u c) (upd_step u' c').
Proof.
  intros u u' c c' (S & E) R H. set (p' := u_set u') in *. clearbody p'. subst u'.
  destruct c; try (subst c').
  - cbn. split; [exact S|reflexivity].
  - destruct c' as [|args'| | | | | | | |]; try discriminate R. destruct H as [D K].
    pose proof (merge_set_like args args' (u_set u) p' S R D K) as L.
    destruct R as [|g g' args args' Rg R]; [exact I|]. cbn [upd_step upd_with_set u_set].
    destruct (merge_set (u_set u) (g :: args)), (merge_set p' (g' :: args')); cbn in L; try contradiction; cbn [bind]; [|exact I].
    split; [exact L|reflexivity].
  - cbn [upd_step upd_with_set u_set]. destruct S as (M & Q & X). rewrite <- M.
    destruct (p_mode (u_set u)) eqn:MM; try exact I. destruct args; [exact I|].
    assert (u_set u = p') by (apply Q; discriminate). subst p'.
    destruct (fold_res _ _ (u_set u)) as [p|] eqn:F; [|exact I]. cbn. split; [|reflexivity].
    cbn [u_set upd_with_set]. repeat split; auto; intro Y; apply (use_array _ _ _ MM) in F; contradiction.
  - cbn. split; [exact S|reflexivity].
  - cbn. destruct (where_where _ _); cbn; [split; [exact S|reflexivity]|exact I].
  - cbn. destruct (where_and _ _); cbn; [split; [exact S|reflexivity]|exact I].
  - cbn. destruct (where_or _ _); cbn; [split; [exact S|reflexivity]|exact I].
  - cbn [upd_step upd_with_set u_from]. destruct (nonempty _); [exact I|]. destruct (to_from _); cbn; [split; [exact S|reflexivity]|exact I].
  - cbn [upd_step upd_with_set u_returning]. destruct (nonempty _); [exact I|]. destruct (to_selexprs _); cbn; [split; [exact S|reflexivity]|exact I].
  - cbn. split; [exact S|reflexivity].
Qed.
Lemma upd_run_like : forall cs cs' u u', upd_like u u' -> reiterated_calls cs cs' ->
  Forall distinct_keys (set_args cs) -> Forall plain_keys (set_args cs) ->
  like upd_like (upd_run u cs) (upd_run u' cs').
Proof.
  unfold upd_run. intros cs cs' u u' L R. revert u u' L. induction R as [|c c' cs cs' Rc R IH]; intros u u' L D K; cbn [fold_res]; [exact L|].
  cbn [set_args flat_map] in D, K. apply Forall_app in D, K. destruct D as [D Ds], K as [K Ks].
  assert (S : like upd_like (upd_step u c) (upd_step u' c')).
  { apply upd_step_like; [exact L|exact Rc|]. destruct c; auto. }
  destruct (upd_step u c), (upd_step u' c'); cbn in S; try contradiction; cbn [bind]; [|exact I].
  apply IH; assumption.
Qed.

Section LikeRender.
  Context {O : Oracle}.

  Lemma same_columns : forall h h' cols cols', columns_of h cols -> columns_of h' cols' ->
    (forall c, last_write h c = last_write h' c) -> forall c, In c cols <-> In c cols'.
  Proof.
    intros h h' cols cols' (_ & I) (_ & I') L c. rewrite I, I', <- !last_write_in, L. reflexivity.
  Qed.
  Lemma set_sql_like : forall p p', sort_contract o_sort -> set_like p p' -> set_sql p = set_sql p' /\ pairs_empty p = pairs_empty p'.
  Proof.
    intros p p' C (M & Q & H). destruct (p_mode p) eqn:MM; try (rewrite (Q ltac:(discriminate)); auto; fail).
    destruct (H ltac:(discriminate)) as (h & h' & Hp & Hp' & L & U). symmetry in M.
    destruct (set_sql_assoc p h MM Hp (proj1 (C _))) as (es & Co & Fi & ->).
    destruct (set_sql_assoc p' h' M Hp' (proj1 (C _))) as (es' & Co' & Fi' & ->).
    pose proof Hp as (_ & (N & Ih) & X & Z). pose proof Hp' as (_ & (N' & Ih') & X' & Z').
    assert (UC : unaliased (p_cols p)).
    { unfold unaliased in *. rewrite Forall_forall in *. intros c Hc. apply U, Ih, Hc. }
    assert (UC' : unaliased (p_cols p')).
    { unfold unaliased in *. rewrite Forall_forall in *. intros c Hc. apply UC. apply (same_columns h h' _ _ (conj N Ih) (conj N' Ih') L). exact Hc. }
    assert (EC : o_sort (p_cols p) = o_sort (p_cols p')).
    { apply by_name_unique.
      - apply sorted_by_name; auto.
      - apply sorted_by_name; auto.
      - exact (unaliased_perm _ _ (proj1 (C _)) UC).
      - exact (unaliased_perm _ _ (proj1 (C _)) UC').
      - exact (same_columns h h' _ _ Co Co' L). }
    rewrite EC in *.
    assert (EE : es = es').
    { clear -Fi Fi' L. revert es' Fi'. unfold final_values in *. induction Fi as [|c e cols es Hc F IH]; intros es' Fi'; inversion Fi'; subst; [reflexivity|].
      f_equal; [rewrite L in Hc; congruence|]. apply IH. assumption. }
    subst es'. split; [reflexivity|].
    unfold pairs_empty. rewrite MM, M, X, X'.
    assert (A : h = [] <-> h' = []).
    { assert (B : forall a b, (forall c, last_write a c = last_write b c) -> a = [] -> b = []).
      { intros a b Lab ->. destruct b as [|[c e] b]; [reflexivity|]. exfalso.
        assert (X1 : In c (map fst ((c, e) :: b))) by (left; reflexivity). apply last_write_in in X1.
        destruct X1 as (x & X1). rewrite <- Lab in X1. discriminate X1. }
      split; apply B; [exact L|intro c; symmetry; apply L]. }
    destruct (p_map p) eqn:E1, (p_map p') eqn:E2; try reflexivity; exfalso.
    - assert (h = []) by (apply Z; reflexivity). apply A, Z' in H0. discriminate H0.
    - assert (h' = []) by (apply Z'; reflexivity). apply A, Z in H0. discriminate H0.
  Qed.
  Lemma template_like : forall u u', sort_contract o_sort -> upd_like u u' -> template (StUpdate u) = template (StUpdate u').
  Proof.
    intros u u' C (S & E). destruct (set_sql_like _ _ C S) as [A B]. rewrite !update_sql. rewrite E.
    unfold update_clauses. cbn [upd_with_set u_table u_set u_comment u_with u_only u_from u_where u_returning].
    rewrite A, B. reflexivity.
  Qed.
End LikeRender.

Lemma empty_like : set_like empty_pairs empty_pairs.
Proof.
  repeat split; auto. intros _. exists [], []. repeat split; try apply holds_empty; try constructor; auto; cbn; tauto.
Qed.
Lemma upd_step_table : forall u c u', upd_step u c = Ok u' -> u_table u' = u_table u.
Proof.
  intros u c u' E. destruct c as [|args|args|args|c|c|c|g|args|c]; cbn [upd_step] in E; try (injection E as <-; reflexivity).
  - destruct args; [discriminate E|]. destruct (merge_set _ _); [|discriminate E]. injection E as <-. reflexivity.
  - destruct (p_mode (u_set u)); try discriminate E. destruct args; [discriminate E|].
    destruct (fold_res _ _ _); [|discriminate E]. injection E as <-. reflexivity.
  - destruct (where_where _ _); [|discriminate E]. injection E as <-. reflexivity.
  - destruct (where_and _ _); [|discriminate E]. injection E as <-. reflexivity.
  - destruct (where_or _ _); [|discriminate E]. injection E as <-. reflexivity.
  - destruct (nonempty _); [discriminate E|]. destruct (to_from _); [|discriminate E]. injection E as <-. reflexivity.
  - destruct (nonempty _); [discriminate E|]. destruct (to_selexprs _); [|discriminate E]. injection E as <-. reflexivity.
Qed.
Lemma upd_run_table : forall cs u u', upd_run u cs = Ok u' -> u_table u' = u_table u.
Proof.
  unfold upd_run. induction cs as [|c cs IH]; intros u u' E; cbn [fold_res] in E; [injection E as <-; reflexivity|].
  destruct (upd_step u c) as [u1|] eqn:E1; [|discriminate E]. rewrite (IH u1 u' E). exact (upd_step_table _ _ _ E1).
Qed.
Lemma lk_update_fresh : forall g u, lk_update g = Ok u -> t_name (u_table u) <> ""%string /\ u_set u = empty_pairs.
Proof.
  intros g u E. unfold lk_update in E. destruct (to_table g) as [t|] eqn:T; [|discriminate E]. injection E as <-.
  split; [|reflexivity]. cbn. unfold to_table in T.
  destruct g; try discriminate T; cbn [bind] in T; destruct (no_str _) eqn:N; try discriminate T; injection T as <-;
    unfold no_str in N; apply String.eqb_neq; exact N.
Qed.
