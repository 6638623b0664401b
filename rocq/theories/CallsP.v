(* Proofs for C18 and C19. *)
From Verif Require Export Calls.

Lemma same_refl : forall A (a : res A), same_outcome a a.
Proof. intros A [a|p]; cbn; auto. Qed.
Lemma same_sym : forall A (a b : res A), same_outcome a b -> same_outcome b a.
Proof. intros A [a|p] [b|q]; cbn; auto. Qed.
Lemma same_trans : forall A (a b c : res A), same_outcome a b -> same_outcome b c -> same_outcome a c.
Proof. intros A [a|p] [b|q] [c|r]; cbn; intros H K; try contradiction; auto. congruence. Qed.
Lemma same_bind : forall A B (a b : res A) (f : A -> res B), same_outcome a b -> same_outcome (bind a f) (bind b f).
Proof. intros A B [a|p] [b|q] f H; cbn in *; try contradiction; auto. subst. apply same_refl. Qed.

Lemma fold_app : forall A B (f : A -> B -> res A) l l' a,
  fold_res f (l ++ l')%list a = do x <- fold_res f l a; fold_res f l' x.
Proof.
  induction l as [|x l IH]; intros l' a; [reflexivity|]. cbn [app fold_res].
  destruct (f a x); [apply IH|reflexivity].
Qed.

(* The fields of one group of clauses of the first statement, all else of the second. *)
Definition put (g : sel_group) (a q : select) : select :=
  match g with
  | GDistinctOnGroupBy => with_group_by (with_distinct_on q (s_distinct_on a)) (s_group_by a)
  | GDistinct => with_distinct q (s_distinct a)
  | GColumns => with_exprs q (s_exprs a)
  | GFromClause => with_from q (s_from a)
  | GJoins => with_joins q (s_joins a)
  | GWith => with_with q (s_with a)
  | GWhere => with_where q (s_where a)
  | GHaving => with_having q (s_having a)
  | GOrderBy => with_order_by q (s_order_by a)
  | GLimitClause => with_limit q (s_limit a)
  | GOffsetSuffixPrefix => with_prefix (with_suffix (with_offset q (s_offset a)) (s_suffix a)) (s_prefix a)
  | GComment => with_comment q (s_comment a)
  end.

Lemma put_other : forall g g' a b q, g <> g' -> put g (put g' a b) q = put g b q.
Proof. intros g g' a b q H. destruct g, g'; try (contradiction H; reflexivity); reflexivity. Qed.
Lemma put_comm : forall g g' a b q, g <> g' -> put g a (put g' b q) = put g' b (put g a q).
Proof. intros g g' a b q H. destruct g, g'; try (contradiction H; reflexivity); reflexivity. Qed.
Lemma put_put : forall g a b q, put g a (put g b q) = put g a q.
Proof. intros [] a b q; reflexivity. Qed.
Lemma put_get : forall g a b q, put g (put g a b) q = put g a q.
Proof. intros [] a b q; reflexivity. Qed.
Lemma put_same : forall g q, put g q q = q.
Proof. intros [] []; reflexivity. Qed.

(* A call reads and writes the fields of its group only. *)
Lemma step_local : forall c q z,
  sel_step q c = do q' <- sel_step (put (group_of c) q z) c; Ok (put (group_of c) q' q).
Proof.
  intros c q z. destruct c; cbn [sel_step group_of put].
  - cbn [s_group_by with_group_by]. destruct (nonempty (s_group_by q)); [reflexivity|].
    destruct (to_columns args) as [l|]; [|reflexivity]. cbn [bind]. destruct (nonempty l); reflexivity.
  - reflexivity.
  - destruct (to_selexprs _); reflexivity.
  - cbn [s_from with_from]. destruct (nonempty (s_from q)); [reflexivity|]. destruct (to_from args); reflexivity.
  - unfold sel_join.
    assert (A : forall j, add_join q j = do q' <- add_join (with_joins z (s_joins q)) j; Ok (with_joins q (s_joins q'))).
    { intro j. unfold add_join. destruct (join_empty j) as [[]|]; reflexivity. }
    destruct args as [|a [|b [|c [|d args]]]]; try reflexivity.
    + destruct a; try reflexivity; cbn [bind]; [destruct (must_parse_join s); [apply A|reflexivity]|apply A].
    + destruct (handle_join a b); [apply A|reflexivity].
    + destruct (handle_join a b); [|reflexivity]. cbn [bind]. destruct c; try reflexivity. apply A.
  - reflexivity.
  - destruct (is_nil c); [reflexivity|]. cbn [s_where with_where]. destruct (where_where (s_where q) c); reflexivity.
  - destruct (is_nil c); [reflexivity|]. cbn [s_where with_where]. destruct (where_and (s_where q) c); reflexivity.
  - cbn [s_where with_where]. destruct (where_or (s_where q) c); reflexivity.
  - cbn [s_group_by with_group_by]. destruct (nonempty (s_group_by q)); [reflexivity|].
    destruct (to_columns args) as [l|]; [|reflexivity]. cbn [bind]. destruct (nonempty l); reflexivity.
  - cbn [s_having with_having]. destruct (cond_empty (s_having q)) as [[]|]; reflexivity.
  - reflexivity.
  - cbn [s_limit with_limit]. destruct (s_limit q =? 0)%Z; [|reflexivity]. destruct (to_limit v); reflexivity.
  - cbn [s_offset with_offset with_prefix with_suffix]. destruct (s_offset q =? 0)%Z; [|reflexivity].
    destruct (to_offset v); reflexivity.
  - cbn [s_offset with_offset with_prefix with_suffix]. destruct (s_offset q =? 0)%Z; [|reflexivity].
    destruct (to_suffix v); reflexivity.
  - cbn [s_offset with_offset with_prefix with_suffix]. destruct (s_offset q =? 0)%Z; [|reflexivity].
    destruct (to_prefix v); reflexivity.
  - reflexivity.
Qed.

Lemma steps_commute : forall a b q, group_of a <> group_of b ->
  same_outcome (do q' <- sel_step q a; sel_step q' b) (do q' <- sel_step q b; sel_step q' a).
Proof.
  intros a b q H.
  rewrite (step_local a q new_select), (step_local b q new_select).
  destruct (sel_step (put (group_of a) q new_select) a) as [qa|pa] eqn:Ea;
  destruct (sel_step (put (group_of b) q new_select) b) as [qb|pb] eqn:Eb; cbn [bind].
  - rewrite (step_local b (put (group_of a) qa q) new_select), (step_local a (put (group_of b) qb q) new_select).
    rewrite (put_other (group_of b) (group_of a)), (put_other (group_of a) (group_of b)) by congruence.
    rewrite Ea, Eb. cbn. apply put_comm. congruence.
  - rewrite (step_local b (put (group_of a) qa q) new_select), (put_other (group_of b) (group_of a)) by congruence.
    rewrite Eb. exact I.
  - rewrite (step_local a (put (group_of b) qb q) new_select), (put_other (group_of a) (group_of b)) by congruence.
    rewrite Ea. exact I.
  - exact I.
Qed.

(* A call can be moved to the front of calls on other clauses. *)
Lemma move_front : forall pre a post q, (forall b, In b pre -> group_of b <> group_of a) ->
  same_outcome (sel_run q (pre ++ a :: post)%list) (sel_run q (a :: pre ++ post)%list).
Proof.
  induction pre as [|b pre IH]; intros a post q H; [apply same_refl|].
  unfold sel_run in *. cbn [app fold_res].
  apply same_trans with (do q' <- sel_step q b; do q'' <- sel_step q' a; fold_res sel_step (pre ++ post)%list q'').
  - destruct (sel_step q b) as [q'|]; [|exact I]. cbn [bind].
    apply (IH a post q'). intros c Hc. apply H. right. exact Hc.
  - pose proof (steps_commute b a q (H b (or_introl eq_refl))) as C.
    apply (same_bind _ _ _ _ (fun q'' => fold_res sel_step (pre ++ post)%list q'')) in C.
    eapply same_trans; [|eapply same_trans; [exact C|]].
    + destruct (sel_step q b); apply same_refl.
    + destruct (sel_step q a); apply same_refl.
Qed.

Lemma first_of_group : forall g cs a rest, filter (of_group g) cs = a :: rest ->
  exists pre post, cs = (pre ++ a :: post)%list /\ (forall b, In b pre -> group_of b <> g) /\ group_of a = g.
Proof.
  intros g. induction cs as [|b cs IH]; intros a rest E; [discriminate E|].
  cbn [filter] in E. unfold of_group in E at 1. destruct (group_eq (group_of b) g) as [Eg|Ng].
  - injection E as -> _. exists [], cs. split; [reflexivity|]. split; [contradiction|exact Eg].
  - destruct (IH a rest E) as (pre & post & -> & Hp & Ha). exists (b :: pre), post.
    split; [reflexivity|]. split; [|exact Ha]. intros c [<-|Hc]; [exact Ng|apply Hp, Hc].
Qed.

Lemma reordered_run : forall cs cs' q, reordered cs cs' -> same_outcome (sel_run q cs) (sel_run q cs').
Proof.
  induction cs as [|a cs IH]; intros cs' q H.
  - destruct cs' as [|b cs']; [apply same_refl|]. specialize (H (group_of b)). cbn [filter] in H.
    unfold of_group in H at 1. destruct (group_eq (group_of b) (group_of b)); [discriminate H|congruence].
  - assert (Ha : filter (of_group (group_of a)) (a :: cs) = a :: filter (of_group (group_of a)) cs).
    { cbn [filter]. unfold of_group at 1. destruct (group_eq (group_of a) (group_of a)); [reflexivity|congruence]. }
    rewrite (H (group_of a)) in Ha. destruct (first_of_group _ _ _ _ Ha) as (pre & post & -> & Hp & _).
    eapply same_trans; [|apply same_sym, move_front, Hp].
    unfold sel_run. cbn [fold_res]. destruct (sel_step q a) as [q'|]; [|exact I]. cbn [bind].
    apply (IH (pre ++ post)%list q'). intro g. specialize (H g).
    rewrite !filter_app in *. cbn [filter] in H.
    destruct (of_group g a) eqn:Eg.
    + unfold of_group in Eg. destruct (group_eq (group_of a) g) as [<-|]; [|discriminate Eg].
      assert (P : filter (of_group (group_of a)) pre = []).
      { clear -Hp. induction pre as [|b pre IH]; [reflexivity|]. cbn [filter]. unfold of_group at 1.
        destruct (group_eq (group_of b) (group_of a)) as [E|].
        - exfalso. exact (Hp b (or_introl eq_refl) E).
        - apply IH. intros c Hc. apply Hp. right. exact Hc. }
      rewrite P in *. cbn [app] in *. congruence.
    + exact H.
Qed.

(* ------------------------------------------------------------------------- *)
(* C19                                                                         *)
(* ------------------------------------------------------------------------- *)

Lemma nonempty_true : forall A (l : list A), l <> [] -> nonempty l = true.
Proof. intros A [|x l] H; [contradiction|reflexivity]. Qed.

Lemma sel_has_same : forall o q q', sel_has o q -> sel_same o q q' -> sel_has o q'.
Proof. intros [] q q' H E; cbn in *; rewrite <- ?E; exact H. Qed.
Lemma sel_same_trans : forall o a b c, sel_same o a b -> sel_same o b c -> sel_same o a c.
Proof. intros [] a b c; cbn; congruence. Qed.

Lemma sel_once_panics : forall o q c, sel_has o q -> sel_once_of c = Some o -> exists p, sel_step q c = Panic p.
Proof.
  intros o q c H E. destruct c; try discriminate E; injection E as <-; cbn [sel_has sel_step] in *.
  - rewrite (nonempty_true _ _ H). eexists. reflexivity.
  - rewrite (nonempty_true _ _ H). eexists. reflexivity.
  - rewrite H. eexists. reflexivity.
  - apply Z.eqb_neq in H. rewrite H. eexists. reflexivity.
  - apply Z.eqb_neq in H. rewrite H. eexists. reflexivity.
Qed.

Ltac step_cases :=
  repeat match goal with
         | H : context [match ?x with _ => _ end] |- _ => destruct x eqn:?; cbn [bind] in H; try discriminate H
         | H : context [bind ?x _] |- _ => destruct x eqn:?; cbn [bind] in H; try discriminate H
         end.

Lemma add_join_same : forall o q j q', add_join q j = Ok q' -> sel_same o q q'.
Proof.
  intros o q j q' E. unfold add_join in E. destruct (join_empty j) as [[]|]; cbn in E; try discriminate E.
  injection E as <-. destruct o; reflexivity.
Qed.
Lemma sel_join_same : forall o q args q', sel_join q args = Ok q' -> sel_same o q q'.
Proof.
  intros o q args q' E. unfold sel_join in E.
  destruct args as [|a [|b [|c [|d args]]]]; try discriminate E.
  - destruct a; try discriminate E; cbn [bind] in E; [|exact (add_join_same _ _ _ _ E)].
    destruct (must_parse_join s); [|discriminate E]. exact (add_join_same _ _ _ _ E).
  - destruct (handle_join a b); [|discriminate E]. exact (add_join_same _ _ _ _ E).
  - destruct (handle_join a b); [|discriminate E]. cbn [bind] in E. destruct c; try discriminate E.
    exact (add_join_same _ _ _ _ E).
Qed.

Lemma sel_step_same : forall o q c q', sel_has o q -> sel_step q c = Ok q' -> sel_same o q q'.
Proof.
  intros o q c q' H E.
  destruct (sel_once_of c) as [o'|] eqn:Eo.
  - assert (D : {o' = o} + {o' <> o}) by decide equality. destruct D as [->|N].
    + destruct (sel_once_panics o q c H Eo) as (p & P). congruence.
    + destruct c; try discriminate Eo; injection Eo as <-; cbn [sel_step] in E; step_cases;
        injection E as <-; destruct o; try reflexivity; contradiction N; reflexivity.
  - destruct c; try discriminate Eo; cbn [sel_step] in E;
      try (exact (sel_join_same _ _ _ _ E)); step_cases; injection E as <-; destruct o; reflexivity.
Qed.
Lemma sel_run_same : forall o cs q q', sel_has o q -> sel_run q cs = Ok q' -> sel_same o q q'.
Proof.
  intros o. induction cs as [|c cs IH]; intros q q' H E.
  - injection E as <-. destruct o; reflexivity.
  - unfold sel_run in E. cbn [fold_res] in E. destruct (sel_step q c) as [q1|] eqn:E1; [|discriminate E].
    pose proof (sel_step_same o q c q1 H E1) as S.
    eapply sel_same_trans; [exact S|]. apply IH; [exact (sel_has_same o _ _ H S)|exact E].
Qed.

Section Ins.
  Context {O : Oracle}.

  Lemma ins_has_same : forall o q q', ins_has o q -> ins_same o q q' -> ins_has o q'.
  Proof. intros [] q q' H E; cbn in *; rewrite <- ?E; try exact H. destruct E as [_ E]. rewrite <- E. exact H. Qed.
  Lemma ins_same_trans : forall o a b c, ins_same o a b -> ins_same o b c -> ins_same o a c.
  Proof. intros [] a b c; cbn; intros; try congruence. split; intuition congruence. Qed.
  Lemma ins_same_refl : forall o a, ins_same o a a.
  Proof. intros [] a; cbn; auto. Qed.

  Lemma ins_once_panics : forall o q c, ins_has o q -> In o (ins_once_of c) -> exists p, ins_step q c = Panic p.
  Proof.
    intros o q c H E. destruct c as [g|args|args|args|c|args|args]; cbn [ins_once_of] in E.
    - destruct E as [<-|[]]. cbn in *. unfold no_str. apply String.eqb_neq in H. rewrite H. eexists. reflexivity.
    - destruct args; [destruct E|]. destruct E as [<-|[]]. cbn in *. rewrite (nonempty_true _ _ H). eexists. reflexivity.
    - destruct E as [<-|[]]. cbn [ins_step ins_has] in *. rewrite H. eexists. reflexivity.
    - destruct E as [<-|[]]. cbn in *. rewrite (nonempty_true _ _ H). eexists. reflexivity.
    - destruct E.
    - destruct E as [<-|[]]. cbn [ins_step ins_has] in *. rewrite H. eexists. reflexivity.
    - destruct E as [<-|[<-|[]]]; cbn [ins_step ins_has] in *.
      + rewrite (nonempty_true _ _ H). eexists. reflexivity.
      + rewrite H. cbn [bind]. destruct (nonempty (i_columns q)); eexists; reflexivity.
  Qed.

  Lemma ins_step_same : forall o q c q', ins_has o q -> ins_step q c = Ok q' -> ins_same o q q'.
  Proof.
    intros o q c q' H E.
    assert (D : {In o (ins_once_of c)} + {~ In o (ins_once_of c)}).
    { apply in_dec. intros a b. decide equality. }
    destruct D as [I|N].
    - destruct (ins_once_panics o q c H I) as (p & P). congruence.
    - destruct c as [g|args|args|args|c|args|args]; cbn [ins_step ins_once_of] in *.
      + step_cases. injection E as <-. destruct o; try (apply ins_same_refl); try (split; reflexivity); try reflexivity. exfalso. apply N. left. reflexivity.
      + destruct args; [injection E as <-; apply ins_same_refl|]. step_cases. injection E as <-.
        destruct o; try (split; reflexivity); try reflexivity. exfalso. apply N. left. reflexivity.
      + step_cases. injection E as <-. destruct o; try (split; reflexivity); try reflexivity. exfalso. apply N. left. reflexivity.
      + step_cases. injection E as <-. destruct o; try (split; reflexivity); try reflexivity. exfalso. apply N. left. reflexivity.
      + injection E as <-. destruct o; try (split; reflexivity); reflexivity.
      + destruct (conflict_empty _); [|discriminate E]. destruct args; [discriminate E|].
        destruct (on_conflict_loop _ _); [|discriminate E]. injection E as <-.
        destruct o; try reflexivity. exfalso. apply N. left. reflexivity.
      + destruct (nonempty _); [discriminate E|]. destruct (cond_empty _) as [[]|]; [|discriminate E|discriminate E].
        cbn [bind] in E. destruct (to_set args); [|discriminate E]. cbn [bind] in E.
        destruct (pairs_values _); [|discriminate E]. cbn [bind] in E. destruct (new_array_list _); [|discriminate E].
        injection E as <-. destruct o; try (split; reflexivity); try reflexivity; exfalso; apply N; cbn; auto.
  Qed.
  Lemma ins_run_same : forall o cs q q', ins_has o q -> ins_run q cs = Ok q' -> ins_same o q q'.
  Proof.
    intros o. induction cs as [|c cs IH]; intros q q' H E.
    - injection E as <-. apply ins_same_refl.
    - unfold ins_run in E. cbn [fold_res] in E. destruct (ins_step q c) as [q1|] eqn:E1; [|discriminate E].
      pose proof (ins_step_same o q c q1 H E1) as S.
      eapply ins_same_trans; [exact S|]. apply IH; [exact (ins_has_same o _ _ H S)|exact E].
  Qed.
End Ins.

Lemma upd_has_same : forall o q q', upd_has o q -> upd_same o q q' -> upd_has o q'.
Proof. intros [] q q' H E; cbn in *; rewrite <- ?E; exact H. Qed.
Lemma upd_once_panics : forall o q c, upd_has o q -> upd_once_of c = Some o -> exists p, upd_step q c = Panic p.
Proof.
  intros o q c H E. destruct c; try discriminate E; injection E as <-; cbn [upd_has upd_step] in *;
    rewrite (nonempty_true _ _ H); eexists; reflexivity.
Qed.
Lemma upd_step_same : forall o q c q', upd_has o q -> upd_step q c = Ok q' -> upd_same o q q'.
Proof.
  intros o q c q' H E.
  destruct (upd_once_of c) as [o'|] eqn:Eo.
  - assert (D : {o' = o} + {o' <> o}) by decide equality. destruct D as [->|N].
    + destruct (upd_once_panics o q c H Eo) as (p & P). congruence.
    + destruct c; try discriminate Eo; injection Eo as <-; cbn [upd_step] in E; step_cases;
        injection E as <-; destruct o; try reflexivity; contradiction N; reflexivity.
  - destruct c as [|args|args|args|c|c|c|g|args|c]; try discriminate Eo; cbn [upd_step] in E.
    + injection E as <-. destruct o; reflexivity.
    + destruct args; [discriminate E|]. destruct (merge_set _ _); [|discriminate E]. injection E as <-. destruct o; reflexivity.
    + destruct (p_mode _); try discriminate E. destruct args; [discriminate E|].
      destruct (fold_res _ _ _); [|discriminate E]. injection E as <-. destruct o; reflexivity.
    + injection E as <-. destruct o; reflexivity.
    + destruct (where_where _ _); [|discriminate E]. injection E as <-. destruct o; reflexivity.
    + destruct (where_and _ _); [|discriminate E]. injection E as <-. destruct o; reflexivity.
    + destruct (where_or _ _); [|discriminate E]. injection E as <-. destruct o; reflexivity.
    + injection E as <-. destruct o; reflexivity.
Qed.
Lemma upd_run_same : forall o cs q q', upd_has o q -> upd_run q cs = Ok q' -> upd_same o q q'.
Proof.
  intros o. induction cs as [|c cs IH]; intros q q' H E.
  - injection E as <-. destruct o; reflexivity.
  - unfold upd_run in E. cbn [fold_res] in E. destruct (upd_step q c) as [q1|] eqn:E1; [|discriminate E].
    pose proof (upd_step_same o q c q1 H E1) as S. pose proof (IH q1 q' (upd_has_same o _ _ H S) E) as S'.
    destruct o; cbn in *; congruence.
Qed.

Lemma del_has_same : forall o q q', del_has o q -> del_same o q q' -> del_has o q'.
Proof. intros [] q q' H E; cbn in *; rewrite <- ?E; exact H. Qed.
Lemma del_once_panics : forall o q c, del_has o q -> del_once_of c = Some o -> exists p, del_step q c = Panic p.
Proof.
  intros o q c H E. destruct c; try discriminate E; injection E as <-; cbn [del_has del_step] in *;
    rewrite (nonempty_true _ _ H); eexists; reflexivity.
Qed.
Lemma del_step_same : forall o q c q', del_has o q -> del_step q c = Ok q' -> del_same o q q'.
Proof.
  intros o q c q' H E.
  destruct (del_once_of c) as [o'|] eqn:Eo.
  - assert (D : {o' = o} + {o' <> o}) by decide equality. destruct D as [->|N].
    + destruct (del_once_panics o q c H Eo) as (p & P). congruence.
    + destruct c; try discriminate Eo; injection Eo as <-; cbn [del_step] in E; step_cases;
        injection E as <-; destruct o; try reflexivity; contradiction N; reflexivity.
  - destruct c; try discriminate Eo; cbn [del_step] in E.
    + destruct (where_where _ _); [|discriminate E]. injection E as <-. destruct o; reflexivity.
    + destruct (where_and _ _); [|discriminate E]. injection E as <-. destruct o; reflexivity.
    + destruct (where_or _ _); [|discriminate E]. injection E as <-. destruct o; reflexivity.
    + injection E as <-. destruct o; reflexivity.
Qed.
Lemma del_run_same : forall o cs q q', del_has o q -> del_run q cs = Ok q' -> del_same o q q'.
Proof.
  intros o. induction cs as [|c cs IH]; intros q q' H E.
  - injection E as <-. destruct o; reflexivity.
  - unfold del_run in E. cbn [fold_res] in E. destruct (del_step q c) as [q1|] eqn:E1; [|discriminate E].
    pose proof (del_step_same o q c q1 H E1) as S. pose proof (IH q1 q' (del_has_same o _ _ H S) E) as S'.
    destruct o; cbn in *; congruence.
Qed.
