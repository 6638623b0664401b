(* Proofs for C56: calls that read and write separate fields commute. *)
From Verif Require Export CallsDml CallsP.

Section Commute.
  Context {S C G : Type} (eq : forall a b : G, {a = b} + {a <> b}) (group : C -> G)
          (step : S -> C -> res S) (put : G -> S -> S -> S) (z : S).
  Hypothesis put_other : forall g g' a b q, g <> g' -> put g (put g' a b) q = put g b q.
  Hypothesis put_comm : forall g g' a b q, g <> g' -> put g a (put g' b q) = put g' b (put g a q).
  Hypothesis local : forall c q, step q c = do q' <- step (put (group c) q z) c; Ok (put (group c) q' q).

  Lemma calls_commute : forall a b q, group a <> group b ->
    same_outcome (do q' <- step q a; step q' b) (do q' <- step q b; step q' a).
  Proof.
    intros a b q H. rewrite (local a q), (local b q).
    destruct (step (put (group a) q z) a) as [qa|pa] eqn:Ea;
    destruct (step (put (group b) q z) b) as [qb|pb] eqn:Eb; cbn [bind].
    - rewrite (local b (put (group a) qa q)), (local a (put (group b) qb q)).
      rewrite (put_other (group b) (group a)), (put_other (group a) (group b)) by congruence.
      rewrite Ea, Eb. cbn. apply put_comm. congruence.
    - rewrite (local b (put (group a) qa q)), (put_other (group b) (group a)) by congruence.
      rewrite Eb. exact I.
    - rewrite (local a (put (group b) qb q)), (put_other (group a) (group b)) by congruence.
      rewrite Ea. exact I.
    - exact I.
  Qed.

  Lemma calls_front : forall pre a post q, (forall b, In b pre -> group b <> group a) ->
    same_outcome (fold_res step (pre ++ a :: post)%list q) (fold_res step (a :: pre ++ post)%list q).
  Proof.
    induction pre as [|b pre IH]; intros a post q H; [apply same_refl|]. cbn [app fold_res].
    apply same_trans with (do q' <- step q b; do q'' <- step q' a; fold_res step (pre ++ post)%list q'').
    - destruct (step q b) as [q'|]; [|exact I]. cbn [bind].
      apply (IH a post q'). intros c Hc. apply H. right. exact Hc.
    - pose proof (calls_commute b a q (H b (or_introl eq_refl))) as K.
      apply (same_bind _ _ _ _ (fun q'' => fold_res step (pre ++ post)%list q'')) in K.
      eapply same_trans; [|eapply same_trans; [exact K|]].
      + destruct (step q b); apply same_refl.
      + destruct (step q a); apply same_refl.
  Qed.

  Lemma group_first : forall g cs a rest,
    filter (fun c => if eq (group c) g then true else false) cs = a :: rest ->
    exists pre post, cs = (pre ++ a :: post)%list /\ (forall b, In b pre -> group b <> g) /\ group a = g.
  Proof.
    intros g. induction cs as [|b cs IH]; intros a rest E; [discriminate E|].
    cbn [filter] in E. destruct (eq (group b) g) as [Eg|Ng].
    - injection E as -> _. exists [], cs. split; [reflexivity|]. split; [contradiction|exact Eg].
    - destruct (IH a rest E) as (pre & post & -> & Hp & Ha). exists (b :: pre), post.
      split; [reflexivity|]. split; [|exact Ha]. intros c [<-|Hc]; [exact Ng|apply Hp, Hc].
  Qed.

  Lemma reorders_run : forall cs cs' q, reorders eq group cs cs' ->
    same_outcome (fold_res step cs q) (fold_res step cs' q).
  Proof.
    induction cs as [|a cs IH]; intros cs' q H.
    - destruct cs' as [|b cs']; [apply same_refl|]. specialize (H (group b)). cbn [filter] in H.
      destruct (eq (group b) (group b)); [discriminate H|congruence].
    - pose proof (H (group a)) as Ha. cbn [filter] in Ha. destruct (eq (group a) (group a)); [|congruence].
      symmetry in Ha. destruct (group_first _ _ _ _ Ha) as (pre & post & -> & Hp & _).
      eapply same_trans; [|apply same_sym, calls_front, Hp].
      cbn [fold_res]. destruct (step q a) as [q'|]; [|exact I]. cbn [bind].
      apply (IH (pre ++ post)%list q'). intro g. specialize (H g).
      rewrite !filter_app in *. cbn [filter] in H. destruct (eq (group a) g) as [<-|].
      + assert (P : filter (fun c => if eq (group c) (group a) then true else false) pre = []).
        { clear -Hp. induction pre as [|b pre IH]; [reflexivity|]. cbn [filter].
          destruct (eq (group b) (group a)) as [E|].
          - exfalso. exact (Hp b (or_introl eq_refl) E).
          - apply IH. intros c Hc. apply Hp. right. exact Hc. }
        rewrite P in *. cbn [app] in *. congruence.
      + exact H.
  Qed.
End Commute.

(* The fields of one group of the first statement, all else of the second. *)
Definition put_ins (g : ins_group) (a q : insert) : insert :=
  match g with
  | InIntoClause => ins_with_into q (i_into a)
  | InRows => ins_with_values (ins_with_columns q (i_columns a)) (i_values a)
  | InConflictClause => ins_with_conflict q (i_conflict_target a) (i_conflict_action a)
  | InReturningClause => ins_with_returning q (i_returning a)
  | InComment => ins_with_comment q (i_comment a)
  end.
Definition put_upd (g : upd_group) (a q : update) : update :=
  match g with
  | UpOnlyFlag => upd_with_only q (u_only a)
  | UpSetClause => upd_with_set q (u_set a)
  | UpWithClause => upd_with_with q (u_with a)
  | UpWhereClause => upd_with_where q (u_where a)
  | UpFromClause => upd_with_from q (u_from a)
  | UpReturningClause => upd_with_returning q (u_returning a)
  | UpComment => upd_with_comment q (u_comment a)
  end.
Definition put_del (g : del_group) (a q : delete) : delete :=
  match g with
  | DeFromClause => del_with_from q (d_from a)
  | DeUsingClause => del_with_using q (d_using a)
  | DeWhereClause => del_with_where q (d_where a)
  | DeReturningClause => del_with_returning q (d_returning a)
  | DeComment => del_with_comment q (d_comment a)
  end.

Ltac separate := intros g g' a b q H; destruct g, g'; try (contradiction H; reflexivity); reflexivity.

Lemma put_ins_other : forall g g' a b q, g <> g' -> put_ins g (put_ins g' a b) q = put_ins g b q.
Proof. separate. Qed.
Lemma put_ins_comm : forall g g' a b q, g <> g' -> put_ins g a (put_ins g' b q) = put_ins g' b (put_ins g a q).
Proof. separate. Qed.
Lemma put_upd_other : forall g g' a b q, g <> g' -> put_upd g (put_upd g' a b) q = put_upd g b q.
Proof. separate. Qed.
Lemma put_upd_comm : forall g g' a b q, g <> g' -> put_upd g a (put_upd g' b q) = put_upd g' b (put_upd g a q).
Proof. separate. Qed.
Lemma put_del_other : forall g g' a b q, g <> g' -> put_del g (put_del g' a b) q = put_del g b q.
Proof. separate. Qed.
Lemma put_del_comm : forall g g' a b q, g <> g' -> put_del g a (put_del g' b q) = put_del g' b (put_del g a q).
Proof. separate. Qed.

Lemma ins_local {O : Oracle} : forall c q,
  ins_step q c = do q' <- ins_step (put_ins (ins_group_of c) q new_insert) c; Ok (put_ins (ins_group_of c) q' q).
Proof.
  intros c q. destruct c; cbn [ins_group_of put_ins ins_step].
  - cbn [i_into ins_with_into]. destruct (no_str _); [|reflexivity]. destruct (to_into g); reflexivity.
  - destruct args as [|g args]; [destruct q; reflexivity|]. cbn [i_columns ins_with_values ins_with_columns].
    destruct (nonempty (i_columns q)); [reflexivity|]. destruct (to_columns _); destruct q; reflexivity.
  - cbn [i_values ins_with_values]. destruct (cond_empty (i_values q)) as [[]|]; try reflexivity. cbn [bind].
    destruct (new_array_list args); [|reflexivity]. destruct q; reflexivity.
  - cbn [i_returning ins_with_returning]. destruct (nonempty (i_returning q)); [reflexivity|].
    destruct (to_selexprs args); reflexivity.
  - reflexivity.
  - cbn [i_conflict_action i_conflict_target ins_with_conflict]. destruct (conflict_empty _); [|reflexivity].
    destruct args; [reflexivity|]. destruct (on_conflict_loop _ _); reflexivity.
  - cbn [i_columns i_values ins_with_values ins_with_columns]. destruct (nonempty (i_columns q)); [reflexivity|].
    destruct (cond_empty (i_values q)) as [[]|]; try reflexivity. cbn [bind].
    destruct (to_set args); [|reflexivity]. cbn [bind]. destruct (pairs_values _); [|reflexivity]. cbn [bind].
    destruct (new_array_list _); reflexivity.
Qed.

Definition zero_update : update :=
  {| u_with := []; u_table := zero_table; u_only := false; u_from := []; u_set := empty_pairs;
     u_where := ENil; u_returning := []; u_comment := "" |}.

Lemma upd_local : forall c q,
  upd_step q c = do q' <- upd_step (put_upd (upd_group_of c) q zero_update) c; Ok (put_upd (upd_group_of c) q' q).
Proof.
  intros c q. destruct c; cbn [upd_group_of put_upd upd_step].
  - reflexivity.
  - destruct args; [reflexivity|]. cbn [u_set upd_with_set]. destruct (merge_set _ _); reflexivity.
  - cbn [u_set upd_with_set]. destruct (p_mode (u_set q)); try reflexivity. destruct args; [reflexivity|].
    destruct (fold_res _ _ _); reflexivity.
  - reflexivity.
  - cbn [u_where upd_with_where]. destruct (where_where _ _); reflexivity.
  - cbn [u_where upd_with_where]. destruct (where_and _ _); reflexivity.
  - cbn [u_where upd_with_where]. destruct (where_or _ _); reflexivity.
  - cbn [u_from upd_with_from]. destruct (nonempty _); [reflexivity|]. destruct (to_from _); reflexivity.
  - cbn [u_returning upd_with_returning]. destruct (nonempty _); [reflexivity|]. destruct (to_selexprs _); reflexivity.
  - reflexivity.
Qed.

Lemma del_local : forall c q,
  del_step q c = do q' <- del_step (put_del (del_group_of c) q new_delete) c; Ok (put_del (del_group_of c) q' q).
Proof.
  intros c q. destruct c; cbn [del_group_of put_del del_step].
  - cbn [d_from del_with_from]. destruct (nonempty _); [reflexivity|]. destruct (to_from _); reflexivity.
  - cbn [d_using del_with_using]. destruct (nonempty _); [reflexivity|]. destruct (to_tables _); reflexivity.
  - cbn [d_where del_with_where]. destruct (where_where _ _); reflexivity.
  - cbn [d_where del_with_where]. destruct (where_and _ _); reflexivity.
  - cbn [d_where del_with_where]. destruct (where_or _ _); reflexivity.
  - cbn [d_returning del_with_returning]. destruct (nonempty _); [reflexivity|]. destruct (to_selexprs _); reflexivity.
  - reflexivity.
Qed.

Lemma ins_reordered {O : Oracle} : forall q cs cs', reorders ins_group_eq ins_group_of cs cs' ->
  same_outcome (ins_run q cs) (ins_run q cs').
Proof.
  intros q cs cs' H. exact (reorders_run _ _ _ _ _ put_ins_other put_ins_comm ins_local _ _ _ H).
Qed.
Lemma upd_reordered : forall q cs cs', reorders upd_group_eq upd_group_of cs cs' ->
  same_outcome (upd_run q cs) (upd_run q cs').
Proof.
  intros q cs cs' H. exact (reorders_run _ _ _ _ _ put_upd_other put_upd_comm upd_local _ _ _ H).
Qed.
Lemma del_reordered : forall q cs cs', reorders del_group_eq del_group_of cs cs' ->
  same_outcome (del_run q cs) (del_run q cs').
Proof.
  intros q cs cs' H. exact (reorders_run _ _ _ _ _ put_del_other put_del_comm del_local _ _ _ H).
Qed.
