(* C06: what is written of a nested expression is a contiguous part of what is written of
   the expression, and of the statement, around it. *)
From Verif Require Export RenderP.

Section Embed.
  Context {O : Oracle}.

  (* t shows the output of e *)
  Definition shows (e : expr) (t : tr) : Prop :=
    forall x, t = Ok x -> exists y pre post, write_expr e = Ok y /\ x = (pre ++ y ++ post)%list.

  Lemma shows_self : forall e, shows e (write_expr e).
  Proof. intros e x E. exists x, [], []. rewrite app_nil_r. auto. Qed.
  Lemma shows_l : forall e a b, shows e a -> shows e (a +++ b).
  Proof.
    intros e [a|] [b|] H x E; cbn in E; try discriminate. injection E as <-.
    destruct (H a eq_refl) as (y & pre & post & Hy & ->). exists y, pre, (post ++ b)%list.
    rewrite <- !app_assoc. auto.
  Qed.
  Lemma shows_r : forall e a b, shows e b -> shows e (a +++ b).
  Proof.
    intros e [a|] [b|] H x E; cbn in E; try discriminate. injection E as <-.
    destruct (H b eq_refl) as (y & pre & post & Hy & ->). exists y, (a ++ pre)%list, post.
    rewrite <- !app_assoc. auto.
  Qed.
  Lemma shows_sep : forall e A sep (g : A -> tr) l a, In a l -> shows e (g a) ->
    shows e (sep_by sep (map g l)).
  Proof.
    intros e A sep g l a Hin H. induction l as [|b [|c l] IH]; [destruct Hin| |].
    - destruct Hin as [->|[]]. exact H.
    - change (sep_by sep (map g (b :: c :: l))) with (g b +++ w sep +++ sep_by sep (map g (c :: l))).
      destruct Hin as [->|Hin]; [apply shows_l, shows_l, H|apply shows_r, IH, Hin].
  Qed.
  Lemma shows_panic : forall e p, shows e (Panic p).
  Proof. intros e p x E. discriminate. Qed.
  Lemma shows_defined : forall e e' t, shows e t -> shows e (defined e' t).
  Proof.
    intros e e' t H. unfold defined. destruct (is_empty e') as [[]|]; cbn; try apply shows_panic. exact H.
  Qed.
  Lemma shows_unless : forall e e' t, In e (keep e') -> shows e t -> shows e (unless (cond_empty e') t).
  Proof.
    intros e e' t Hk H. unfold keep, kept in Hk. destruct (cond_empty e') as [[]|]; cbn in *;
      try contradiction. exact H.
  Qed.
  Lemma keep_in : forall e e', In e (keep e') -> e = e'.
  Proof. intros e e' H. unfold keep in H. destruct (kept e'); [|destruct H]. destruct H as [->|[]]; reflexivity. Qed.

  Lemma shows_with : forall l e, In e (flat_map with_parts l) ->
    shows e (when (nonempty l) (write_with write_expr l +++ w " ")).
  Proof.
    intros l e H. destruct l as [|q l]; [destruct H|]. apply shows_l. unfold write_with. cbn [nonempty when].
    apply shows_r. apply in_flat_map in H. destruct H as [x [Hx H]].
    apply shows_sep with (a := x); [exact Hx|]. unfold with_parts in H. unfold write_withq, withq_empty.
    destruct (no_str (wq_name x)); [destruct H|]. cbn [orb].
    assert (E : (if is_nil (wq_sub x) then Ok true else is_empty (wq_sub x)) = cond_empty (wq_sub x)) by reflexivity.
    rewrite E. apply shows_unless; [exact H|]. apply keep_in in H. subst.
    apply shows_l, shows_r, shows_self.
  Qed.

  Lemma shows_sels : forall l e, In e (flat_map selexpr_children l) ->
    shows e (sep_by ", " (map (write_selexpr write_expr) l)).
  Proof.
    intros l e H. apply in_flat_map in H. destruct H as [x [Hx H]].
    apply shows_sep with (a := x); [exact Hx|].
    destruct x; cbn in H; try contradiction; destruct H as [->|[]]; apply shows_l, shows_r, shows_self.
  Qed.

  Lemma shows_joins : forall l e, In e (map j_cond l) -> shows e (write_joins write_expr l).
  Proof.
    induction l as [|j l IH]; intros e H; [destruct H|]. cbn [write_joins].
    destruct H as [<-|H]; [|apply shows_r, IH, H].
    apply shows_l, shows_r. unfold write_join. apply shows_r, shows_self.
  Qed.

  Lemma shows_where : forall c e, In e (keep c) ->
    shows e (unless (cond_empty c) (w " " +++ write_where write_expr c)).
  Proof.
    intros c e H. apply shows_unless; [exact H|]. apply keep_in in H. subst.
    apply shows_r. unfold write_where. destruct (cond_empty c) as [[]|]; cbn [bind]; try apply shows_panic.
    apply shows_r, shows_self.
  Qed.
  Lemma shows_having : forall c e, In e (keep c) ->
    shows e (unless (cond_empty c) (w " " +++ write_having write_expr c)).
  Proof.
    intros c e H. apply shows_unless; [exact H|]. apply keep_in in H. subst.
    apply shows_r. unfold write_having. destruct (cond_empty c) as [[]|]; cbn [bind]; try apply shows_panic.
    apply shows_r, shows_self.
  Qed.

  Lemma shows_select : forall s e, In e (select_parts s) -> shows e (write_select_with write_expr s).
  Proof.
    intros s e H. unfold write_select_with. destruct (nonempty (s_exprs s)); [|apply shows_panic].
    unfold select_parts in H. rewrite !in_app_iff in H. unfold write_head, write_middle.
    destruct H as [H|[H|[H|[H|H]]]].
    - apply shows_l, shows_l. do 6 apply shows_l. apply shows_r, shows_with, H.
    - apply shows_l, shows_l. apply shows_l, shows_r, shows_sels, H.
    - apply shows_l, shows_r. do 3 apply shows_l. apply shows_joins, H.
    - apply shows_l, shows_r. do 2 apply shows_l. apply shows_r, shows_where, H.
    - apply shows_l, shows_r. apply shows_r, shows_having, H.
  Qed.

  Lemma shows_part : forall e c, In c (parts e) -> shows c (write_expr e).
  Proof.
    intros e c H. destruct e as [|g|g|l|l|s|x|fn l|l o r|x o v|g o a n b|x|x|s|l r|l o r];
      cbn [parts children] in H; cbn [write_expr]; try (destruct H; fail).
    - apply shows_sep with (a := c); [exact H|]. apply shows_l, shows_r, shows_self.
    - apply shows_sep with (a := c); [exact H|]. apply shows_self.
    - destruct H as [->|[]]. apply shows_l, shows_r, shows_self.
    - apply shows_l, shows_r. apply shows_sep with (a := c); [exact H|]. apply shows_self.
    - apply shows_defined. destruct H as [->|[->|[]]].
      + do 3 apply shows_l. apply shows_r, shows_self.
      + apply shows_l. apply shows_r, shows_self.
    - apply shows_defined. destruct H as [->|H].
      + do 3 apply shows_l. apply shows_r, shows_self.
      + apply shows_l. apply shows_r.
        assert (K := H). apply keep_in in K. subst c.
        assert (E : is_empty v = cond_empty v).
        { unfold keep, kept, cond_empty in *. destruct (is_nil v); [destruct H|reflexivity]. }
        rewrite E. apply shows_unless; [exact H|apply shows_self].
    - apply shows_defined. destruct H as [->|[->|[]]].
      + do 3 apply shows_l. apply shows_r, shows_self.
      + apply shows_l. apply shows_r, shows_self.
    - destruct H as [->|[]]. apply shows_l, shows_r, shows_self.
    - destruct H as [->|[]]. apply shows_l, shows_r, shows_self.
    - apply shows_select, H.
    - apply shows_defined. destruct H as [->|[->|[]]].
      + do 3 apply shows_l. apply shows_r, shows_self.
      + apply shows_l. apply shows_r, shows_self.
  Qed.

  Lemma shows_trans : forall x e t, shows x (write_expr e) -> shows e t -> shows x t.
  Proof.
    intros x e t H1 H2 r E. destruct (H2 r E) as (y & pre & post & Hy & ->).
    destruct (H1 y Hy) as (z & pre' & post' & Hz & ->). exists z, (pre ++ pre')%list, (post' ++ post)%list.
    rewrite <- !app_assoc. auto.
  Qed.

  Lemma shows_within : forall x e, within x e -> shows x (write_expr e).
  Proof.
    intros x e H. induction H as [|e c Hc H IH]; [apply shows_self|].
    eapply shows_trans; [exact IH|apply shows_part, Hc].
  Qed.

  Lemma shows_set : forall p e, In e (set_parts p) -> shows e (write_set p).
  Proof.
    intros p e H. unfold write_set. apply shows_r. unfold write_pairs.
    destruct (pairs_empty p) eqn:Ep; [apply shows_panic|].
    unfold set_parts in H. destruct (p_mode p) eqn:M.
    - unfold pairs_empty in Ep. rewrite M in Ep. discriminate.
    - unfold pairs_values. rewrite M. destruct (map_res _ (o_sort (p_cols p))) as [es|q] eqn:E;
        cbn [bind]; [|apply shows_panic]. cbn [fst snd].
      assert (Q : exists c, In (c, e) (combine (o_sort (p_cols p)) es)).
      { clear Ep. revert es E H. generalize (o_sort (p_cols p)) as cols.
        induction cols as [|c cols IH]; intros es E H; cbn [map_res flat_map] in *; [destruct H|].
        destruct (pm_get c (p_map p)) as [e'|]; [|discriminate]. cbn [bind] in E.
        destruct (map_res _ cols) as [es'|]; [|discriminate]. cbn [bind] in E. injection E as <-.
        destruct H as [->|H]; [exists c; left; reflexivity|].
        destruct (IH es' eq_refl H) as [c' Hc']. exists c'. right. exact Hc'. }
      destruct Q as [c Hc]. apply shows_sep with (a := (c, e)); [exact Hc|].
      unfold write_pair. apply shows_r, shows_self.
    - apply shows_l, shows_r. apply shows_sep with (a := e); [exact H|apply shows_self].
  Qed.

  Lemma shows_returning : forall l e, In e (flat_map selexpr_children l) ->
    shows e (when (nonempty l) (w " " +++ write_returning l)).
  Proof.
    intros [|x l] e H; [destruct H|]. cbn [nonempty when]. apply shows_r. unfold write_returning.
    apply shows_r, shows_sels, H.
  Qed.

  Lemma shows_stmt : forall s e, In e (stmt_parts s) -> shows e (write_stmt s).
  Proof.
    intros [s|i|u|d] e H; cbn [stmt_parts write_stmt] in *.
    - apply shows_select, H.
    - unfold write_insert. destruct (no_str _); [apply shows_panic|].
      rewrite !in_app_iff in H. apply shows_l. destruct H as [H|[H|H]].
      + apply shows_l, shows_l, shows_r. apply shows_unless; [exact H|].
        apply shows_r. unfold write_values. apply shows_unless; [exact H|].
        apply keep_in in H. subst. apply shows_r, shows_self.
      + apply shows_l, shows_r. destruct (i_conflict_action i) as [[|p]|]; try contradiction.
        cbn [conflict_empty action_empty write_conflict]. destruct (pairs_empty p); [destruct H|].
        cbn [negb when]. apply shows_r, shows_r. cbn [write_action]. apply shows_r, shows_set, H.
      + apply shows_r, shows_returning, H.
    - unfold write_update. destruct (_ || _); [apply shows_panic|].
      rewrite !in_app_iff in H. apply shows_l. destruct H as [H|[H|[H|H]]].
      + repeat match goal with |- shows _ (when _ _) => fail 1 | _ => apply shows_l end.
        apply shows_with, H.
      + do 3 apply shows_l. apply shows_r, shows_set, H.
      + apply shows_l, shows_r, shows_where, H.
      + apply shows_r, shows_returning, H.
    - unfold write_delete. destruct (nonempty (d_from d)); [|apply shows_panic].
      rewrite in_app_iff in H. apply shows_l. destruct H as [H|H].
      + apply shows_l, shows_r, shows_where, H.
      + apply shows_r, shows_returning, H.
  Qed.

  Lemma embedded : forall x s q, in_stmt x s -> template s = Ok q ->
    exists y pre post, expr_sql x = Ok y /\ q = (pre ++ y ++ post)%list.
  Proof.
    intros x s q [e [He Hx]] H. unfold template, flat in H.
    destruct (write_stmt s) as [t|] eqn:E; [|discriminate]. injection H as <-.
    assert (S1 : shows x (write_stmt s)) by (eapply shows_trans; [apply shows_within, Hx|apply shows_stmt, He]).
    destruct (S1 t E) as (y & pre & post & Hy & ->). exists (flatten y), (flatten pre), (flatten post).
    unfold expr_sql, flat. rewrite Hy, !flatten_app. split; reflexivity.
  Qed.
End Embed.
