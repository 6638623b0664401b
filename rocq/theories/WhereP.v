(* Proofs for C11, C13-C15: the WHERE clause. *)
From Verif Require Export Where CondP.

Lemma cat_assoc : forall a b c : tr, (a +++ b) +++ c = a +++ (b +++ c).
Proof. intros [a|p] [b|q] [c|r]; cbn; try reflexivity. rewrite app_assoc. reflexivity. Qed.
Lemma cat_eps_l : forall a, eps +++ a = a.
Proof. intros [a|p]; reflexivity. Qed.
Lemma cat_eps_r : forall a, a +++ eps = a.
Proof. intros [a|p]; cbn; [rewrite app_nil_r|]; reflexivity. Qed.

Section WhereP.
  Context {O : Oracle}.

  Definition where_part (e : expr) : tr := unless (cond_empty e) (w " " +++ write_where write_expr e).

  (* Writing a statement is writing its head, its WHERE clause and its tail. *)
  Lemma where_shape : forall s, has_where_methods s = true ->
    exists a b, forall e, write_stmt (set_where s e) = a +++ where_part e +++ b.
  Proof.
    intros [q|i|u|d] H; try discriminate; cbn [set_where write_stmt].
    - unfold write_select, write_select_with. cbn [s_exprs with_where].
      destruct (nonempty (s_exprs q)).
      + exists (write_head write_expr q +++ write_joins write_expr (s_joins q)),
          (when (nonempty (s_group_by q)) (w " " +++ write_group_by (s_group_by q))
           +++ unless (cond_empty (s_having q)) (w " " +++ write_having write_expr (s_having q))
           +++ write_tail q).
        intro e. unfold write_middle. rewrite !cat_assoc. reflexivity.
      + exists (Panic (PMsg "loukoum: select statements must have at least one column")), eps. reflexivity.
    - unfold write_update. cbn [u_table u_set upd_with_where].
      destruct (no_str _ || _).
      + exists (Panic (PMsg "loukoum: an update statement must have a table and/or values")), eps. reflexivity.
      + exists (when (nonempty (u_with u)) (write_with write_expr (u_with u) +++ w " ")
                +++ w "UPDATE" +++ when (u_only u) (w " ONLY")
                +++ w " " +++ write_table (u_table u) +++ w " " +++ write_set (u_set u)
                +++ when (nonempty (u_from u)) (w " " +++ write_from (u_from u))),
          (when (nonempty (u_returning u)) (w " " +++ write_returning (u_returning u))
           +++ write_comment (u_comment u)).
        intro e. rewrite !cat_assoc. reflexivity.
    - unfold write_delete. cbn [d_from del_with_where]. destruct (nonempty (d_from d)).
      + exists (w "DELETE " +++ write_from (d_from d)
                +++ when (nonempty (d_using d)) (w " " +++ write_using (d_using d))),
          (when (nonempty (d_returning d)) (w " " +++ write_returning (d_returning d))
           +++ write_comment (d_comment d)).
        intro e. rewrite !cat_assoc. reflexivity.
      + exists (Panic (PMsg "loukoum: a delete statement must have a table")), eps. reflexivity.
  Qed.

  Lemma set_where_of : forall s, set_where s (where_of s) = s.
  Proof. intros [[]|[]|[]|[]]; reflexivity. Qed.
  Lemma set_set_where : forall s e e', set_where (set_where s e) e' = set_where s e'.
  Proof. intros [[]|[]|[]|[]]; reflexivity. Qed.
  Lemma where_of_set : forall s e, has_where_methods s = true -> where_of (set_where s e) = e.
  Proof. intros [[]|[]|[]|[]] e H; try discriminate; reflexivity. Qed.
  Lemma has_set_where : forall s e, has_where_methods (set_where s e) = has_where_methods s.
  Proof. intros [[]|[]|[]|[]]; reflexivity. Qed.

  (* With a non-empty condition. *)
  Lemma template_where : forall s e q base, has_where_methods s = true ->
    cond_empty e = Ok false -> expr_sql e = Ok q -> template (set_where s ENil) = Ok base ->
    exists pre post, base = (pre ++ post)%list
      /\ template (set_where s e) = Ok (pre ++ lit " WHERE " ++ q ++ post)%list.
  Proof.
    intros s e q base Hs He Hq Hb. destruct (where_shape s Hs) as (a & b & W).
    unfold template in *. rewrite W in *. unfold where_part in *. cbn [cond_empty is_nil unless bind] in Hb.
    rewrite cat_eps_r in Hb. unfold write_where. rewrite He. cbn [unless bind].
    rewrite !flat_cat in *. unfold expr_sql in Hq. rewrite Hq, !flat_w.
    destruct (flat a) as [pre|]; [|discriminate]. destruct (flat b) as [post|]; [|discriminate].
    injection Hb as <-. exists pre, post. split; [reflexivity|]. rewrite <- !app_assoc. reflexivity.
  Qed.

  (* With an empty one the clause is left out. *)
  Lemma write_no_where : forall s e, has_where_methods s = true ->
    cond_empty e = Ok true -> write_stmt (set_where s e) = write_stmt (set_where s ENil).
  Proof.
    intros s e Hs He. destruct (where_shape s Hs) as (a & b & W).
    rewrite !W. unfold where_part. rewrite He. reflexivity.
  Qed.
  Lemma template_no_where : forall s e, has_where_methods s = true ->
    cond_empty e = Ok true -> template (set_where s e) = template (set_where s ENil).
  Proof. intros s e Hs He. unfold template. rewrite write_no_where by assumption. reflexivity. Qed.

  (* ----------------------------------------------------------------------- *)
  (* Calls                                                                      *)
  (* ----------------------------------------------------------------------- *)

  Lemma call_first : forall s c, has_where_methods s = true -> is_nil c = false ->
    cond_empty (where_of s) = Ok true ->
    call_where s KWhere c = Ok (set_where s (new_wrapper c)).
  Proof.
    intros [q|i|u|d] c Hs Hc He; try discriminate; cbn [call_where where_of sel_step upd_step del_step] in *;
      unfold where_where; rewrite ?Hc, He; reflexivity.
  Qed.

  Definition joined (k : link) (a b : expr) : expr :=
    EInfix a (Some match k with KOr => "OR" | _ => "AND" end) (new_wrapper b).

  Lemma call_next : forall s k c, has_where_methods s = true -> is_nil c = false ->
    cond_empty (where_of s) = Ok false ->
    call_where s k c = Ok (set_where s (joined k (where_of s) c)).
  Proof.
    intros [q|i|u|d] k c Hs Hc He; try discriminate;
      destruct k; cbn [call_where where_of sel_step upd_step del_step] in *;
      unfold where_where, where_and, where_or; rewrite ?Hc, He; cbn [bind]; rewrite ?He; reflexivity.
  Qed.

  Lemma wrapper_empty : forall c, is_empty (new_wrapper c) = is_empty c.
  Proof. intros []; reflexivity. Qed.
  Lemma wrapper_nil : forall c, is_nil (new_wrapper c) = is_nil c.
  Proof. intros []; reflexivity. Qed.
  Lemma kept_nil : forall c, cond_empty c = Ok false -> is_nil c = false /\ is_empty c = Ok false.
  Proof. intros c H. unfold cond_empty in H. destruct (is_nil c); [discriminate|]. auto. Qed.
  Lemma wrapper_sql : forall c, expr_sql (new_wrapper c) = own_sql c.
  Proof.
    intro c. unfold own_sql, expr_sql. destruct c; cbn [new_wrapper is_subquery];
      try (match goal with |- flat ?x = _ => destruct (flat x); reflexivity end);
      match goal with |- flat (write_expr (EWrap ?e)) = _ =>
        change (write_expr (EWrap e)) with (w "(" +++ write_expr e +++ w ")");
        rewrite !flat_cat, !flat_w; destruct (flat (write_expr e)); [|reflexivity];
        cbn [bind]; rewrite <- app_assoc; reflexivity end.
  Qed.

  Lemma joined_kept : forall k a b, cond_empty a = Ok false -> cond_empty b = Ok false ->
    cond_empty (joined k a b) = Ok false.
  Proof.
    intros k a b Ha Hb. apply kept_nil in Ha. apply kept_nil in Hb. destruct Ha as [Na Ea], Hb as [Nb Eb].
    unfold cond_empty, joined. cbn [is_nil is_empty]. rewrite wrapper_nil, wrapper_empty, Na, Nb, Ea, Eb.
    destruct k; reflexivity.
  Qed.
  Lemma joined_sql : forall k a b qa qb, cond_empty a = Ok false -> cond_empty b = Ok false ->
    expr_sql a = Ok qa -> own_sql b = Ok qb ->
    expr_sql (joined k a b) = Ok (lit "(" ++ qa ++ lit (link_text k) ++ qb ++ lit ")")%list.
  Proof.
    intros k a b qa qb Ha Hb Qa Qb. pose proof (joined_kept k a b Ha Hb) as K. apply kept_nil in K.
    destruct K as [_ K]. rewrite <- wrapper_sql in Qb. unfold expr_sql in *. unfold joined in *.
    cbn [write_expr]. unfold defined. rewrite K. cbn [bind].
    rewrite !flat_cat, !flat_w, Qa, Qb. rewrite <- !app_assoc. destruct k; reflexivity.
  Qed.

  (* A whole chain. *)
  Lemma chain_ok : forall l s acc,
    has_where_methods s = true -> cond_empty (where_of s) = Ok false -> expr_sql (where_of s) = Ok acc ->
    Forall (fun kcq => cond_empty (snd (fst kcq)) = Ok false /\ own_sql (snd (fst kcq)) = Ok (snd kcq)) l ->
    exists e, call_chain s (map fst l) = Ok (set_where s e)
      /\ cond_empty e = Ok false
      /\ expr_sql e = Ok (chain_sql acc (map (fun kcq => (fst (fst kcq), snd kcq)) l)).
  Proof.
    induction l as [|[[k c] q] l IH]; intros s acc Hs He Ha Hl; cbn [map fst snd call_chain chain_sql].
    - exists (where_of s). rewrite set_where_of. auto.
    - inversion_clear Hl as [|? ? [Hc Hq] Hl']. cbn [fst snd] in *.
      rewrite call_next; [|exact Hs|apply kept_nil, Hc|exact He]. cbn [bind].
      destruct (IH (set_where s (joined k (where_of s) c))
                  (lit "(" ++ acc ++ lit (link_text k) ++ q ++ lit ")")%list) as (e & E1 & E2 & E3).
      + rewrite has_set_where. exact Hs.
      + rewrite where_of_set by exact Hs. apply joined_kept; assumption.
      + rewrite where_of_set by exact Hs. apply joined_sql; assumption.
      + exact Hl'.
      + exists e. rewrite E1, set_set_where. auto.
  Qed.

  (* Conditions with a known tree. *)
  Lemma builds_where : forall c e, builds c e -> clean plain_name c = true ->
    cond_empty e = Ok false /\ new_wrapper e = e.
  Proof.
    intros c e B C. destruct (builds_shape c e B C) as (N & Wr & E & _). unfold cond_empty. rewrite N. auto.
  Qed.

  Lemma chain_builds : forall l s c0,
    has_where_methods s = true -> builds c0 (where_of s) -> clean plain_name c0 = true ->
    Forall (fun kce => builds (snd kce) (snd (fst kce)) /\ clean plain_name (snd kce) = true) l ->
    exists e c, call_chain s (map fst l) = Ok (set_where s e) /\ builds c e /\ clean plain_name c = true
      /\ meant c = chain_tree (meant c0) (map (fun kce => (fst (fst kce), meant (snd kce))) l).
  Proof.
    induction l as [|[[k e1] c1] l IH]; intros s c0 Hs B C Hl; cbn [map fst snd call_chain chain_tree].
    - exists (where_of s), c0. rewrite set_where_of. auto.
    - inversion_clear Hl as [|? ? [B1 C1] Hl']. cbn [fst snd] in *.
      destruct (builds_where _ _ B C) as [E0 _]. destruct (builds_where _ _ B1 C1) as [E1 W1].
      rewrite call_next; [|exact Hs|apply kept_nil, E1|exact E0]. cbn [bind].
      destruct (IH (set_where s (joined k (where_of s) e1)) (match k with KOr => Or_ | _ => And_ end c0 c1))
        as (e & c & X1 & X2 & X3 & X4).
      + rewrite has_set_where. exact Hs.
      + rewrite where_of_set by exact Hs. unfold joined. rewrite W1.
        destruct k; [apply b_and|apply b_and|apply b_or]; assumption.
      + destruct k; cbn [clean]; rewrite C, C1; reflexivity.
      + exact Hl'.
      + exists e, c. rewrite X1, set_set_where, X4. destruct k; auto.
  Qed.

  Lemma reads : forall s c e, has_where_methods s = true -> builds c e -> clean plain_name c = true ->
    is_ok (template (set_where s ENil)) = true ->
    where_reads (set_where s e) (meant c).
  Proof.
    intros s c e Hs B C Hok. destruct (template (set_where s ENil)) as [base|] eqn:Hb; [|discriminate].
    destruct (builds_shape c e B C) as (N & Wr & Em & q & Fq & Rt & Rv).
    assert (K : cond_empty e = Ok false) by (unfold cond_empty; rewrite N; exact Em).
    destruct (template_where s e q base Hs K Fq Hb) as (pre & post & Eb & Ht).
    exists pre, q, post. rewrite set_set_where. split; [rewrite Hb, Eb; reflexivity|].
    split; [rewrite query_template, Ht; reflexivity|]. cbn zeta.
    intros b rest Hr. rewrite Rt. eexists. split; [apply read_cond_text; assumption|].
    rewrite !args_app, args_lit, Rv. cbn [app]. apply look_cond.
  Qed.
End WhereP.
