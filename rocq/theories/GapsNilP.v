(* No call of the API wraps nil. *)
From Coq Require Import Permutation.
From Verif Require Export GapsDmlP.
From Verif Require Import JoinP AssignP.
Local Open Scope list_scope.

Definition bare (e : expr) : Prop := ~ wraps_nil e.

Lemma bare_value : forall g, bare (EValue g).
Proof. intro g. exact (proj2 (fine_value_expr g)). Qed.
Lemma bare_wrapper : forall e, bare e -> bare (new_wrapper e).
Proof.
  intros e H. destruct e; cbn [new_wrapper]; try exact H; unfold bare in *; no_wrap;
    match goal with K : _ \/ False |- _ => destruct K as [<- | []] end; contradiction.
Qed.
Lemma bare_infix : forall l o r, bare l -> bare r -> bare (EInfix l o r).
Proof. intros l o r L R. unfold bare in *. rewrite wraps_infix. tauto. Qed.
Lemma bare_infix_on : forall l o r, bare l -> bare r -> bare (EInfixOn l o r).
Proof. intros l o r L R. unfold bare in *. rewrite wraps_infix_on. tauto. Qed.
Lemma bare_list : forall l, Forall bare l -> bare (EArray l) /\ bare (EArrayList l) /\ (forall f, bare (ECall f l)).
Proof. intros l F. rewrite Forall_forall in F. split; [|split; [|intro f]]; unfold bare; no_wrap; match goal with I : In ?x l, W : wraps_nil ?x |- _ => exact (F x I W) end. Qed.

Lemma expression_bare : forall v e, new_expression v = Ok e -> (forall x, has_expr v x -> bare x) -> bare e.
Proof.
  intros v e H F. apply new_expression_operand in H. destruct (expr_of v) as [x|] eqn:E.
  - subst e. apply F. apply (holds_value v); [constructor|].
    destruct v; cbn in E; try discriminate E.
    + match type of E with match ?y with _ => _ end = _ => destruct y; try discriminate E end; injection E as ->; tauto.
    + match type of E with match ?y with _ => _ end = _ => destruct y; try discriminate E end; injection E as <-; tauto.
  - destruct H as (g & ->). apply bare_value.
Qed.

Definition carries (v : gval) (x : expr) : Prop := v = GExpr x \/ v = GStmtEnc (Some x).

Lemma element_held : forall values v x, In v (elements values) -> carries v x -> exists g, In g values /\ inside v g.
Proof.
  intros values v x I E. assert (D : In v values -> exists g, In g values /\ inside v g) by (intro K; exists v; split; [exact K|constructor]).
  destruct values as [|g [|g' values]]; [exact (D I)| |exact (D I)].
  assert (B : forall (T : Type) (f : T -> gval) l, In v (map f l) -> (forall y, f y <> GExpr x /\ f y <> GStmtEnc (Some x)) -> exists g', In g' [g] /\ inside v g').
  { intros T f l K Q. apply in_map_iff in K. destruct K as (y & <- & _). destruct (Q y). destruct E; contradiction. }
  unfold elements in I. destruct g; cbn [slice_elems] in I; try (exact (D I)); try (destruct I; fail);
    try (refine (B _ _ _ I _); intro; split; discriminate).
  - destruct k; try (exact (D I)); refine (B _ _ _ I _); intro; split; discriminate.
  - apply in_map_iff in I. destruct I as (e & <- & Ie). destruct E as [E|E]; [injection E as ->|discriminate E].
    eexists. split; [left; reflexivity|]. constructor; exact Ie.
  - eexists. split; [left; reflexivity|]. eapply inside_anys; [exact I|constructor].
  - match type of I with context[GExpr ?x] => destruct x end; try (exact (D I)); destruct I.
Qed.

Lemma expression_carries : forall v e, new_expression v = Ok e -> (forall x, carries v x -> bare x) -> bare e.
Proof.
  intros v e H F. apply new_expression_operand in H. destruct (expr_of v) as [x|] eqn:E.
  - subst e. apply F. unfold carries. destruct v; cbn in E; try discriminate E.
    + match type of E with match ?y with _ => _ end = _ => destruct y; try discriminate E end; injection E as ->; tauto.
    + match type of E with match ?y with _ => _ end = _ => destruct y; try discriminate E end; injection E as <-; tauto.
  - destruct H as (g & ->). apply bare_value.
Qed.

Lemma array_carries : forall values e, new_array values = Ok e ->
  (forall v x, In v (elements values) -> carries v x -> bare x) -> bare e.
Proof.
  intros values e H F. destruct (array_elements values e H) as (l & -> & M). apply bare_list. apply Forall_forall. intros y Iy.
  destruct (map_res_in _ _ _ M y Iy) as (v & Iv & E). apply (expression_carries v y E). intros x Hx. exact (F v x Iv Hx).
Qed.
Lemma array_bare : forall values e, new_array values = Ok e -> (forall x, args_give values x -> bare x) -> bare e.
Proof.
  intros values e H F. apply (array_carries values e H). intros v x I C. destruct (element_held values v x I C) as (g & Ig & Iv).
  apply F. exists g. split; [exact Ig|]. exact (holds_value v g x Iv C).
Qed.

Lemma row_held : forall g r v x, In r (row_elems g) -> In v (elements r) -> carries v x -> has_expr g x.
Proof.
  intros g r v x Ir Iv C. destruct (element_held r v x Iv C) as (h & Ih & Vh).
  assert (B : forall (T : Type) (f : T -> gval) l, In r (map (map f) l) -> (forall y, ~ has_expr (f y) x) -> has_expr g x).
  { intros T f l K Q. apply in_map_iff in K. destruct K as (r' & <- & _). apply in_map_iff in Ih. destruct Ih as (y & <- & _).
    destruct (Q y). exact (holds_value v _ x Vh C). }
  destruct g; cbn [row_elems] in Ir; try (destruct Ir; fail);
    try (refine (B _ _ _ Ir _); intros y K; inversion K as [w g' z I E| | | | |]; subst; inversion I; subst; destruct E as [E|E]; discriminate E).
  - destruct k; try (destruct Ir; fail);
      (refine (B _ _ _ Ir _); intros y K; inversion K as [w g' z I E| | | | |]; subst; inversion I; subst; destruct E as [E|E]; discriminate E).
  - apply in_map_iff in Ir. destruct Ir as (r' & <- & Ir). apply in_map_iff in Ih. destruct Ih as (y & <- & Iy).
    inversion Vh; subst. eapply holds_value; [eapply inside_exprss; eassumption|exact C].
  - eapply holds_value; [eapply inside_anyss; eassumption|exact C].
Qed.

Lemma array_list_bare : forall values e, new_array_list values = Ok e -> (forall x, args_give values x -> bare x) -> bare e.
Proof.
  intros values e H F. unfold new_array_list in H. destruct values as [|v values]; [discriminate H|]. inv_do H l E.
  destruct (nonempty l) eqn:En.
  - injection H as <-. apply bare_list. apply Forall_forall. intros y Iy. unfold to_array_list in E.
    destruct (map_res_in _ _ _ E y Iy) as (r & Ir & Er). apply (array_carries r y Er). intros u x Iu C. apply F.
    exists v. split; [left; reflexivity|]. exact (row_held v r u x Ir Iu C).
  - inv_do H a Ea. injection H as <-. apply bare_list. constructor; [|constructor]. exact (array_bare _ _ Ea F).
Qed.

Definition item_bare (i : selexpr) : Prop := ~ item_wraps_nil i.

Lemma item_bare_iff : forall i, item_bare i <-> forall x, i = SExists x \/ i = SNotExists x -> bare x.
Proof.
  intro i. unfold item_bare, item_wraps_nil, bare. split.
  - intros H x E W. apply H. exists x. split; [|exact W]. destruct E as [-> | ->]; left; reflexivity.
  - intros H (x & I & W). apply (H x); [|exact W]. destruct i; cbn in I; try contradiction; destruct I as [<- | []]; tauto.
Qed.
Lemma column_bare : forall l, Forall item_bare (map SColumn l).
Proof. intro l. apply Forall_forall. intros i I. apply in_map_iff in I. destruct I as (c & <- & _). apply item_bare_iff. intros x [E|E]; discriminate E. Qed.

Lemma selexprs_bare : forall args l, to_selexprs args = Ok l -> (forall x, args_give args x -> bare x) -> Forall item_bare l.
Proof.
  intros args l H F.
  assert (G : concat_res (map to_selexprs1 args) = Ok l -> Forall item_bare l).
  { intro K. apply (concat_res_fine item_bare _ _ K). intros y Iy. apply in_map_iff in Iy. destruct Iy as (g & E & Ig).
    unfold to_selexprs1 in E. destruct (as_selexpr g) as [i|] eqn:Ei.
    - destruct (selexpr_empty i); [discriminate E|]. injection E as <-. constructor; [|constructor]. apply item_bare_iff. intros x Ex.
      destruct g; try discriminate Ei; cbn in Ei.
      + destruct e; try discriminate Ei; injection Ei as <-; destruct Ex as [Ex|Ex]; try discriminate Ex; injection Ex as ->.
        * assert (B : bare (EExists x)) by (apply F; eexists; split; [exact Ig|]; eapply holds_value; [constructor|left; reflexivity]).
          intro W. apply B. apply (wraps_child _ x); [left; reflexivity|exact W].
        * assert (B : bare (ENotExists x)) by (apply F; eexists; split; [exact Ig|]; eapply holds_value; [constructor|left; reflexivity]).
          intro W. apply B. apply (wraps_child _ x); [left; reflexivity|exact W].
      + injection Ei as <-. destruct Ex as [Ex|Ex]; discriminate Ex.
      + destruct s; try discriminate Ei; injection Ei as <-; destruct Ex as [Ex|Ex]; try discriminate Ex; injection Ex as ->;
          apply F; (eexists; split; [exact Ig|]); apply holds_item; tauto.
    - destruct g; try discriminate E. inv_do E cs Es. injection E as <-. apply column_bare. }
  unfold to_selexprs in H. destruct args as [|g [|g' args]]; [exact (G H)| |destruct g; exact (G H)].
  destruct g; try (exact (G H)).
  - injection H as <-. apply Forall_forall. intros i I. apply in_map_iff in I. destruct I as (c & <- & _). apply item_bare_iff. intros x [E|E]; discriminate E.
  - inv_do H cs E. injection H as <-. apply column_bare.
  - injection H as <-. apply Forall_forall. intros i I. apply item_bare_iff. intros x E. apply F. eexists. split; [left; reflexivity|]. eapply holds_items; eassumption.
Qed.

Lemma where_bare : forall wh c x, bare wh -> bare c ->
  where_where wh c = Ok x \/ where_and wh c = Ok x \/ where_or wh c = Ok x -> bare x.
Proof.
  intros wh c x W C H.
  assert (A : where_and wh c = Ok x -> bare x).
  { unfold where_and. destruct (cond_empty wh) as [[|]|]; intro K; try discriminate K. injection K as <-. apply bare_infix; [exact W|apply bare_wrapper, C]. }
  destruct H as [H|[H|H]]; [|exact (A H)|].
  - unfold where_where in H. destruct (cond_empty wh) as [[|]|]; try discriminate H; [|exact (A H)]. injection H as <-. apply bare_wrapper, C.
  - unfold where_or in H. destruct (cond_empty wh) as [[|]|]; try discriminate H. injection H as <-. apply bare_infix; [exact W|apply bare_wrapper, C].
Qed.

Lemma join_bare : forall q args q', sel_join q args = Ok q' -> (forall x, args_give args x -> bare x) ->
  exists j, q' = with_joins q (s_joins q ++ [j]) /\ bare (j_cond j).
Proof.
  intros q args q' H F.
  assert (A : forall j, bare (j_cond j) -> add_join q j = Ok q' -> exists j, q' = with_joins q (s_joins q ++ [j]) /\ bare (j_cond j)).
  { intros j J K. unfold add_join, join_empty in K. destruct (no_str (j_type j) || no_str (t_name (j_table j))); [discriminate K|].
    destruct (is_empty (j_cond j)) as [[|]|] eqn:E; [discriminate K| |discriminate K]. injection K as <-. exists j. split; [reflexivity|exact J]. }
  assert (P : forall s j, must_parse_join s = Ok j -> bare (j_cond j)).
  { intros s j K. destruct (parsed_tree s j K) as [-> | T]; [unfold bare; no_wrap|exact (tree_no_wrap _ T)]. }
  assert (Hj : forall a0 a1 j, handle_join a0 a1 = Ok j -> In a1 args -> bare (j_cond j)).
  { intros a0 a1 j K I. unfold handle_join in K. inv_do K t Et. inv_do K j' E. injection K as <-. cbn [set_table j_cond].
    destruct a1; try discriminate E; [exact (P _ _ E)|].
    assert (B : bare e) by (apply F; eexists; split; [exact I|]; eapply holds_value; [constructor|left; reflexivity]).
    destruct e; try discriminate E; injection E as <-; exact B. }
  unfold sel_join in H. destruct args as [|a0 [|a1 [|a2 [|a3 args]]]]; [discriminate H| | | |discriminate H].
  - inv_do H j E. apply (A j); [|exact H]. destruct a0; try discriminate E; [exact (P _ _ E)|].
    injection E as <-. apply F. eexists. split; [left; reflexivity|]. constructor.
  - inv_do H j E. apply (A j); [|exact H]. exact (Hj _ _ _ E (or_intror (or_introl eq_refl))).
  - inv_do H j E. destruct a2; try discriminate H. refine (A _ _ H). exact (Hj _ _ _ E (or_intror (or_introl eq_refl))).
Qed.

(* ------------------------------------------------------------------------- *)
(* Chains                                                                      *)
(* ------------------------------------------------------------------------- *)

Definition select_bare (q : select) : Prop :=
  Forall (fun w => bare (wq_sub w)) (s_with q) /\ Forall item_bare (s_exprs q)
  /\ Forall (fun j => bare (j_cond j)) (s_joins q) /\ bare (s_where q) /\ bare (s_having q).

Lemma select_bare_iff : forall q, select_bare q -> bare (ESelect q).
Proof.
  intros q (Hw & Hi & Hj & Hc & Hh). rewrite Forall_forall in Hw, Hi, Hj. unfold bare. no_wrap. unfold select_children in *.
  repeat match goal with H : In _ (_ ++ _) |- _ => apply in_app_or in H; destruct H as [H|H] end.
  - apply in_map_iff in H. destruct H as (w & <- & Iw). exact (Hw _ Iw ltac:(assumption)).
  - apply in_flat_map in H. destruct H as (i & Ii & Ix). apply (Hi _ Ii). exists x. split; assumption.
  - apply in_map_iff in H. destruct H as (j & <- & Ij). exact (Hj _ Ij ltac:(assumption)).
  - destruct H as [<- | [<- | []]]; [exact (Hc ltac:(assumption))|exact (Hh ltac:(assumption))].
Qed.

Lemma bare_nil : bare ENil.
Proof. unfold bare. no_wrap. Qed.

Lemma withs_bare : forall l, (forall x, In x (map wq_sub l) -> bare x) -> Forall (fun w : withq => bare (wq_sub w)) l.
Proof. intros l F. apply Forall_forall. intros w I. apply F. apply in_map. exact I. Qed.

Lemma sel_step_bare : forall q c q', sel_step q c = Ok q' -> (forall x, sel_given c x -> bare x) -> select_bare q -> select_bare q'.
Proof.
  intros q c q' H F (Hw & Hi & Hj & Hc & Hh). destruct q as [pre wi di don es fr js wh gb hv ob li off su co].
  cbn in Hw, Hi, Hj, Hc, Hh. unfold select_bare.
  destruct c; cbn [sel_step] in H; cbn [sel_given] in F; cbn [s_group_by s_from s_where s_having s_limit s_offset] in H.
  - inv_do H x E. inv_do H x E'. inv_do H y E''. injection H as <-. cbn. tauto.
  - injection H as <-. cbn. tauto.
  - inv_do H l E. injection H as <-. cbn.
    assert (K : Forall item_bare l).
    { destruct args as [|g args]; [|exact (selexprs_bare _ _ E F)]. cbn in E. injection E as <-. exact (column_bare [_]). }
    tauto.
  - inv_do H x E. inv_do H l E'. injection H as <-. cbn. tauto.
  - destruct (join_bare _ _ _ H F) as (j & -> & S). cbn. assert (Forall (fun j => bare (j_cond j)) (js ++ [j])) by (apply Forall_app; split; [assumption|repeat constructor; apply S]).
    tauto.
  - injection H as <-. cbn. pose proof (withs_bare _ F). assert (Forall (fun w => bare (wq_sub w)) (if nonempty wi then wi ++ args else args)) by
      (destruct (nonempty wi); [apply Forall_app; tauto|assumption]). tauto.
  - inv_do H x E. inv_do H x E'. injection H as <-. cbn. pose proof (where_bare _ _ _ Hc (F _ eq_refl) (or_introl E')). tauto.
  - inv_do H x E. inv_do H x E'. injection H as <-. cbn. pose proof (where_bare _ _ _ Hc (F _ eq_refl) (or_intror (or_introl E'))). tauto.
  - inv_do H x E. injection H as <-. cbn. pose proof (where_bare _ _ _ Hc (F _ eq_refl) (or_intror (or_intror E))). tauto.
  - inv_do H x E. inv_do H x E'. inv_do H y E''. injection H as <-. cbn. tauto.
  - inv_do H x E. inv_do H y E'. injection H as <-. cbn. pose proof (F _ eq_refl). tauto.
  - injection H as <-. cbn. tauto.
  - inv_do H x E. inv_do H y E'. injection H as <-. cbn. tauto.
  - inv_do H x E. inv_do H y E'. injection H as <-. cbn. tauto.
  - inv_do H x E. inv_do H y E'. injection H as <-. cbn. tauto.
  - inv_do H x E. inv_do H y E'. injection H as <-. cbn. tauto.
  - injection H as <-. cbn. tauto.
Qed.

Lemma select_chain_bare : forall columns calls q0 q, lk_select columns = Ok q0 -> sel_run q0 calls = Ok q ->
  (forall x, args_give columns x -> bare x) -> (forall c x, In c calls -> sel_given c x -> bare x) -> bare (ESelect q).
Proof.
  intros columns calls q0 q H0 H F0 F. apply select_bare_iff.
  refine (fold_ok sel_step (fun c => forall x, sel_given c x -> bare x) select_bare sel_step_bare calls q0 q H _ _).
  - apply Forall_forall. intros c I x. exact (F c x I).
  - refine (sel_step_bare new_select _ q0 H0 F0 _). repeat split; try constructor; apply bare_nil.
Qed.

Definition delete_bare (d : delete) : Prop := bare (d_where d) /\ Forall item_bare (d_returning d).
Lemma del_step_bare : forall d c d', del_step d c = Ok d' -> (forall x, del_given c x -> bare x) -> delete_bare d -> delete_bare d'.
Proof.
  intros d c d' H F (Hc & Hr). destruct d as [fr us wh re co]. cbn in Hc, Hr. unfold delete_bare.
  destruct c; cbn [del_step] in H; cbn [del_given] in F; cbn [d_from d_using d_where d_returning] in H.
  - inv_do H x E. inv_do H l E'. injection H as <-. cbn. tauto.
  - inv_do H x E. inv_do H l E'. injection H as <-. cbn. tauto.
  - inv_do H x E. injection H as <-. cbn. pose proof (where_bare _ _ _ Hc (F _ eq_refl) (or_introl E)). tauto.
  - inv_do H x E. injection H as <-. cbn. pose proof (where_bare _ _ _ Hc (F _ eq_refl) (or_intror (or_introl E))). tauto.
  - inv_do H x E. injection H as <-. cbn. pose proof (where_bare _ _ _ Hc (F _ eq_refl) (or_intror (or_intror E))). tauto.
  - inv_do H x E. inv_do H l E'. injection H as <-. cbn. pose proof (selexprs_bare _ _ E' F). tauto.
  - injection H as <-. cbn. tauto.
Qed.
Lemma items_bare : forall l, Forall item_bare l -> ~ Exists item_wraps_nil l.
Proof. intros l F K. rewrite Forall_forall in F. apply Exists_exists in K. destruct K as (i & I & W). exact (F i I W). Qed.

Lemma delete_chain_bare : forall g calls d0 d, lk_delete g = Ok d0 -> del_run d0 calls = Ok d ->
  (forall c x, In c calls -> del_given c x -> bare x) -> ~ stmt_wraps_nil (StDelete d).
Proof.
  intros g calls d0 d H0 H F.
  assert (K : delete_bare d).
  { refine (fold_ok del_step (fun c => forall x, del_given c x -> bare x) delete_bare del_step_bare calls d0 d H _ _).
    - apply Forall_forall. intros c I x. exact (F c x I).
    - unfold lk_delete in H0. cbn in H0. inv_do H0 l E. injection H0 as <-. split; [apply bare_nil|constructor]. }
  destruct K as [K1 K2]. apply items_bare in K2. cbn [stmt_wraps_nil]. unfold bare in K1. tauto.
Qed.

Definition pairs_bare (p : pairs) : Prop := (forall c x, In (c, x) (p_map p) -> bare x) /\ (forall x, In x (p_exprs p) -> bare x).
Lemma pairs_bare_whole : forall p, pairs_bare p -> ~ pairs_wrap_nil p.
Proof.
  intros p [A B] [K|K]; apply Exists_exists in K; [destruct K as ([c x] & I & W); exact (A c x I W)|destruct K as (x & I & W); exact (B x I W)].
Qed.

Lemma merge_pair_bare : forall p kv p', merge_pair p kv = Ok p' -> (forall x, carries (snd kv) x -> bare x) -> pairs_bare p -> pairs_bare p'.
Proof.
  intros p [k v] p' H F [A B]. unfold merge_pair in H. cbn [fst snd] in *. inv_do H c Ec. inv_do H e Ee.
  pose proof (bare_wrapper _ (expression_carries v e Ee F)) as Be. unfold pairs_add in H.
  assert (M : forall d x, In (d, x) (pm_set c (new_wrapper e) (p_map p)) -> bare x).
  { intros d x I. destruct (pm_set_in _ _ _ _ _ I) as [-> | I']; [exact Be|exact (A d x I')]. }
  destruct (p_mode p); cbn in H; try discriminate H; injection H as <-; split; cbn; assumption.
Qed.

Lemma merge_arg_bare : forall p g p', merge_arg p g = Ok p' -> (forall x, has_expr g x -> bare x) -> pairs_bare p -> pairs_bare p'.
Proof.
  intros p g p' H F Hp.
  assert (C : forall cols, fold_res pairs_set cols p = Ok p' -> pairs_bare p').
  { intros cols K. refine (fold_ok pairs_set (fun _ => True) pairs_bare _ cols p p' K ltac:(apply Forall_forall; intros; exact I) Hp).
    intros a c a' E _ Pa. unfold pairs_set in E. destruct (p_mode a); try discriminate E; injection E as <-; exact Pa. }
  assert (M : forall l, fold_res merge_pair l p = Ok p' -> (forall kv x, In kv l -> carries (snd kv) x -> bare x) -> pairs_bare p').
  { intros l K L. refine (fold_ok merge_pair (fun kv => forall x, carries (snd kv) x -> bare x) pairs_bare merge_pair_bare l p p' K _ Hp).
    apply Forall_forall. intros kv I x Cx. exact (L kv x I Cx). }
  destruct g; try discriminate H; cbn [merge_arg] in H.
  - inv_do H cols E. exact (C _ H).
  - apply (M _ H). intros kv x I Cx. apply in_map_iff in I. destruct I as ([k u] & <- & I). apply F.
    eapply holds_value; [eapply inside_map_any; [exact I|constructor]|exact Cx].
  - apply (M _ H). intros [k u] x I Cx. apply F. eapply holds_value; [eapply inside_map; [exact I|constructor]|exact Cx].
  - apply (merge_pair_bare p _ p' H); [|exact Hp]. intros x Cx. apply F. eapply holds_value; [constructor; constructor|exact Cx].
  - inv_do H cols E. exact (C _ H).
Qed.

Lemma merge_set_bare : forall args p p', merge_set p args = Ok p' -> (forall x, args_give args x -> bare x) -> pairs_bare p -> pairs_bare p'.
Proof.
  intros args p p' H F Hp. refine (fold_ok merge_arg (fun g => forall x, has_expr g x -> bare x) pairs_bare merge_arg_bare args p p' H _ Hp).
  apply Forall_forall. intros g I x Hx. apply F. exists g. split; assumption.
Qed.

Definition update_bare (u : update) : Prop :=
  pairs_bare (u_set u) /\ Forall (fun w => bare (wq_sub w)) (u_with u) /\ bare (u_where u) /\ Forall item_bare (u_returning u).

Lemma upd_step_bare : forall u c u', upd_step u c = Ok u' -> (forall x, upd_given c x -> bare x) -> update_bare u -> update_bare u'.
Proof.
  intros u c u' H F (Hp & Hw & Hc & Hr). destruct u as [wi tb on fr st wh re co]. cbn in Hp, Hw, Hc, Hr. unfold update_bare.
  destruct c; cbn [upd_step] in H; cbn [upd_given] in F; cbn [u_with u_table u_only u_from u_set u_where u_returning] in *.
  - injection H as <-. cbn. tauto.
  - destruct args as [|g args]; [discriminate H|]. inv_do H p E. injection H as <-. cbn. pose proof (merge_set_bare _ _ _ E F Hp). tauto.
  - destruct (p_mode st); try discriminate H. destruct args as [|g args]; [discriminate H|]. inv_do H p E. injection H as <-. cbn.
    assert (pairs_bare p); [|tauto].
    refine (fold_ok (fun p g => do e <- new_expression g; pairs_use p e) (fun g => forall x, carries g x -> bare x) pairs_bare _ _ st p E _ Hp).
    + intros a h a' K Fh [A B]. cbn beta in K. inv_do K e Ee. unfold pairs_use in K. destruct (p_mode a); try discriminate K. injection K as <-.
      split; [exact A|]. cbn. intros x I. apply in_app_or in I. destruct I as [I|[<- | []]]; [exact (B x I)|]. exact (expression_carries _ _ Ee Fh).
    + apply Forall_forall. intros h I x Cx. apply F. exists h. split; [exact I|]. eapply holds_value; [constructor|exact Cx].
  - injection H as <-. cbn. pose proof (withs_bare _ F). assert (Forall (fun w => bare (wq_sub w)) (if nonempty wi then wi ++ args else args)) by
      (destruct (nonempty wi); [apply Forall_app; tauto|assumption]). tauto.
  - inv_do H x E. injection H as <-. cbn. pose proof (where_bare _ _ _ Hc (F _ eq_refl) (or_introl E)). tauto.
  - inv_do H x E. injection H as <-. cbn. pose proof (where_bare _ _ _ Hc (F _ eq_refl) (or_intror (or_introl E))). tauto.
  - inv_do H x E. injection H as <-. cbn. pose proof (where_bare _ _ _ Hc (F _ eq_refl) (or_intror (or_intror E))). tauto.
  - inv_do H x E. inv_do H l E'. injection H as <-. cbn. tauto.
  - inv_do H x E. inv_do H l E'. injection H as <-. cbn. pose proof (selexprs_bare _ _ E' F). tauto.
  - injection H as <-. cbn. tauto.
Qed.

Lemma update_chain_bare : forall g calls u0 u, lk_update g = Ok u0 -> upd_run u0 calls = Ok u ->
  (forall c x, In c calls -> upd_given c x -> bare x) -> ~ stmt_wraps_nil (StUpdate u).
Proof.
  intros g calls u0 u H0 H F.
  assert (K : update_bare u).
  { refine (fold_ok upd_step (fun c => forall x, upd_given c x -> bare x) update_bare upd_step_bare calls u0 u H _ _).
    - apply Forall_forall. intros c I x. exact (F c x I).
    - unfold lk_update in H0. inv_do H0 t E. injection H0 as <-. repeat split; cbn; try constructor; try apply bare_nil; intros; contradiction. }
  destruct K as (Kp & Kw & Kc & Kr). apply items_bare in Kr. apply pairs_bare_whole in Kp. unfold bare in *.
  assert (W : ~ Exists (fun q => wraps_nil (wq_sub q)) (u_with u)).
  { intro K. rewrite Forall_forall in Kw. apply Exists_exists in K. destruct K as (q & I & W). exact (Kw q I W). }
  cbn [stmt_wraps_nil]. tauto.
Qed.

Section Insert.
  Context {O : Oracle}.

  Definition insert_bare (i : insert) : Prop :=
    bare (i_values i) /\ (forall p, i_conflict_action i = Some (ActUpdate p) -> pairs_bare p) /\ Forall item_bare (i_returning i).

  Lemma conflict_loop_bare : forall args target ta, on_conflict_loop args target = Ok ta ->
    (forall x, args_give args x -> bare x) -> forall p, snd ta = ActUpdate p -> pairs_bare p.
  Proof.
    induction args as [|g args IH]; intros target ta H F p E; cbn [on_conflict_loop] in H; [discriminate H|].
    assert (F' : forall x, args_give args x -> bare x) by (intros x (h & I & Hx); apply F; exists h; split; [right; exact I|exact Hx]).
    destruct g; try discriminate H.
    - inv_do H cc Ec. exact (IH _ _ H F' p E).
    - inv_do H cc Ec. exact (IH _ _ H F' p E).
    - injection H as <-. discriminate E.
    - destruct (nonempty target); [|discriminate H]. injection H as <-. cbn in E. injection E as ->.
      split; [intros c x I|intros x I]; apply F; (eexists; split; [left; reflexivity|]); [eapply holds_pair; exact I|eapply holds_use; exact I].
  Qed.

  Lemma pairs_values_bare : forall p ce, pairs_values p = Ok ce -> pairs_bare p -> forall x, In x (snd ce) -> bare x.
  Proof.
    intros p ce H [A B]. unfold pairs_values in H.
    destruct (p_mode p); try (injection H as <-; exact B). inv_do H es E. injection H as <-. cbn [snd].
    intros e I. destruct (map_res_in _ _ _ E e I) as (c & _ & K).
    destruct (pm_get c (p_map p)) as [e'|] eqn:G; [|discriminate K]. injection K as ->. destruct (pm_get_in _ _ _ G) as (d & Id). exact (A _ _ Id).
  Qed.

  Lemma ins_step_bare : forall i c i', ins_step i c = Ok i' -> (forall x, ins_given c x -> bare x) -> insert_bare i -> insert_bare i'.
  Proof.
    intros i c i' H F (Hv & Hc & Hr). destruct i as [into cols va ct ca re co]. cbn in Hv, Hc, Hr. unfold insert_bare.
    destruct c; cbn [ins_step] in H; cbn [ins_given] in F; cbn [i_into i_columns i_values i_returning i_conflict_action i_conflict_target] in H.
    - inv_do H x E. inv_do H t E'. injection H as <-. cbn. tauto.
    - destruct args as [|g args]; [injection H as <-; cbn; tauto|]. inv_do H x E. inv_do H x E'. injection H as <-. cbn. tauto.
    - inv_do H b E. inv_do H y E'. inv_do H e E''. injection H as <-. cbn. pose proof (array_list_bare _ _ E'' F). tauto.
    - inv_do H b E. inv_do H l E'. injection H as <-. cbn. pose proof (selexprs_bare _ _ E' F). tauto.
    - injection H as <-. cbn. tauto.
    - inv_do H b E. destruct args as [|g args]; [discriminate H|]. inv_do H ta E'. injection H as <-. cbn.
      split; [exact Hv|]. split; [|exact Hr]. intros p K. injection K as K. exact (conflict_loop_bare _ _ _ E' F p K).
    - inv_do H b E. inv_do H x E'. inv_do H y E''. inv_do H p Ep. inv_do H ce Ec. inv_do H e Ee. injection H as <-. cbn.
      split; [|tauto]. apply (array_list_bare _ _ Ee). intros z (g & [<- | []] & Hz).
      assert (P : pairs_bare p) by (apply (merge_set_bare _ _ _ Ep F); split; intros; contradiction).
      inversion Hz as [v g z' Iv Cz| | | | |]; subst. inversion Iv; subst; destruct Cz as [Cz|Cz]; try discriminate Cz.
      injection Cz as Cz. subst. match goal with I : In ?z (snd ce) |- _ => exact (pairs_values_bare p ce Ec P z I) end.
  Qed.

  Lemma insert_chain_bare : forall g calls i0 i, lk_insert g = Ok i0 -> ins_run i0 calls = Ok i ->
    (forall c x, In c calls -> ins_given c x -> bare x) -> ~ stmt_wraps_nil (StInsert i).
  Proof.
    intros g calls i0 i H0 H F.
    assert (K : insert_bare i).
    { refine (fold_ok ins_step (fun c => forall x, ins_given c x -> bare x) insert_bare ins_step_bare calls i0 i H _ _).
      - apply Forall_forall. intros c I x. exact (F c x I).
      - unfold lk_insert in H0. cbn in H0. inv_do H0 t E. injection H0 as <-. split; [apply bare_nil|]. split; [discriminate|constructor]. }
    destruct K as (K1 & K2 & K3). apply items_bare in K3. unfold bare in K1. cbn [stmt_wraps_nil].
    intros [K|[(p & E & K)|K]]; try tauto. exact (pairs_bare_whole p (K2 p E) K).
  Qed.
End Insert.

(* ------------------------------------------------------------------------- *)
(* Expressions                                                                 *)
(* ------------------------------------------------------------------------- *)

Lemma made_bare : forall e, made e -> bare e.
Proof.
  intros e H. induction H as [|g|g|s|f l _ IH|l o v e _ IHl _ IH E|l vs e N _ IHl _ IH E|g a b e _ IH E|l r e _ IHl _ IHr E|v e _ IH E|a b|l r e _ IHl _ IHr E|columns calls q0 q H0 H _ IH0 _ IH].
  - apply bare_nil.
  - exact (proj2 (fine_ident g)).
  - apply bare_value.
  - unfold bare, lk_raw. no_wrap.
  - unfold new_call. apply bare_list. apply Forall_forall. exact IH.
  - unfold cmp_expr, infix_wrapped, infix_plain in E. destruct (new_expression v) as [x|] eqn:Ev; [|destruct (cmp_wraps o); discriminate E].
    pose proof (expression_bare v x Ev IH) as B. destruct (cmp_wraps o); cbn [bind] in E; injection E as <-; apply bare_infix; try assumption. apply bare_wrapper, B.
  - assert (K : exists o a, e = EIn l o a /\ bare a).
    { destruct E as [E|E]; unfold expr_in, expr_not_in in E; inv_do E a Ea; injection E as <-; (eexists; eexists; split; [reflexivity|]); exact (array_bare _ _ Ea IH). }
    destruct K as (o & a & -> & B). unfold bare. no_wrap; [contradiction N; reflexivity|].
    match goal with K : _ \/ _ |- _ => destruct K as [<- | [<- | []]] end; [exact (IHl ltac:(assumption))|exact (B ltac:(assumption))].
  - assert (K : exists o n f t, e = EBetween g o f n t /\ bare f /\ bare t).
    { assert (B : forall v x, In v [a; b] -> new_expression v = Ok x -> bare x).
      { intros v x I Ev. apply (expression_bare v x Ev). intros y Hy. apply IH. exists v. split; assumption. }
      destruct E as [E|E]; unfold ident_between, ident_not_between in E; inv_do E f Ef; inv_do E t Et; injection E as <-;
        do 4 eexists; (split; [reflexivity|]); split; [eapply B; [|exact Ef]; cbn; tauto|eapply B; [|exact Et]; cbn; tauto|eapply B; [|exact Ef]; cbn; tauto|eapply B; [|exact Et]; cbn; tauto]. }
    destruct K as (o & n & f & t & -> & Bf & Bt). unfold bare. no_wrap.
    match goal with K : _ \/ _ |- _ => destruct K as [<- | [<- | []]] end; [exact (Bf ltac:(assumption))|exact (Bt ltac:(assumption))].
  - destruct E as [-> | [-> | [-> | ->]]]; apply bare_infix; try assumption; apply bare_wrapper; assumption.
  - destruct E as [E|E]; unfold lk_exists, lk_not_exists in E; inv_do E x Ex; injection E as <-; pose proof (expression_bare v x Ex IH) as B;
      unfold bare; no_wrap; match goal with K : _ \/ _ |- _ => destruct K as [<- | []] end; exact (B ltac:(assumption)).
  - exact (proj2 (fine_on _ _)).
  - destruct E as [-> | ->]; apply bare_infix_on; assumption.
  - exact (select_chain_bare columns calls q0 q H0 H IH0 IH).
Qed.
