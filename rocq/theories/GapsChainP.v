(* Chains of calls with nothing missing in their arguments. *)
From Coq Require Import Permutation.
From Verif Require Export GapsApiP.
From Verif Require Import JoinP AssignP.
Local Open Scope list_scope.

(* ------------------------------------------------------------------------- *)
(* JOIN                                                                        *)
(* ------------------------------------------------------------------------- *)

(* The conditions that ParseJoin builds. *)
Inductive on_tree : expr -> Prop :=
| on_one l r : on_tree (EOn l r)
| on_more x o l r : on_tree x -> o <> "" -> on_tree (EInfix x (Some o) (EOn l r)).

Lemma parse_tree : forall toks chain j j', parse_loop chain toks j = Ok (j', None) ->
  (chain = true -> on_tree (j_cond j)) -> j_cond j = ENil \/ on_tree (j_cond j) -> j_cond j' = ENil \/ on_tree (j_cond j').
Proof.
  intro toks. induction toks as [toks IH] using tokens_ind. intros chain j j' H C S.
  destruct toks as [|e rest]; cbn [parse_loop] in H; [injection H as <-; exact S|].
  destruct (chain && (is_type "AND" e || is_type "OR" e)) eqn:Ec.
  { destruct rest as [|l rest1]; [discriminate H|]. destruct (is_type "Literal" l); [|discriminate H].
    destruct rest1 as [|q rest2]; [discriminate H|]. destruct (is_type "=" q); [|discriminate H].
    destruct rest2 as [|r rest3]; [discriminate H|]. destruct (is_type "Literal" r); [|discriminate H].
    assert (T : on_tree (j_cond (set_cond j (EInfix (j_cond j) (Some (if is_type "AND" e then "AND" else "OR")) (EOn (lk_column (tk_value l)) (lk_column (tk_value r))))))).
    { cbn. constructor; [|destruct (is_type "AND" e); discriminate]. apply C. destruct chain; [reflexivity|discriminate Ec]. }
    refine (IH rest3 _ _ _ _ H _ (or_intror T)); [cbn [List.length]; lia|intros _; exact T]. }
  destruct (is_type "JOIN" e).
  { refine (IH rest _ _ _ _ H _ S); [cbn [List.length]; lia|discriminate]. }
  destruct (is_type "INNER" e || is_type "LEFT" e || is_type "RIGHT" e).
  { destruct rest as [|n rest1]; [injection H as <-; exact S|]. destruct (is_type "JOIN" n); [|injection H as <-; exact S].
    refine (IH rest1 _ _ _ _ H _ S); [cbn [List.length]; lia|discriminate]. }
  destruct (is_type "Literal" e).
  { destruct rest as [|n rest1]; [injection H as <-; exact S|].
    destruct (is_type "ON" n); [refine (IH rest1 _ _ _ _ H _ S); [cbn [List.length]; lia|discriminate]|].
    destruct (is_type "=" n); [|injection H as <-; exact S].
    destruct rest1 as [|r rest2]; [discriminate H|]. destruct (is_type "Literal" r); [|discriminate H].
    refine (IH rest2 _ _ _ _ H _ (or_intror (on_one _ _))); [cbn [List.length]; lia|intros _; constructor]. }
  destruct (is_type "ON" e || is_type "(" e || is_type ")" e); [|injection H as <-; exact S].
  refine (IH rest _ _ _ _ H _ S); [cbn [List.length]; lia|discriminate].
Qed.

Lemma parsed_tree : forall s j, must_parse_join s = Ok j -> j_cond j = ENil \/ on_tree (j_cond j).
Proof.
  intros s j H. unfold must_parse_join, parse_join in H.
  destruct (parse_loop _ _ _) as [[j' [m|]]|] eqn:E; try discriminate H. cbn in H. injection H as ->.
  refine (parse_tree _ _ _ _ E _ (or_introl eq_refl)). discriminate.
Qed.

Lemma fine_on : forall l r, fine (EOn l r).
Proof. intros l r. split; [intro H; inversion H; subst; [contradiction|match goal with W : written _ _ |- _ => inversion W end]|no_wrap]. Qed.

Lemma tree_no_wrap : forall e, on_tree e -> ~ wraps_nil e.
Proof.
  intros e H. induction H as [l r|x o l r H IH N]; [exact (proj2 (fine_on l r))|].
  rewrite wraps_infix. intros [K|K]; [contradiction|]. exact (proj2 (fine_on l r) K).
Qed.
Lemma tree_solid : forall e, on_tree e -> ~ blank e -> solid e.
Proof.
  intros e H. induction H as [l r|x o l r H IH N]; intro B; [split; [exact B|apply fine_on]|].
  rewrite blank_infix in B. apply (solid_infix x o (EOn l r) N). split; [apply IH; tauto|]. split; [tauto|apply fine_on].
Qed.

Definition join_arg (j : join) : Prop := (j_cond j = ENil \/ on_tree (j_cond j)) \/ fine (j_cond j).

Lemma nonempty_solid : forall e, (e = ENil \/ on_tree e) \/ fine e -> is_empty e = Ok false -> solid e.
Proof.
  intros e H E. assert (N : e <> ENil) by (intros ->; discriminate E).
  assert (W : ~ wraps_nil e) by (destruct H as [[H|H]|[_ H]]; [contradiction|apply tree_no_wrap, H|exact H]).
  assert (B : ~ blank e) by (destruct (emptiness e W N) as [[K _]|[_ K]]; [congruence|exact K]).
  destruct H as [[H|H]|H]; [contradiction|apply tree_solid; assumption|split; assumption].
Qed.

Lemma handle_join_arg : forall a0 a1 j, handle_join a0 a1 = Ok j -> fine_join_arg a1 -> join_arg j.
Proof.
  intros a0 a1 j H F. unfold handle_join in H. match type of H with (do t <- ?r; _) = _ => destruct r as [t|] end; [|discriminate H].
  cbn [bind] in H. match type of H with (do j <- ?r; _) = _ => destruct r as [j'|] eqn:E end; [|discriminate H].
  cbn [bind] in H. injection H as <-. unfold join_arg. cbn [set_table j_cond].
  destruct a1; try discriminate E.
  - left. exact (parsed_tree _ _ E).
  - right. cbn in F. destruct e; try discriminate E; injection E as <-; exact F.
Qed.

Lemma join_solid : forall q args q', sel_join q args = Ok q' -> Forall fine_join_arg args ->
  exists j, q' = with_joins q (s_joins q ++ [j]) /\ solid (j_cond j).
Proof.
  intros q args q' H F.
  assert (A : forall j, join_arg j -> add_join q j = Ok q' -> exists j, q' = with_joins q (s_joins q ++ [j]) /\ solid (j_cond j)).
  { intros j J K. unfold add_join, join_empty in K. destruct (no_str (j_type j) || no_str (t_name (j_table j))); [discriminate K|].
    destruct (is_empty (j_cond j)) as [[|]|] eqn:E; [discriminate K| |discriminate K]. injection K as <-.
    exists j. split; [reflexivity|]. exact (nonempty_solid _ J E). }
  unfold sel_join in H. destruct args as [|a0 [|a1 [|a2 [|a3 args]]]]; [discriminate H| | | |discriminate H].
  - inversion F; subst. match type of H with (do j <- ?r; _) = _ => destruct r as [j|] eqn:E end; [|discriminate H]. cbn [bind] in H.
    apply (A j); [|exact H]. destruct a0; try discriminate E; [left; exact (parsed_tree _ _ E)|].
    injection E as <-. right. assumption.
  - inversion F as [|? ? _ F1]; subst. inversion F1; subst. destruct (handle_join a0 a1) as [j|] eqn:E; [|discriminate H]. cbn [bind] in H.
    apply (A j); [|exact H]. eapply handle_join_arg; eassumption.
  - inversion F as [|? ? _ F1]; subst. inversion F1; subst. destruct (handle_join a0 a1) as [j|] eqn:E; [|discriminate H]. cbn [bind] in H.
    destruct a2; try discriminate H. refine (A _ _ H). assert (J : join_arg j) by (eapply handle_join_arg; eassumption). exact J.
Qed.

(* ------------------------------------------------------------------------- *)
(* Items, tables and conditions                                                *)
(* ------------------------------------------------------------------------- *)

Lemma concat_res_fine {A} (P : A -> Prop) : forall l m, concat_res l = Ok m ->
  (forall x, In (Ok x) l -> Forall P x) -> Forall P m.
Proof.
  intros l m H F. unfold concat_res in H. destruct (map_res (fun x => x) l) as [ls|] eqn:E; [|discriminate H].
  cbn [bind] in H. injection H as <-. apply Forall_concat. apply Forall_forall. intros x I.
  destruct (map_res_in _ _ _ E x I) as (y & Iy & ->). exact (F x Iy).
Qed.

Lemma columns_fine : forall l, Forall fine_item (map SColumn l).
Proof. intro l. apply Forall_forall. intros x I. apply in_map_iff in I. destruct I as (c & <- & _). exact I. Qed.

Lemma selexprs1_fine : forall g l, to_selexprs1 g = Ok l -> fine_item_arg g -> Forall fine_item l /\ l <> [].
Proof.
  intros g l H F. unfold to_selexprs1 in H. destruct (as_selexpr g) as [i|] eqn:E.
  - destruct (selexpr_empty i); [discriminate H|]. injection H as <-. split; [|discriminate].
    constructor; [|constructor]. destruct g; try discriminate E; cbn in E, F.
    + destruct e; try discriminate E; injection E as <-; [exact I|exact F|exact F].
    + injection E as <-. exact I.
    + destruct s; try discriminate E; injection E as <-; exact F || exact I.
  - destruct g; try discriminate H. destruct (split_columns s) as [cs|] eqn:Es; [|discriminate H]. cbn [bind] in H.
    injection H as <-. split; [apply columns_fine|]. unfold split_columns in Es. pose proof (split_nonempty "," s) as N.
    destruct (split_on "," s) as [|x r]; [contradiction|]. cbn [map_res] in Es.
    destruct (check_column _); [|discriminate Es]. cbn [bind] in Es. destruct (map_res _ r); [|discriminate Es].
    injection Es as <-. discriminate.
Qed.

Lemma concat_res_some {A} : forall (l : list (res (list A))) m, concat_res l = Ok m ->
  l <> [] -> (forall x, In (Ok x) l -> x <> []) -> m <> [].
Proof.
  intros l m H N F. unfold concat_res in H. destruct (map_res (fun x => x) l) as [ls|] eqn:E; [|discriminate H].
  cbn [bind] in H. injection H as <-. destruct l as [|x l]; [contradiction|]. cbn [map_res] in E.
  destruct x as [x|]; [|discriminate E]. cbn [bind] in E. destruct (map_res _ l); [|discriminate E]. injection E as <-.
  assert (K := F x (or_introl eq_refl)). destruct x; [contradiction|discriminate].
Qed.
Lemma map_res_some {A B} (f : A -> res B) : forall l m, map_res f l = Ok m -> l <> [] -> m <> [].
Proof.
  intros [|x l] m H N; [contradiction|]. cbn [map_res] in H. destruct (f x); [|discriminate H]. cbn [bind] in H.
  destruct (map_res f l); [|discriminate H]. injection H as <-. discriminate.
Qed.

Lemma selexprs_fine : forall args l, to_selexprs args = Ok l -> Forall fine_item_arg args -> Forall fine_item l.
Proof.
  intros args l H F.
  assert (G : concat_res (map to_selexprs1 args) = Ok l -> Forall fine_item l).
  { intro K. apply (concat_res_fine fine_item _ _ K). intros x I. apply in_map_iff in I. destruct I as (g & E & Ig).
    rewrite Forall_forall in F. exact (proj1 (selexprs1_fine g x E (F g Ig))). }
  unfold to_selexprs in H. destruct args as [|g [|g' args]]; [exact (G H)| |destruct g; exact (G H)].
  destruct g; try (exact (G H)).
  - injection H as <-. apply Forall_forall. intros x I. apply in_map_iff in I. destruct I as (c & <- & _). exact I.
  - destruct (map_res check_column l0); [|discriminate H]. cbn [bind] in H. injection H as <-. apply columns_fine.
  - injection H as <-. inversion F; subst. assumption.
Qed.
Lemma selexprs_some : forall args l, to_selexprs args = Ok l -> Forall fine_item_arg args ->
  args <> [] -> Forall (fun g => ~ empty_slice g) args -> l <> [].
Proof.
  intros args l H F N S. unfold empty_slice in S.
  assert (G : concat_res (map to_selexprs1 args) = Ok l -> l <> []).
  { intro K. apply (concat_res_some _ _ K); [destruct args; [contradiction|discriminate]|]. intros x I. apply in_map_iff in I.
    destruct I as (g & E & Ig). rewrite Forall_forall in F. exact (proj2 (selexprs1_fine g x E (F g Ig))). }
  unfold to_selexprs in H. destruct args as [|g [|g' args]]; [exact (G H)| |destruct g; exact (G H)]. inversion S as [|? ? Ns _]; subst.
  destruct g; try (exact (G H)).
  - injection H as <-. destruct l0; [contradiction Ns; tauto|discriminate].
  - destruct (map_res check_column l0) as [m|] eqn:E; [|discriminate H]. cbn [bind] in H. injection H as <-.
    assert (K : m <> []) by (apply (map_res_some _ _ _ E); intros ->; apply Ns; tauto). destruct m; [contradiction|discriminate].
  - injection H as <-. intros ->. apply Ns. tauto.
Qed.

Lemma from_fine : forall args l, to_from args = Ok l -> Forall no_from args -> ~ In FNil l /\ l <> [].
Proof.
  intros args l H F. unfold to_from in H. destruct (map_res to_fromitem args) as [m|] eqn:E; [|discriminate H]. cbn [bind] in H.
  destruct (nonempty m) eqn:En; [|discriminate H]. injection H as <-. split; [|intros ->; discriminate En].
  intro I. destruct (map_res_in _ _ _ E FNil I) as (g & Ig & K). rewrite Forall_forall in F. specialize (F g Ig).
  destruct g; try discriminate K; try contradiction. destruct e; discriminate K.
Qed.

Definition condition_ok (e : expr) : Prop := e = ENil \/ solid e.
Lemma condition_no_wrap : forall e, condition_ok e -> ~ wraps_nil e.
Proof. intros e [-> | (_ & _ & W)]; [no_wrap|exact W]. Qed.
Lemma condition_no_gap : forall e, condition_ok e -> ~ clause_gap e.
Proof. intros e [-> | (B & G & W)] [K1 K2]; [apply K1; constructor|contradiction]. Qed.

Lemma solid_new_where : forall e, solid e -> condition_ok (new_where e).
Proof. intros e H. right. apply solid_wrapper. exact H. Qed.
Lemma where_and_solid : forall wh c x, where_and wh c = Ok x -> condition_ok wh -> solid c -> condition_ok x.
Proof.
  intros wh c x H W C. unfold where_and in H. destruct W as [-> | W]; [discriminate H|].
  destruct (cond_empty wh) as [[|]|]; try discriminate H. injection H as <-. right. apply solid_infix; [discriminate|].
  split; [exact W|apply solid_wrapper, C].
Qed.
Lemma where_or_solid : forall wh c x, where_or wh c = Ok x -> condition_ok wh -> solid c -> condition_ok x.
Proof.
  intros wh c x H W C. unfold where_or in H. destruct W as [-> | W]; [discriminate H|].
  destruct (cond_empty wh) as [[|]|]; try discriminate H. injection H as <-. right. apply solid_infix; [discriminate|].
  split; [exact W|apply solid_wrapper, C].
Qed.
Lemma where_where_solid : forall wh c x, where_where wh c = Ok x -> condition_ok wh -> solid c -> condition_ok x.
Proof.
  intros wh c x H W C. unfold where_where in H. destruct (cond_empty wh) as [[|]|] eqn:E; try discriminate H.
  - injection H as <-. apply solid_new_where, C.
  - exact (where_and_solid _ _ _ H W C).
Qed.

(* ------------------------------------------------------------------------- *)
(* SELECT                                                                      *)
(* ------------------------------------------------------------------------- *)

Definition select_ok (q : select) : Prop :=
  Forall fine_with (s_with q) /\ (s_exprs q <> [] /\ Forall fine_item (s_exprs q)) /\ ~ In FNil (s_from q)
  /\ Forall (fun j => solid (j_cond j)) (s_joins q) /\ condition_ok (s_where q) /\ condition_ok (s_having q).

Lemma select_ok_fine : forall q, select_ok q -> fine (ESelect q).
Proof.
  intros q (Hw & (Ne & Hi) & Hf & Hj & Hc & Hh). rewrite Forall_forall in Hw, Hi, Hj. split.
  - intro G. inversion G; subst.
    + contradiction.
    + contradiction.
    + exact (Hi _ ltac:(eassumption)).
    + contradiction.
    + match goal with W : written _ _ |- _ => inversion W; subst end.
      * destruct (Hw _ ltac:(eassumption)) as [_ K]. apply K. repeat split; assumption.
      * specialize (Hi _ ltac:(eassumption)). match goal with K : _ \/ _ |- _ => destruct K as [-> | ->] end; destruct Hi; contradiction.
      * destruct (Hj _ ltac:(eassumption)) as (_ & K & _). contradiction.
      * apply (condition_no_gap _ Hc). split; assumption.
      * apply (condition_no_gap _ Hh). split; assumption.
  - no_wrap. unfold select_children in *. repeat match goal with H : In _ (_ ++ _) |- _ => apply in_app_or in H; destruct H as [H|H] end.
    + apply in_map_iff in H. destruct H as (w & <- & Iw). destruct (Hw _ Iw). contradiction.
    + apply in_flat_map in H. destruct H as (i & Ii & Ix). specialize (Hi _ Ii). destruct i; cbn in *; try contradiction;
        destruct Ix as [<- | []]; destruct Hi; contradiction.
    + apply in_map_iff in H. destruct H as (j & <- & Ij). destruct (Hj _ Ij) as (_ & _ & K). contradiction.
    + destruct H as [<- | [<- | []]]; [exact (condition_no_wrap _ Hc ltac:(assumption))|exact (condition_no_wrap _ Hh ltac:(assumption))].
Qed.

Ltac inv_do H x E := match type of H with
  | (do _ <- ?r; _) = _ => destruct r as [x|] eqn:E; [|discriminate H]; cbn [bind] in H
  | (if ?b then _ else _) = _ => destruct b eqn:E; try discriminate H
  end.

Lemma sel_step_ok : forall q c q', sel_step q c = Ok q' -> sel_fine c -> select_ok q -> select_ok q'.
Proof.
  intros q c q' H F (Hw & (Ne & Hi) & Hf & Hj & Hc & Hh). destruct q as [pre wi di don es fr js wh gb hv ob li off su co].
  cbn in Hw, Ne, Hi, Hf, Hj, Hc, Hh. unfold select_ok.
  destruct c; cbn [sel_step] in H; cbn [sel_fine] in F; cbn [s_group_by s_from s_where s_having s_limit s_offset] in H.
  - inv_do H x E. inv_do H x E'. inv_do H y E''. injection H as <-. cbn. tauto.
  - injection H as <-. cbn. tauto.
  - destruct F as [F S]. inv_do H l E. injection H as <-. cbn.
    assert (K : Forall fine_item l /\ l <> []).
    { destruct args as [|g args]; [|split; [exact (selexprs_fine _ _ E F)|exact (selexprs_some _ _ E F ltac:(discriminate) S)]].
      cbn in E. injection E as <-. split; [repeat constructor|discriminate]. }
    tauto.
  - inv_do H x E. inv_do H l E'. injection H as <-. cbn. pose proof (from_fine _ _ E' F). tauto.
  - destruct (join_solid _ _ _ H F) as (j & -> & S). cbn. assert (Forall (fun j => solid (j_cond j)) (js ++ [j])) by (apply Forall_app; split; [assumption|repeat constructor; apply S]).
    tauto.
  - injection H as <-. cbn. assert (Forall fine_with (if nonempty wi then wi ++ args else args)) by
      (destruct (nonempty wi); [apply Forall_app; tauto|exact F]). tauto.
  - inv_do H x E. inv_do H x E'. injection H as <-. cbn. pose proof (where_where_solid _ _ _ E' Hc F). tauto.
  - inv_do H x E. inv_do H x E'. injection H as <-. cbn. pose proof (where_and_solid _ _ _ E' Hc F). tauto.
  - inv_do H x E. injection H as <-. cbn. pose proof (where_or_solid _ _ _ E Hc F). tauto.
  - inv_do H x E. inv_do H x E'. inv_do H y E''. injection H as <-. cbn. tauto.
  - inv_do H x E. inv_do H y E'. injection H as <-. cbn. assert (condition_ok c) by (right; exact F). tauto.
  - injection H as <-. cbn. tauto.
  - inv_do H x E. inv_do H y E'. injection H as <-. cbn. tauto.
  - inv_do H x E. inv_do H y E'. injection H as <-. cbn. tauto.
  - inv_do H x E. inv_do H y E'. injection H as <-. cbn. tauto.
  - inv_do H x E. inv_do H y E'. injection H as <-. cbn. tauto.
  - injection H as <-. cbn. tauto.
Qed.

Lemma fold_ok {A C} (step : A -> C -> res A) (good : C -> Prop) (P : A -> Prop) :
  (forall a c a', step a c = Ok a' -> good c -> P a -> P a') ->
  forall cs a a', fold_res step cs a = Ok a' -> Forall good cs -> P a -> P a'.
Proof.
  intro S. induction cs as [|c cs IH]; intros a a' H F Pa; cbn [fold_res] in H; [injection H as <-; exact Pa|].
  inv_do H a1 E. inversion F; subst. apply (IH a1 a' H ltac:(assumption)). exact (S a c a1 E ltac:(assumption) Pa).
Qed.

Lemma select_chain_ok : forall columns calls q0 q, lk_select columns = Ok q0 -> sel_run q0 calls = Ok q ->
  sel_fine (SelColumns columns) -> Forall sel_fine calls -> select_ok q.
Proof.
  intros columns calls q0 q H0 H F0 F. refine (fold_ok sel_step sel_fine select_ok sel_step_ok calls q0 q H F _).
  unfold lk_select in H0. cbn [sel_step] in H0. inv_do H0 l E. injection H0 as <-. cbn in F0. destruct F0 as [F0 S].
  unfold select_ok, condition_ok. cbn.
  assert (K : Forall fine_item l /\ l <> []).
  { destruct columns as [|g args]; [|split; [exact (selexprs_fine _ _ E F0)|exact (selexprs_some _ _ E F0 ltac:(discriminate) S)]].
    cbn in E. injection E as <-. split; [repeat constructor|discriminate]. }
  repeat split; try tauto; constructor.
Qed.

(* ------------------------------------------------------------------------- *)
(* DELETE                                                                      *)
(* ------------------------------------------------------------------------- *)

Definition delete_ok (d : delete) : Prop :=
  (d_from d <> [] /\ ~ In FNil (d_from d)) /\ condition_ok (d_where d) /\ Forall fine_item (d_returning d).

Lemma fine_item_ok : forall l, Forall fine_item l -> ~ Exists item_gap l /\ ~ Exists item_wraps_nil l.
Proof.
  intros l F. rewrite Forall_forall in F. split; intro K; apply Exists_exists in K; destruct K as (i & I & K); specialize (F i I).
  - destruct i; cbn in *; try contradiction; destruct F; contradiction.
  - destruct K as (x & Ix & W). destruct i; cbn in *; try contradiction; destruct Ix as [<- | []]; destruct F; contradiction.
Qed.

Lemma delete_ok_whole : forall d, delete_ok d -> ~ lacks_part (StDelete d) /\ ~ stmt_wraps_nil (StDelete d).
Proof.
  intros d ((N & Hf) & Hc & Hr). destruct (fine_item_ok _ Hr) as [R1 R2]. pose proof (condition_no_gap _ Hc). pose proof (condition_no_wrap _ Hc).
  cbn [lacks_part stmt_wraps_nil]. tauto.
Qed.

Lemma del_step_ok : forall d c d', del_step d c = Ok d' -> del_fine c -> delete_ok d -> delete_ok d'.
Proof.
  intros d c d' H F ((N & Hf) & Hc & Hr). destruct d as [fr us wh re co]. cbn in N, Hf, Hc, Hr. unfold delete_ok.
  destruct c; cbn [del_step] in H; cbn [del_fine] in F; cbn [d_from d_using d_where d_returning] in H.
  - inv_do H x E. inv_do H l E'. injection H as <-. cbn. pose proof (from_fine _ _ E' F). tauto.
  - inv_do H x E. inv_do H l E'. injection H as <-. cbn. tauto.
  - inv_do H x E. injection H as <-. cbn. pose proof (where_where_solid _ _ _ E Hc F). tauto.
  - inv_do H x E. injection H as <-. cbn. pose proof (where_and_solid _ _ _ E Hc F). tauto.
  - inv_do H x E. injection H as <-. cbn. pose proof (where_or_solid _ _ _ E Hc F). tauto.
  - inv_do H x E. inv_do H l E'. injection H as <-. cbn. pose proof (selexprs_fine _ _ E' F). tauto.
  - injection H as <-. cbn. tauto.
Qed.

Lemma delete_chain_ok : forall g calls d0 d, lk_delete g = Ok d0 -> no_from g -> del_run d0 calls = Ok d ->
  Forall del_fine calls -> delete_ok d.
Proof.
  intros g calls d0 d H0 G H F. refine (fold_ok del_step del_fine delete_ok del_step_ok calls d0 d H F _).
  unfold lk_delete in H0. cbn [del_step new_delete d_from nonempty] in H0. inv_do H0 l E. injection H0 as <-.
  destruct (from_fine _ _ E ltac:(repeat constructor; exact G)) as [K1 K2]. unfold delete_ok, condition_ok. cbn.
  repeat split; try assumption; [left; reflexivity|constructor].
Qed.
