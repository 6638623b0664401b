(* Building commutes with following the references: proofs for C72. *)
From Verif Require Import Ast Write Api Parser Build Sql SubstP Sort Buffers.
From Coq Require Import Lia.

Definition rmap {A B} (f : A -> B) (x : res A) : res B := match x with Ok a => Ok (f a) | Panic p => Panic p end.

Lemma rmap_bind : forall A A' B B' (f : A -> A') (g : B -> B') x x' (k : A -> res B) k',
  x' = rmap f x -> (forall a, k' (f a) = rmap g (k a)) -> bind x' k' = rmap g (bind x k).
Proof. intros A A' B B' f g [a|p] x' k k' -> H; [apply H|reflexivity]. Qed.

Lemma rmap_list : forall A A' B B' (f : A -> A') (g : B -> B') (h : A -> res B) h' l,
  (forall a, h' (f a) = rmap g (h a)) -> map_res h' (map f l) = rmap (map g) (map_res h l).
Proof.
  intros A A' B B' f g h h' l H. induction l as [|a l IH]; [reflexivity|]. cbn [map map_res]. rewrite H.
  destruct (h a); [|reflexivity]. cbn [bind rmap]. rewrite IH. destruct (map_res h l); reflexivity.
Qed.
Lemma rmap_fold : forall A A' B B' (f : A -> A') (g : B -> B') (h : A -> B -> res A) h' l a,
  (forall a b, h' (f a) (g b) = rmap f (h a b)) -> fold_res h' (map g l) (f a) = rmap f (fold_res h l a).
Proof.
  intros A A' B B' f g h h' l. induction l as [|b l IH]; intros a H; [reflexivity|]. cbn [map fold_res]. rewrite H.
  destruct (h a b); [|reflexivity]. cbn [bind rmap]. apply IH, H.
Qed.

Section Now.
  Context {O : Oracle} (M : memory).
  Notation f := (content M).

  Lemma content_nil : forall g, g <> GNil -> f g <> GNil.
  Proof. intros [] H; try exact H; cbn; try discriminate. destruct (String.eqb _ _); [destruct (M _)|]; discriminate. Qed.

  Lemma operand_now : forall g, new_expression (now_operand M g) = rmap (now_expr M) (new_expression g).
  Proof.
    intros g. destruct g; try reflexivity; cbn [now_operand].
    - destruct t; reflexivity.
    - cbn [content]. unfold now_expr. cbn [new_expression rmap subst subst_val]. cbn [content]. destruct (String.eqb ty "reference"); [destruct (M repr)|]; reflexivity.
    - destruct k; reflexivity.
    - destruct e as [e|]; [|reflexivity]. destruct e; reflexivity.
    - destruct e; reflexivity.
  Qed.
  Lemma wrapper_now : forall e, new_wrapper (now_expr M e) = now_expr M (new_wrapper e).
  Proof. intros []; reflexivity. Qed.

  Lemma operands_now : forall l, map_res new_expression (map (now_operand M) l) = rmap (map (now_expr M)) (map_res new_expression l).
  Proof. intro l. apply rmap_list, operand_now. Qed.
  Lemma plain_now : forall A (k : A -> gval) l, (forall x, now_operand M (k x) = k x) ->
    map_res new_expression (map k l) = rmap (map (now_expr M)) (map_res new_expression (map k l)).
  Proof.
    intros A k l H. rewrite <- operands_now. f_equal. rewrite map_map. apply map_ext. intro x. symmetry. apply H.
  Qed.
  Lemma exprs_now : forall l, map_res new_expression (map GExpr (map (now_expr M) l)) = rmap (map (now_expr M)) (map_res new_expression (map GExpr l)).
  Proof. intro l. rewrite <- operands_now, !map_map. reflexivity. Qed.

  Lemma single_now : forall g, map_res new_expression [now_operand M g] = rmap (map (now_expr M)) (map_res new_expression [g]).
  Proof. intro g. exact (operands_now [g]). Qed.

  Lemma slice_now : forall g, to_array (now_slice M g) = rmap (map (now_expr M)) (to_array g).
  Proof.
    intro g. destruct g; try reflexivity; try apply (single_now _);
      try solve [cbn [now_slice now_operand content to_array slice_elems]; apply plain_now; reflexivity].
    - pose proof (single_now (GBindable ty repr)) as H. cbn [now_slice now_operand content to_array slice_elems] in *.
      destruct (String.eqb ty "reference"); [destruct (M repr)|]; exact H.
    - cbn [now_slice now_operand content to_array]. destruct k; cbn [slice_elems]; try (apply plain_now; reflexivity). exact (single_now (GInts KUint8 l)).
    - cbn [now_slice to_array slice_elems]. apply exprs_now.
    - cbn [now_slice to_array slice_elems]. apply operands_now.
    - pose proof (single_now (GStmtEnc e)) as H. destruct e; exact H.
    - pose proof (single_now (GExpr e)) as H. destruct e; try exact H. reflexivity.
  Qed.

  Lemma slice_operand : forall g, new_expression (now_slice M g) = rmap (now_expr M) (new_expression g).
  Proof. intros g. destruct g; try apply (operand_now _); reflexivity. Qed.
  Lemma rows_operand : forall g, new_expression (now_rows M g) = rmap (now_expr M) (new_expression g).
  Proof. intros g. destruct g; try apply (slice_operand _); reflexivity. Qed.
  Lemma rows_slice : forall g, to_array (now_rows M g) = rmap (map (now_expr M)) (to_array g).
  Proof. intros g. destruct g; try apply (slice_now _); reflexivity. Qed.

  Lemma array_now : forall l, new_array (map (now_slice M) l) = rmap (now_expr M) (new_array l).
  Proof.
    intro l. unfold new_array. apply rmap_bind with (f := map (now_expr M)); [|reflexivity].
    destruct l as [|a [|b l]]; [reflexivity|apply slice_now|]. exact (rmap_list _ _ _ _ _ _ _ _ (a :: b :: l) slice_operand).
  Qed.
  Lemma rows_array : forall l, new_array (map (now_rows M) l) = rmap (now_expr M) (new_array l).
  Proof.
    intro l. unfold new_array. apply rmap_bind with (f := map (now_expr M)); [|reflexivity].
    destruct l as [|a [|b l]]; [reflexivity|apply rows_slice|]. exact (rmap_list _ _ _ _ _ _ _ _ (a :: b :: l) rows_operand).
  Qed.
  Lemma plain_rows_now : forall A (k : A -> gval) rows, (forall x, now_slice M (k x) = k x) ->
    map_res new_array (map (map k) rows) = rmap (map (now_expr M)) (map_res new_array (map (map k) rows)).
  Proof.
    intros A k rows H. rewrite <- (rmap_list _ _ _ _ (map (now_slice M)) (now_expr M) new_array new_array _ array_now).
    f_equal. rewrite map_map. apply map_ext. intro r. rewrite map_map. apply map_ext. intro x. symmetry. apply H.
  Qed.
  Lemma row_elems_now : forall g, to_array_list (now_rows M g) = rmap (map (now_expr M)) (to_array_list g).
  Proof.
    intro g. unfold to_array_list. destruct g; try reflexivity; try solve [cbn [now_rows now_slice now_operand content row_elems]; apply plain_rows_now; reflexivity].
    - cbn [now_rows now_slice now_operand content]. destruct (String.eqb ty "reference"); [destruct (M repr)|]; reflexivity.
    - cbn [now_rows now_slice now_operand content row_elems]. destruct k; try reflexivity; apply plain_rows_now; reflexivity.
    - cbn [now_rows row_elems]. rewrite map_map. rewrite <- (rmap_list _ _ _ _ (map (now_slice M)) (now_expr M) new_array new_array _ array_now).
      f_equal. rewrite map_map. apply map_ext. intro r. rewrite !map_map. reflexivity.
    - cbn [now_rows row_elems]. apply rmap_list, array_now.
    - destruct e; reflexivity.
  Qed.
  Lemma array_list_now : forall l, new_array_list (map (now_rows M) l) = rmap (now_expr M) (new_array_list l).
  Proof.
    intros [|v l]; [reflexivity|]. cbn [map]. unfold new_array_list.
    apply rmap_bind with (f := map (now_expr M)); [apply row_elems_now|]. intro a. rewrite map_nonempty. destruct (nonempty a); [reflexivity|].
    apply rmap_bind with (f := now_expr M); [exact (rows_array (v :: l))|]. reflexivity.
  Qed.

  (* Lists of expressions. *)
  Notation now_sel_item := (subst_sel (now_expr M)).
  Lemma as_selexpr_now : forall g, as_selexpr (now_item M g) = option_map now_sel_item (as_selexpr g).
  Proof. intro g. destruct g; try reflexivity; [destruct e|destruct s]; reflexivity. Qed.
  Lemma selexpr_empty_now : forall s, selexpr_empty (now_sel_item s) = selexpr_empty s.
  Proof. intros []; reflexivity. Qed.
  Lemma columns_item : forall l, map now_sel_item (map SColumn l) = map SColumn l.
  Proof. intro l. rewrite map_map. reflexivity. Qed.
  Lemma item_now : forall g, to_selexprs1 (now_item M g) = rmap (map now_sel_item) (to_selexprs1 g).
  Proof.
    intro g. unfold to_selexprs1. rewrite as_selexpr_now. destruct (as_selexpr g) as [s|] eqn:E; cbn [option_map].
    - rewrite selexpr_empty_now. destruct (selexpr_empty s); reflexivity.
    - destruct g; try reflexivity. cbn [now_item]. destruct (split_columns s); [|reflexivity]. cbn [bind rmap]. rewrite columns_item. reflexivity.
  Qed.
  Lemma items_now : forall l, to_selexprs (map (now_item M) l) = rmap (map now_sel_item) (to_selexprs l).
  Proof.
    intro l.
    assert (G : concat_res (map to_selexprs1 (map (now_item M) l)) = rmap (map now_sel_item) (concat_res (map to_selexprs1 l))).
    { unfold concat_res. apply rmap_bind with (f := map (map now_sel_item)).
      - rewrite map_map. induction l as [|g l IH]; [reflexivity|]. cbn [map map_res]. rewrite item_now. destruct (to_selexprs1 g); [|reflexivity].
        cbn [bind rmap]. rewrite IH. destruct (map_res _ (map to_selexprs1 l)); reflexivity.
      - intro a. cbn [rmap]. rewrite concat_map. reflexivity. }
    destruct l as [|g [|h l]]; [reflexivity| |destruct g; exact G].
    destruct g; try exact G.
    - cbn. rewrite map_map. reflexivity.
    - cbn [map now_item to_selexprs]. destruct (map_res check_column l); [|reflexivity]. cbn [bind rmap]. rewrite columns_item. reflexivity.
    - reflexivity.
  Qed.

  (* Joins. *)
  Lemma parse_loop_now : forall n toks chain j j' e, (length toks <= n)%nat -> now_expr M (j_cond j) = j_cond j ->
    parse_loop chain toks j = Ok (j', e) -> now_expr M (j_cond j') = j_cond j'.
  Proof.
    induction n as [|n IH]; intros toks chain j j' e L H E; (destruct toks as [|t toks]; [injection E as <- <-; exact H|]); [cbn in L; lia|].
    cbn [parse_loop] in E. cbn [length] in L.
    repeat match type of E with
    | (if ?b then _ else _) = _ => destruct b
    | match ?l with [] => _ | _ => _ end = _ => destruct l; cbn [length] in L
    | Ok _ = Ok _ => injection E as <- <-; try exact H; reflexivity
    | Panic _ = _ => discriminate E
    | parse_loop _ ?l _ = _ => eapply (IH l); [| |exact E]; [lia|]
    | let o := ?x in _ => cbv zeta in E
    end; try exact H; try reflexivity; cbn [set_cond set_type set_table j_cond]; unfold now_expr in *; cbn [subst]; rewrite H; reflexivity.
  Qed.
  Lemma parsed_now : forall s j, must_parse_join s = Ok j -> subst_join (now_expr M) j = j.
  Proof.
    intros s j E. unfold must_parse_join in E. destruct (parse_join s) as [[j' e]|] eqn:P; [|discriminate E]. cbn [bind snd fst] in E.
    destruct e; [discriminate E|]. injection E as ->. assert (H : now_expr M (j_cond j) = j_cond j) by (unfold parse_join in P; eapply parse_loop_now; [apply le_n| |exact P]; reflexivity).
    unfold subst_join. rewrite H. destruct j; reflexivity.
  Qed.
  Lemma parse_now : forall s, must_parse_join s = rmap (subst_join (now_expr M)) (must_parse_join s).
  Proof. intro s. destruct (must_parse_join s) as [j|] eqn:E; [|reflexivity]. cbn [rmap]. rewrite (parsed_now s j E). reflexivity. Qed.

  Lemma add_join_now : forall q j, add_join (subst_select f q) (subst_join (now_expr M) j) = rmap (subst_select f) (add_join q j).
  Proof.
    intros q j. unfold add_join.
    assert (E : join_empty (subst_join (now_expr M) j) = join_empty j).
    { unfold join_empty. cbn [subst_join j_type j_table j_cond]. unfold now_expr. rewrite subst_empty. reflexivity. }
    rewrite E. destruct (join_empty j) as [[]|]; try reflexivity. cbn [bind rmap]. unfold subst_select, subst_select_with, with_joins, now_expr. cbn.
    rewrite map_app. reflexivity.
  Qed.
  Lemma handle_join_now : forall a b, handle_join (now_join M a) (now_join M b) = rmap (subst_join (now_expr M)) (handle_join a b).
  Proof.
    intros a b. unfold handle_join. apply rmap_bind with (f := fun t : table => t); [destruct a; reflexivity|]. intro t.
    apply rmap_bind with (f := subst_join (now_expr M)); [|reflexivity].
    destruct b; try reflexivity; [apply parse_now|]. destruct e; reflexivity.
  Qed.
  Lemma sel_join_now : forall q args, sel_join (subst_select f q) (map (now_join M) args) = rmap (subst_select f) (sel_join q args).
  Proof.
    intros q [|a [|b [|c [|d args]]]]; try reflexivity; cbn [map sel_join].
    - apply rmap_bind with (f := subst_join (now_expr M)); [|apply add_join_now]. destruct a; try reflexivity. apply parse_now.
    - apply rmap_bind with (f := subst_join (now_expr M)); [apply handle_join_now|apply add_join_now].
    - apply rmap_bind with (f := subst_join (now_expr M)); [apply handle_join_now|]. intro j.
      destruct c; try reflexivity; cbn [now_join]; match goal with |- context [set_type _ ?t] => exact (add_join_now q (set_type j t)) end.
  Qed.

  (* Conditions. *)
  Lemma cond_empty_now : forall e, cond_empty (now_expr M e) = cond_empty e.
  Proof. intro e. apply subst_cond_empty. Qed.
  Lemma is_nil_now : forall e, is_nil (now_expr M e) = is_nil e.
  Proof. intro e. apply subst_nil. Qed.
  Lemma and_now : forall a b, where_and (now_expr M a) (now_expr M b) = rmap (now_expr M) (where_and a b).
  Proof. intros a b. unfold where_and. rewrite cond_empty_now. destruct (cond_empty a) as [[]|]; try reflexivity. cbn. rewrite wrapper_now. reflexivity. Qed.
  Lemma or_now : forall a b, where_or (now_expr M a) (now_expr M b) = rmap (now_expr M) (where_or a b).
  Proof. intros a b. unfold where_or. rewrite cond_empty_now. destruct (cond_empty a) as [[]|]; try reflexivity. cbn. rewrite wrapper_now. reflexivity. Qed.
  Lemma where_now : forall a b, where_where (now_expr M a) (now_expr M b) = rmap (now_expr M) (where_where a b).
  Proof.
    intros a b. unfold where_where. rewrite cond_empty_now. destruct (cond_empty a) as [[]|]; try reflexivity; cbn [bind].
    - cbn. unfold new_where. rewrite wrapper_now. reflexivity.
    - apply and_now.
  Qed.

  Notation now_select := (subst_select f).
  Lemma sel_step_now : forall q c, sel_step (now_select q) (now_sel M c) = rmap now_select (sel_step q c).
  Proof.
    intros q c. destruct c; cbn [now_sel sel_step].
    - change (s_group_by (now_select q)) with (s_group_by q). destruct (nonempty (s_group_by q)); [reflexivity|].
      destruct (to_columns args) as [cols|]; [|reflexivity]. cbn [bind]. destruct (nonempty cols); reflexivity.
    - reflexivity.
    - apply rmap_bind with (f := map (subst_sel (now_expr M))); [|reflexivity]. destruct args as [|a args]; [reflexivity|]. exact (items_now (a :: args)).
    - change (s_from (now_select q)) with (s_from q). destruct (nonempty (s_from q)); [reflexivity|]. destruct (to_from args); reflexivity.
    - apply sel_join_now.
    - cbn [rmap]. unfold with_with, subst_select, subst_select_with. cbn. rewrite map_nonempty. destruct (nonempty (s_with q)); rewrite ?map_app; reflexivity.
    - rewrite is_nil_now. destruct (is_nil c); [reflexivity|]. apply rmap_bind with (f := now_expr M); [apply (where_now (s_where q))|reflexivity].
    - rewrite is_nil_now. destruct (is_nil c); [reflexivity|]. apply rmap_bind with (f := now_expr M); [apply (and_now (s_where q))|reflexivity].
    - apply rmap_bind with (f := now_expr M); [apply (or_now (s_where q))|reflexivity].
    - change (s_group_by (now_select q)) with (s_group_by q). destruct (nonempty (s_group_by q)); [reflexivity|].
      destruct (to_columns args) as [cols|]; [|reflexivity]. cbn [bind]. destruct (nonempty cols); reflexivity.
    - change (s_having (now_select q)) with (now_expr M (s_having q)). rewrite cond_empty_now. destruct (cond_empty (s_having q)) as [[]|]; reflexivity.
    - reflexivity.
    - change (s_limit (now_select q)) with (s_limit q). destruct (s_limit q =? 0)%Z; [|reflexivity]. destruct (to_limit v); reflexivity.
    - change (s_offset (now_select q)) with (s_offset q). destruct (s_offset q =? 0)%Z; [|reflexivity]. destruct (to_offset v); reflexivity.
    - change (s_offset (now_select q)) with (s_offset q). destruct (s_offset q =? 0)%Z; [|reflexivity]. destruct (to_suffix v); reflexivity.
    - change (s_offset (now_select q)) with (s_offset q). destruct (s_offset q =? 0)%Z; [|reflexivity]. destruct (to_prefix v); reflexivity.
    - reflexivity.
  Qed.

  (* SET *)
  Notation now_pairs := (subst_pairs f).
  Lemma pm_set_now : forall c e m, pm_set c (now_expr M e) (map (fun ce => (fst ce, subst f (snd ce))) m) = map (fun ce => (fst ce, subst f (snd ce))) (pm_set c e m).
  Proof. intros c e m. induction m as [|[c' e'] m IH]; [reflexivity|]. cbn. destruct (col_eqb c c'); [reflexivity|]. cbn. rewrite IH. reflexivity. Qed.
  Lemma pairs_add_now : forall p c e, pairs_add (now_pairs p) c (now_expr M e) = rmap now_pairs (pairs_add p c e).
  Proof.
    intros p c e. unfold pairs_add. cbn [subst_pairs p_mode p_map p_cols p_exprs]. rewrite pm_get_subst, pm_set_now.
    destruct (p_mode p); try reflexivity; cbn [rmap]; destruct (pm_get c (p_map p)); reflexivity.
  Qed.
  Lemma pairs_set_now : forall p c, pairs_set (now_pairs p) c = rmap now_pairs (pairs_set p c).
  Proof. intros p c. unfold pairs_set. cbn [subst_pairs p_mode]. destruct (p_mode p); reflexivity. Qed.
  Lemma pairs_use_now : forall p e, pairs_use (now_pairs p) (now_expr M e) = rmap now_pairs (pairs_use p e).
  Proof. intros p e. unfold pairs_use. cbn [subst_pairs p_mode]. destruct (p_mode p) eqn:E; try reflexivity. cbn. unfold subst_pairs. cbn. rewrite map_app, ?E. reflexivity. Qed.
  Lemma merge_pair_now : forall p kv, merge_pair (now_pairs p) (fst kv, now_operand M (snd kv)) = rmap now_pairs (merge_pair p kv).
  Proof.
    intros p kv. unfold merge_pair. cbn [fst snd]. destruct (to_column (fst kv)) as [c|]; [|reflexivity]. cbn [bind].
    apply rmap_bind with (f := now_expr M); [apply operand_now|]. intro e. rewrite wrapper_now. apply pairs_add_now.
  Qed.
  Lemma merge_arg_now : forall p g, merge_arg (now_pairs p) (now_pair M g) = rmap now_pairs (merge_arg p g).
  Proof.
    assert (L : forall p l, fold_res merge_pair (map (fun kv => (fst kv, now_operand M (snd kv))) l) (now_pairs p) = rmap now_pairs (fold_res merge_pair l p))
      by (intros p l; apply rmap_fold; intros; apply merge_pair_now).
    assert (C : forall p l, fold_res pairs_set l (now_pairs p) = rmap now_pairs (fold_res pairs_set l p)).
    { intros p l. rewrite <- (map_id l) at 1. apply rmap_fold. intros; apply pairs_set_now. }
    intros p g. destruct g; try reflexivity; cbn [now_pair merge_arg].
    - destruct (to_columns [GStr s]); [|reflexivity]. apply C.
    - rewrite <- L. f_equal. rewrite !map_map. reflexivity.
    - apply L.
    - exact (merge_pair_now p (_, _)).
    - destruct (to_columns [GColumn c]); [|reflexivity]. apply C.
  Qed.
  Lemma merge_set_now : forall p l, merge_set (now_pairs p) (map (now_pair M) l) = rmap now_pairs (merge_set p l).
  Proof. intros p l. unfold merge_set. apply rmap_fold, merge_arg_now. Qed.
  Lemma to_set_now : forall l, to_set (map (now_pair M) l) = rmap now_pairs (to_set l).
  Proof. intro l. unfold to_set. apply (merge_set_now {| p_mode := PAssoc; p_map := []; p_cols := []; p_exprs := [] |}). Qed.

  (* INSERT *)
  Definition now_insert (i : insert) : insert := match subst_stmt f (StInsert i) with StInsert i' => i' | _ => i end.
  Lemma conflict_now : forall l t, on_conflict_loop (map (now_action M) l) t = rmap (fun ta => (fst ta, subst_action f (snd ta))) (on_conflict_loop l t).
  Proof.
    induction l as [|g l IH]; intro t; [reflexivity|]. cbn [map]. destruct g; try reflexivity; cbn [now_action on_conflict_loop].
    - destruct (to_column (GStr s)); [|reflexivity]. apply IH.
    - destruct (to_column (GColumn c)); [|reflexivity]. apply IH.
    - destruct (nonempty t); reflexivity.
  Qed.
  Lemma conflict_empty_now : forall a, conflict_empty (option_map (subst_action f) a) = conflict_empty a.
  Proof. intros [[]|]; try reflexivity. cbn. apply pairs_empty_subst. Qed.
  Lemma ins_step_now : forall i c, ins_step (now_insert i) (now_ins M c) = rmap now_insert (ins_step i c).
  Proof.
    intros i c. destruct c; cbn [now_ins ins_step].
    - change (i_into (now_insert i)) with (i_into i). destruct (no_str _); [|reflexivity]. destruct (to_into g); reflexivity.
    - destruct args as [|a args]; [reflexivity|]. change (i_columns (now_insert i)) with (i_columns i). destruct (nonempty _); [reflexivity|].
      destruct (to_columns (a :: args)); reflexivity.
    - change (i_values (now_insert i)) with (now_expr M (i_values i)). rewrite cond_empty_now. destruct (cond_empty (i_values i)) as [[]|]; try reflexivity.
      cbn [bind]. apply rmap_bind with (f := now_expr M); [apply array_list_now|reflexivity].
    - change (i_returning (now_insert i)) with (map (subst_sel (now_expr M)) (i_returning i)). rewrite map_nonempty. destruct (nonempty _); [reflexivity|].
      apply rmap_bind with (f := map (subst_sel (now_expr M))); [apply items_now|reflexivity].
    - reflexivity.
    - change (i_conflict_action (now_insert i)) with (option_map (subst_action f) (i_conflict_action i)). rewrite conflict_empty_now. destruct (conflict_empty _); [|reflexivity].
      destruct args as [|a args]; [reflexivity|]. change (i_conflict_target (now_insert i)) with (i_conflict_target i). cbn [map].
      apply rmap_bind with (f := fun ta => (fst ta, subst_action f (snd ta))); [exact (conflict_now (a :: args) _)|reflexivity].
    - change (i_columns (now_insert i)) with (i_columns i). destruct (nonempty _); [reflexivity|].
      change (i_values (now_insert i)) with (now_expr M (i_values i)). rewrite cond_empty_now. destruct (cond_empty (i_values i)) as [[]|]; try reflexivity. cbn [bind].
      apply rmap_bind with (f := now_pairs); [apply to_set_now|]. intro p.
      apply rmap_bind with (f := fun ce => (fst ce, map (now_expr M) (snd ce))).
      { rewrite pairs_values_subst. destruct (pairs_values p) as [[]|]; reflexivity. }
      intro ce. cbn [fst snd]. apply rmap_bind with (f := now_expr M); [exact (array_list_now [GExprs (snd ce)])|reflexivity].
  Qed.

  (* UPDATE and DELETE *)
  Definition now_update (u : update) : update := match subst_stmt f (StUpdate u) with StUpdate u' => u' | _ => u end.
  Definition now_delete (d : delete) : delete := match subst_stmt f (StDelete d) with StDelete d' => d' | _ => d end.
  Lemma upd_step_now : forall u c, upd_step (now_update u) (now_upd M c) = rmap now_update (upd_step u c).
  Proof.
    intros u c. destruct c; cbn [now_upd upd_step].
    - reflexivity.
    - destruct args as [|a args]; [reflexivity|]. cbn [map]. apply rmap_bind with (f := now_pairs); [exact (merge_set_now (u_set u) (a :: args))|reflexivity].
    - change (p_mode (u_set (now_update u))) with (p_mode (u_set u)). destruct (p_mode (u_set u)); try reflexivity.
      destruct args as [|a args]; [reflexivity|]. cbn [map]. apply rmap_bind with (f := now_pairs); [|reflexivity].
      change (now_operand M a :: map (now_operand M) args)%list with (map (now_operand M) (a :: args)).
      change (u_set (now_update u)) with (now_pairs (u_set u)). apply rmap_fold. intros p g. apply rmap_bind with (f := now_expr M); [apply operand_now|]. intro e. apply pairs_use_now.
    - cbn [rmap]. unfold upd_with_with, now_update. cbn. rewrite map_nonempty. destruct (nonempty (u_with u)); rewrite ?map_app; reflexivity.
    - apply rmap_bind with (f := now_expr M); [apply (where_now (u_where u))|reflexivity].
    - apply rmap_bind with (f := now_expr M); [apply (and_now (u_where u))|reflexivity].
    - apply rmap_bind with (f := now_expr M); [apply (or_now (u_where u))|reflexivity].
    - change (u_from (now_update u)) with (u_from u). destruct (nonempty _); [reflexivity|]. destruct (to_from [g]); reflexivity.
    - change (u_returning (now_update u)) with (map (subst_sel (now_expr M)) (u_returning u)). rewrite map_nonempty. destruct (nonempty _); [reflexivity|].
      apply rmap_bind with (f := map (subst_sel (now_expr M))); [apply items_now|reflexivity].
    - reflexivity.
  Qed.
  Lemma del_step_now : forall d c, del_step (now_delete d) (now_del M c) = rmap now_delete (del_step d c).
  Proof.
    intros d c. destruct c; cbn [now_del del_step].
    - change (d_from (now_delete d)) with (d_from d). destruct (nonempty _); [reflexivity|]. destruct (to_from args); reflexivity.
    - change (d_using (now_delete d)) with (d_using d). destruct (nonempty _); [reflexivity|]. destruct (to_tables args); reflexivity.
    - apply rmap_bind with (f := now_expr M); [apply (where_now (d_where d))|reflexivity].
    - apply rmap_bind with (f := now_expr M); [apply (and_now (d_where d))|reflexivity].
    - apply rmap_bind with (f := now_expr M); [apply (or_now (d_where d))|reflexivity].
    - change (d_returning (now_delete d)) with (map (subst_sel (now_expr M)) (d_returning d)). rewrite map_nonempty. destruct (nonempty _); [reflexivity|].
      apply rmap_bind with (f := map (subst_sel (now_expr M))); [apply items_now|reflexivity].
    - reflexivity.
  Qed.
End Now.

(* Any program, whatever it writes into its buffers and whenever. *)
Section Programs.
  Context {O : Oracle} {B C : Type} (step : B -> C -> res B) (statement : B -> stmt) (now : memory -> C -> C) (nowb : memory -> B -> B).
  Context (step_now : forall M b c, step (nowb M b) (now M c) = rmap (nowb M) (step b c)).
  Context (statement_now : forall M b, statement (nowb M b) = subst_stmt (content M) (statement b)).

  Lemma fold_res_app : forall A D (h : A -> D -> res A) l m a, fold_res h (l ++ m)%list a = do b <- fold_res h l a; fold_res h m b.
  Proof. intros A D h l m. induction l as [|x l IH]; intro a; [reflexivity|]. cbn [app fold_res]. destruct (h a x); [apply IH|reflexivity]. Qed.

  Lemma sent_rebuilt : forall es start calls M held, (forall M, start M = rmap (nowb M) held) ->
    sent step statement (do b <- held; fold_res step calls b) M es = rebuilt step statement now start calls M es.
  Proof.
    induction es as [|[c|a bytes|fm] es IH]; intros start calls M held H; [reflexivity| | |]; cbn [sent rebuilt].
    - rewrite <- (IH start _ M held H). f_equal. destruct held as [b|]; [|reflexivity]. cbn [bind]. rewrite fold_res_app. destruct (fold_res step calls b) as [b'|]; [|reflexivity].
      cbn [bind fold_res]. destruct (step b' c); reflexivity.
    - apply IH, H.
    - f_equal; [|apply IH, H]. rewrite H. destruct held as [b|]; [|destruct fm; reflexivity]. cbn [bind rmap].
      rewrite (rmap_fold _ _ _ _ (nowb M) (now M) step step calls b (step_now M)).
      destruct (fold_res step calls b) as [b'|]; [|destruct fm; reflexivity]. cbn [bind rmap]. rewrite statement_now.
      destruct fm; unfold rendered, rendered_now; cbn [bind]; rewrite ?query_natural, ?named_query_natural by apply content_nil; reflexivity.
  Qed.
End Programs.
