(* Proofs for C01: writing commutes with replacing values. *)
From Verif Require Export Sql ExprInd.

Definition op_map (f : gval -> gval) (o : op) : op :=
  match o with W s => W s | B v => B (f v) end.
Definition tmap (f : gval -> gval) (t : tr) : tr :=
  match t with Ok l => Ok (map (op_map f) l) | Panic p => Panic p end.

Section Tmap.
  Context (f : gval -> gval).

  Lemma tmap_cat : forall a b, tmap f (a +++ b) = tmap f a +++ tmap f b.
  Proof.
    intros [a|p] [b|q]; cbn; try reflexivity. rewrite map_app. reflexivity.
  Qed.

  Lemma tmap_when : forall c t, tmap f (when c t) = when c (tmap f t).
  Proof. intros [] t; reflexivity. Qed.

  Lemma tmap_unless : forall b t, tmap f (unless b t) = unless b (tmap f t).
  Proof. intros [[]|p] t; reflexivity. Qed.

  Lemma tmap_sep_by : forall sep l, tmap f (sep_by sep l) = sep_by sep (map (tmap f) l).
  Proof.
    intros sep l; induction l as [|x [|y l] IH]; try reflexivity.
    change (sep_by sep (x :: y :: l)) with (x +++ w sep +++ sep_by sep (y :: l)).
    rewrite !tmap_cat, IH. reflexivity.
  Qed.

  Lemma tmap_w : forall s, tmap f (w s) = w s.
  Proof. reflexivity. Qed.
End Tmap.

(* A piece of output without bound value is not changed. *)
Definition closed (t : tr) : Prop := forall f, tmap f t = t.

Lemma closed_cat : forall a b, closed a -> closed b -> closed (a +++ b).
Proof. intros a b Ha Hb f. rewrite tmap_cat, Ha, Hb. reflexivity. Qed.
Lemma closed_when : forall c t, closed t -> closed (when c t).
Proof. intros [] t H f; [apply H|reflexivity]. Qed.
Lemma closed_sep_by : forall sep l, Forall closed l -> closed (sep_by sep l).
Proof.
  intros sep l H f. rewrite tmap_sep_by. f_equal.
  induction H as [|x l Hx H IH]; cbn; [reflexivity|]. rewrite Hx, IH. reflexivity.
Qed.
Lemma closed_map : forall sep A (g : A -> tr) l, (forall x, closed (g x)) -> closed (sep_by sep (map g l)).
Proof.
  intros sep A g l H. apply closed_sep_by, Forall_forall. intros t Ht.
  apply in_map_iff in Ht. destruct Ht as [x [<- _]]. apply H.
Qed.
Lemma closed_w : forall s, closed (w s).
Proof. intros s f. reflexivity. Qed.
Lemma closed_eps : closed eps.
Proof. intros f. reflexivity. Qed.
Lemma closed_panic : forall p, closed (Panic p).
Proof. intros p f. reflexivity. Qed.

Section Writers.
  Context {O : Oracle}.

  Ltac cl := repeat first
    [ apply closed_cat | apply closed_when | apply closed_w | apply closed_eps | apply closed_panic
    | apply closed_map; intro ].

  Lemma closed_column : forall c, closed (write_column c).
  Proof. intro c. unfold write_column. cl. Qed.
  Lemma closed_columns : forall l, closed (write_columns l).
  Proof. intro l. unfold write_columns. cl; apply closed_column. Qed.
  Lemma closed_table : forall c, closed (write_table c).
  Proof. intro c. unfold write_table. cl. Qed.
  Lemma closed_fromitem : forall c, closed (write_fromitem c).
  Proof. intros [|t|s]; cbn; cl; apply closed_table. Qed.
  Lemma closed_from : forall l, closed (write_from l).
  Proof. intro l. unfold write_from. cl; apply closed_fromitem. Qed.
  Lemma closed_order_by : forall l, closed (write_order_by l).
  Proof. intro l. unfold write_order_by, write_order. cl. Qed.
  Lemma closed_limit : forall l, closed (write_limit l).
  Proof. intro l. unfold write_limit. cl. Qed.
  Lemma closed_offset : forall l, closed (write_offset l).
  Proof. intro l. unfold write_offset. cl. Qed.
  Lemma closed_comment : forall l, closed (write_comment l).
  Proof. intro l. unfold write_comment. cl. Qed.
  Lemma closed_group_by : forall l, closed (write_group_by l).
  Proof. intro l. unfold write_group_by. cl; apply closed_columns. Qed.
  Lemma closed_distinct_on : forall l, closed (write_distinct_on l).
  Proof. intro l. unfold write_distinct_on. cl; apply closed_columns. Qed.
  Lemma closed_using : forall l, closed (write_using l).
  Proof. intro l. unfold write_using. cl; apply closed_table. Qed.
  Lemma closed_ident : forall g, closed (write_ident g).
  Proof. intro g. destruct g; cbn; cl. destruct e; cl. Qed.
  Lemma closed_target : forall l, closed (write_target l).
  Proof. intro l. unfold write_target. cl; apply closed_columns. Qed.
End Writers.

Section Naturality.
  Context {O : Oracle} (f : gval -> gval) (Hf : forall g, g <> GNil -> f g <> GNil).

  Lemma subst_nil : forall e, is_nil (subst f e) = is_nil e.
  Proof. intros []; reflexivity. Qed.

  Lemma map_nonempty : forall A B (g : A -> B) l, nonempty (map g l) = nonempty l.
  Proof. intros A B g []; reflexivity. Qed.

  Lemma subst_empty : forall e, is_empty (subst f e) = is_empty e.
  Proof.
    induction e using expr_ind; cbn [subst is_empty]; rewrite ?subst_nil, ?map_nonempty; try reflexivity.
    - exact IHe.
    - rewrite IHe1, IHe2. reflexivity.
    - rewrite IHe1. reflexivity.
    - rewrite IHe1, IHe2. reflexivity.
    - unfold subst_select_with. cbn. rewrite map_nonempty. reflexivity.
    - rewrite IHe1, IHe2. reflexivity.
  Qed.

  Lemma subst_cond_empty : forall e, cond_empty (subst f e) = cond_empty e.
  Proof. intro e. unfold cond_empty. rewrite subst_nil, subst_empty. reflexivity. Qed.

  Lemma write_value_subst : forall g, write_value (subst_val f g) = tmap f (write_value g).
  Proof.
    intro g. assert (D : g = GNil \/ g <> GNil) by (destruct g; (left; reflexivity) || (right; discriminate)).
    destruct D as [->|N]; [reflexivity|].
    assert (E : subst_val f g = f g) by (destruct g; reflexivity || congruence).
    rewrite E. specialize (Hf _ N).
    assert (W1 : forall h, h <> GNil -> write_value h = Ok [B h]) by (intros []; cbn; congruence).
    rewrite (W1 _ Hf), (W1 _ N). reflexivity.
  Qed.

  (* One writer for nested expressions is the image of another. *)
  Definition natural (e : expr) : Prop := write_expr (subst f e) = tmap f (write_expr e).

  Lemma nat_selexpr : forall x, (forall e, In e (selexpr_children x) -> natural e) ->
    write_selexpr write_expr (subst_sel (subst f) x) = tmap f (write_selexpr write_expr x).
  Proof.
    intros x H. destruct x; cbn [write_selexpr subst_sel];
      rewrite ?tmap_cat, ?tmap_w, ?tmap_when, ?tmap_w; try reflexivity.
    - symmetry; apply closed_column.
    - unfold write_alias. rewrite tmap_when. reflexivity.
    - rewrite H by (left; reflexivity). reflexivity.
    - rewrite H by (left; reflexivity). reflexivity.
  Qed.

  Lemma nat_withq : forall q, natural (wq_sub q) ->
    write_withq write_expr (subst_with (subst f) q) = tmap f (write_withq write_expr q).
  Proof.
    intros q H. unfold write_withq, withq_empty. cbn [subst_with wq_name wq_sub].
    rewrite subst_nil, subst_empty, tmap_unless, !tmap_cat, !tmap_w, H. reflexivity.
  Qed.

  Lemma nat_join : forall j, natural (j_cond j) ->
    write_join write_expr (subst_join (subst f) j) = tmap f (write_join write_expr j).
  Proof.
    intros j H. unfold write_join. cbn [subst_join j_type j_table j_cond].
    rewrite !tmap_cat, !tmap_w, H, (closed_table (j_table j) f). reflexivity.
  Qed.

  Lemma map_map_ext_in : forall A B C (g : A -> B) (h h' : A -> C) (k : B -> C) l,
    (forall x, In x l -> k (g x) = h x) -> h = h' -> map k (map g l) = map h' l.
  Proof. intros. subst h'. rewrite map_map. apply map_ext_in. assumption. Qed.

  Lemma nat_with : forall l, (forall e, In e (map wq_sub l) -> natural e) ->
    write_with write_expr (map (subst_with (subst f)) l) = tmap f (write_with write_expr l).
  Proof.
    intros l H. unfold write_with. rewrite map_nonempty, tmap_when, tmap_cat, tmap_w, tmap_sep_by.
    rewrite !map_map. f_equal. f_equal. f_equal. apply map_ext_in. intros q Hq.
    apply nat_withq, H, in_map, Hq.
  Qed.

  Lemma nat_joins : forall l, (forall e, In e (map j_cond l) -> natural e) ->
    write_joins write_expr (map (subst_join (subst f)) l) = tmap f (write_joins write_expr l).
  Proof.
    induction l as [|j l IH]; intro H; cbn [write_joins map]; [reflexivity|].
    rewrite !tmap_cat, tmap_w, IH, nat_join; [reflexivity| |].
    - apply H. left. reflexivity.
    - intros e He. apply H. right. exact He.
  Qed.

  Lemma nat_selexprs : forall l, (forall e, In e (flat_map selexpr_children l) -> natural e) ->
    map (write_selexpr write_expr) (map (subst_sel (subst f)) l)
    = map (tmap f) (map (write_selexpr write_expr) l).
  Proof.
    intros l H. rewrite !map_map. apply map_ext_in. intros x Hx. apply nat_selexpr.
    intros e He. apply H. apply in_flat_map. exists x. split; assumption.
  Qed.

  Lemma nat_where : forall e, natural e ->
    write_where write_expr (subst f e) = tmap f (write_where write_expr e).
  Proof.
    intros e H. unfold write_where. rewrite subst_cond_empty.
    destruct (cond_empty e) as [[]|]; cbn [bind]; try reflexivity. rewrite tmap_cat, H. reflexivity.
  Qed.
  Lemma nat_having : forall e, natural e ->
    write_having write_expr (subst f e) = tmap f (write_having write_expr e).
  Proof.
    intros e H. unfold write_having. rewrite subst_cond_empty.
    destruct (cond_empty e) as [[]|]; cbn [bind]; try reflexivity. rewrite tmap_cat, H. reflexivity.
  Qed.

  Lemma nat_select : forall s, (forall e, In e (select_children s) -> natural e) ->
    write_select_with write_expr (subst_select_with (subst f) s)
    = tmap f (write_select_with write_expr s).
  Proof.
    intros s H. unfold write_select_with. cbn [subst_select_with s_exprs]. rewrite map_nonempty.
    destruct (nonempty (s_exprs s)) eqn:E; [|reflexivity].
    unfold write_head, write_middle, write_tail.
    cbn [subst_select_with s_prefix s_with s_distinct s_distinct_on s_exprs s_from s_joins s_where
         s_group_by s_having s_order_by s_limit s_offset s_suffix s_comment].
    unfold select_children in H.
    assert (Hw : natural (s_where s)) by (apply H; rewrite !in_app_iff; cbn; tauto).
    assert (Hh : natural (s_having s)) by (apply H; rewrite !in_app_iff; cbn; tauto).
    rewrite !tmap_cat, !tmap_when, !tmap_unless, !tmap_cat, !tmap_w, !tmap_sep_by.
    rewrite !map_nonempty, !subst_cond_empty.
    rewrite nat_with, nat_joins, nat_selexprs, nat_where, nat_having; try assumption;
      try (intros e He; apply H; rewrite !in_app_iff; tauto).
    rewrite (closed_distinct_on _ f), (closed_from _ f), (closed_group_by _ f), (closed_order_by _ f),
            (closed_limit _ f), (closed_offset _ f), (closed_comment _ f).
    reflexivity.
  Qed.

  Lemma nat_map : forall l, (forall e, In e l -> natural e) ->
    map write_expr (map (subst f) l) = map (tmap f) (map write_expr l).
  Proof. intros l H. rewrite !map_map. apply map_ext_in. exact H. Qed.

  Lemma tmap_defined : forall e t,
    tmap f (defined e t) = defined (subst f e) (tmap f t).
  Proof.
    intros e t. unfold defined. rewrite subst_empty. destruct (is_empty e) as [[]|]; reflexivity.
  Qed.

  Lemma write_expr_natural : forall e, natural e.
  Proof.
    intro e. induction e as [e IH] using expr_children_ind. unfold natural.
    destruct e as [|g|g|l|l|s|x|fn l|l o r|x o v|g o a n b|x|x|s|l r|l o r];
      cbn [children] in IH; cbn [subst write_expr].
    - reflexivity.
    - symmetry. apply closed_ident.
    - apply write_value_subst.
    - rewrite tmap_sep_by. f_equal. rewrite !map_map. apply map_ext_in. intros x Hx.
      rewrite !tmap_cat, !tmap_w, (IH _ Hx). reflexivity.
    - rewrite tmap_sep_by, nat_map by exact IH. reflexivity.
    - reflexivity.
    - rewrite !tmap_cat, !tmap_w, IH by (left; reflexivity). reflexivity.
    - rewrite !tmap_cat, !tmap_w, tmap_sep_by, nat_map by exact IH. reflexivity.
    - rewrite tmap_defined, !tmap_cat, !tmap_w, !IH by (cbn; tauto). reflexivity.
    - rewrite tmap_defined, !tmap_cat, !tmap_w, tmap_unless, subst_empty, !IH by (cbn; tauto).
      reflexivity.
    - rewrite tmap_defined, !tmap_cat, !tmap_w, !IH, (closed_ident _ f) by (cbn; tauto). reflexivity.
    - rewrite !tmap_cat, !tmap_w, IH by (cbn; tauto). reflexivity.
    - rewrite !tmap_cat, !tmap_w, IH by (cbn; tauto). reflexivity.
    - apply nat_select. exact IH.
    - rewrite !tmap_cat, !tmap_w, !(closed_column _ f). reflexivity.
    - rewrite tmap_defined, !tmap_cat, !tmap_w, !IH by (cbn; tauto). reflexivity.
  Qed.

  Lemma pm_get_subst : forall c m,
    pm_get c (map (fun ce => (fst ce, subst f (snd ce))) m) = option_map (subst f) (pm_get c m).
  Proof.
    induction m as [|[c' e] m IH]; cbn; [reflexivity|]. destruct (col_eqb c c'); [reflexivity|exact IH].
  Qed.

  Lemma pairs_empty_subst : forall p, pairs_empty (subst_pairs f p) = pairs_empty p.
  Proof.
    intro p. unfold pairs_empty. cbn [subst_pairs p_mode p_map p_exprs]. rewrite !map_nonempty. reflexivity.
  Qed.

  Lemma pairs_values_subst : forall p, pairs_values (subst_pairs f p)
    = match pairs_values p with Ok (c, e) => Ok (c, map (subst f) e) | Panic q => Panic q end.
  Proof.
    intro p. unfold pairs_values. cbn [subst_pairs p_mode p_map p_cols p_exprs].
    destruct (p_mode p); try reflexivity.
    set (cols := o_sort (p_cols p)).
    assert (H : forall (g g' : column -> res expr) l,
      (forall c, g' c = match g c with Ok e => Ok (subst f e) | Panic q => Panic q end) ->
      map_res g' l = match map_res g l with Ok es => Ok (map (subst f) es) | Panic q => Panic q end).
    { intros g g' l Hg. induction l as [|c l IH]; cbn [map_res]; [reflexivity|]. rewrite Hg.
      destruct (g c); cbn [bind]; [|reflexivity]. rewrite IH. destruct (map_res g l); reflexivity. }
    rewrite (H (fun c => match pm_get c (p_map p) with
      | Some e => Ok e
      | None => Panic (PMsg "loukoum: invalid state for stmt.PairContainer") end)).
    - destruct (map_res _ cols); reflexivity.
    - intro c. rewrite pm_get_subst. destruct (pm_get c (p_map p)); reflexivity.
  Qed.

  Lemma combine_subst : forall (cs : list column) es,
    map write_pair (combine cs (map (subst f) es)) = map (tmap f) (map write_pair (combine cs es)).
  Proof.
    induction cs as [|c cs IH]; intros [|e es]; cbn; try reflexivity. rewrite IH. f_equal.
    unfold write_pair. cbn [fst snd]. rewrite !tmap_cat, tmap_w, (closed_column c f), write_expr_natural.
    reflexivity.
  Qed.

  Lemma write_pairs_natural : forall p, write_pairs (subst_pairs f p) = tmap f (write_pairs p).
  Proof.
    intro p. unfold write_pairs. rewrite pairs_empty_subst.
    destruct (pairs_empty p); [reflexivity|].
    rewrite pairs_values_subst. cbn [subst_pairs p_mode p_cols p_exprs].
    destruct (p_mode p); [reflexivity| |].
    - destruct (pairs_values p) as [[c e]|q]; cbn [bind fst snd]; [|reflexivity].
      rewrite combine_subst, <- tmap_sep_by. reflexivity.
    - rewrite !tmap_cat, !tmap_w, tmap_sep_by, (closed_columns _ f), nat_map; [reflexivity|].
      intros e _. apply write_expr_natural.
  Qed.

  Lemma write_returning_natural : forall l,
    write_returning (map (subst_sel (subst f)) l) = tmap f (write_returning l).
  Proof.
    intro l. unfold write_returning. rewrite tmap_cat, tmap_w, tmap_sep_by, nat_selexprs; [reflexivity|].
    intros e _. apply write_expr_natural.
  Qed.

  Lemma write_stmt_natural : forall s, write_stmt (subst_stmt f s) = tmap f (write_stmt s).
  Proof.
    intros [s|i|u|d]; cbn [subst_stmt write_stmt].
    - apply nat_select. intros e _. apply write_expr_natural.
    - unfold write_insert. cbn [i_into i_columns i_values i_conflict_target i_conflict_action i_returning i_comment]. destruct (no_str (t_name (i_into i))); [reflexivity|].
      assert (Ec : conflict_empty (option_map (subst_action f) (i_conflict_action i))
                   = conflict_empty (i_conflict_action i)).
      { destruct (i_conflict_action i) as [[|p]|]; cbn; try reflexivity. apply pairs_empty_subst. }
      assert (Wc : write_conflict (i_conflict_target i) (option_map (subst_action f) (i_conflict_action i))
                   = tmap f (write_conflict (i_conflict_target i) (i_conflict_action i))).
      { destruct (i_conflict_action i) as [[|p]|];
          cbn [option_map subst_action write_conflict action_empty write_action]; try reflexivity.
        - rewrite !tmap_cat, !tmap_w, tmap_when, tmap_cat, tmap_w, (closed_target _ f). reflexivity.
        - rewrite pairs_empty_subst. destruct (pairs_empty p); [reflexivity|].
          unfold write_set. rewrite !tmap_cat, !tmap_w, tmap_when, tmap_cat, tmap_w, (closed_target _ f),
            write_pairs_natural. reflexivity. }
      rewrite Ec, Wc. unfold write_values.
      rewrite !tmap_cat, !tmap_when, !tmap_unless, !tmap_cat, !tmap_w, map_nonempty.
      rewrite tmap_unless, tmap_cat, tmap_w, <- write_expr_natural, subst_cond_empty,
        write_returning_natural, (closed_table _ f), (closed_columns _ f), (closed_comment _ f).
      reflexivity.
    - unfold write_update. cbn [u_with u_table u_only u_from u_set u_where u_returning u_comment].
      rewrite pairs_empty_subst. destruct (_ || _); [reflexivity|].
      unfold write_set.
      rewrite !tmap_cat, !tmap_when, !tmap_unless, !tmap_cat, !tmap_w, !map_nonempty.
      rewrite nat_with, write_pairs_natural, nat_where, subst_cond_empty, write_returning_natural,
        (closed_table _ f), (closed_from _ f), (closed_comment _ f); [reflexivity| |];
        intros; apply write_expr_natural.
    - unfold write_delete. cbn [d_from d_using d_where d_returning d_comment].
      destruct (nonempty (d_from d)); [|reflexivity].
      rewrite !tmap_cat, !tmap_when, !tmap_unless, !tmap_cat, !tmap_w, !map_nonempty.
      rewrite nat_where, subst_cond_empty, write_returning_natural,
        (closed_using _ f), (closed_from _ f), (closed_comment _ f); [reflexivity|].
      intros; apply write_expr_natural.
  Qed.

  Lemma run_std_natural : forall t c,
    fold_left std_step (map (op_map f) t) {| std_buf := std_buf c; std_vals := map f (std_vals c) |}
    = let r := fold_left std_step t c in {| std_buf := std_buf r; std_vals := map f (std_vals r) |}.
  Proof.
    induction t as [|[s|v] t IH]; intro c; cbn [map op_map fold_left std_step std_buf std_vals];
      [reflexivity| |].
    - rewrite <- IH. reflexivity.
    - rewrite <- IH. cbn [std_buf std_vals]. rewrite map_length, map_app. reflexivity.
  Qed.

  Lemma query_natural : forall s, query (subst_stmt f s) = map_args f (query s).
  Proof.
    intro s. unfold query. rewrite write_stmt_natural. destruct (write_stmt s) as [t|p]; [|reflexivity].
    cbn [tmap bind map_args]. unfold run_std. pose proof (run_std_natural t std_init) as H.
    cbn [std_init std_buf std_vals map] in H. unfold std_init in *. cbn zeta. rewrite H. reflexivity.
  Qed.

  Lemma map_set_map : forall k v m,
    map (fun kv : string * gval => (fst kv, f (snd kv))) (map_set k v m)
    = map_set k (f v) (map (fun kv => (fst kv, f (snd kv))) m).
  Proof.
    induction m as [|[k' v'] m IH]; cbn; [reflexivity|]. destruct (String.eqb k k'); cbn; [reflexivity|].
    rewrite IH. reflexivity.
  Qed.

  Lemma run_named_natural : forall t c,
    fold_left named_step (map (op_map f) t)
      {| named_buf := named_buf c; named_vals := map (fun kv => (fst kv, f (snd kv))) (named_vals c) |}
    = let r := fold_left named_step t c in
      {| named_buf := named_buf r; named_vals := map (fun kv => (fst kv, f (snd kv))) (named_vals r) |}.
  Proof.
    induction t as [|[s|v] t IH]; intro c; cbn [map op_map fold_left named_step named_buf named_vals];
      [reflexivity| |].
    - rewrite <- IH. reflexivity.
    - rewrite <- IH. cbn [named_buf named_vals]. rewrite map_length, map_set_map. reflexivity.
  Qed.

  Lemma named_query_natural : forall s, named_query (subst_stmt f s) = map_named f (named_query s).
  Proof.
    intro s. unfold named_query. rewrite write_stmt_natural. destruct (write_stmt s) as [t|p]; [|reflexivity].
    cbn [tmap bind map_named]. unfold run_named. pose proof (run_named_natural t named_init) as H.
    cbn [named_init named_buf named_vals map] in H. unfold named_init in *. cbn zeta. rewrite H. reflexivity.
  Qed.
End Naturality.
