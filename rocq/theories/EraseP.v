(* C01 at the level of the API: values only end up in value positions. *)
From Verif Require Export RenderP Build.

(* Values that the API binds as they are (scalars, and the slices and maps that
   NewExpression binds as one argument). *)
Definition bindable (g : gval) : bool :=
  match g with
  | GStr _ | GBool _ | GInt _ _ | GFloat _ _ | GBytes _ | GTime _ | GTimePtr (Some _)
  | GValuer _ | GNilValuer | GValuerErr | GBindable _ _ | GMapStr _ | GMapAny _
  | GInt64Enc _ | GBoolEnc _ | GTimeEnc _ | GStringEnc _ => true
  | _ => false
  end.

(* Replace every bound value by the same constant. *)
Definition erase : expr -> expr := subst (fun _ => GBool true).
Definition erase_stmt (s : stmt) : stmt := subst_stmt (fun _ => GBool true) s.
Definition erase_pairs (p : pairs) : pairs := subst_pairs (fun _ => GBool true) p.

Lemma bindable_value : forall g, bindable g = true ->
  exists v, new_expression g = Ok (EValue v) /\ v <> GNil.
Proof.
  intros g H. destruct g; cbn in H; try discriminate; cbn [new_expression];
    try (eexists; split; [reflexivity|discriminate]).
  destruct t; [|discriminate]. eexists; split; [reflexivity|discriminate].
Qed.

Lemma erase_value : forall v, v <> GNil -> erase (EValue v) = EValue (GBool true).
Proof. intros v H. destruct v; try reflexivity. congruence. Qed.

Lemma erase_new : forall g, bindable g = true ->
  exists e, new_expression g = Ok e /\ erase e = EValue (GBool true) /\ new_wrapper e = e.
Proof.
  intros g H. destruct (bindable_value g H) as [v [E N]]. exists (EValue v).
  rewrite (erase_value v N). auto.
Qed.

Lemma erase_compare : forall l op g, bindable g = true ->
  exists e, cmp_expr l op g = Ok e /\ erase e = EInfix (erase l) (Some (cmp_text op)) (EValue (GBool true)).
Proof.
  intros l op g H. destruct (erase_new g H) as [e [E [Q W]]].
  unfold cmp_expr, infix_wrapped, infix_plain. rewrite E. cbn [bind]. rewrite W.
  exists (EInfix l (Some (cmp_text op)) e). split; [destruct (cmp_wraps op); reflexivity|].
  unfold erase in *. cbn [subst]. rewrite Q. reflexivity.
Qed.

Lemma erase_map : forall gs, forallb bindable gs = true ->
  exists es, map_res new_expression gs = Ok es /\ map erase es = repeat (EValue (GBool true)) (length gs).
Proof.
  induction gs as [|g gs IH]; intro H; cbn in H; [exists []; auto|].
  apply andb_true_iff in H. destruct H as [H1 H2].
  destruct (erase_new g H1) as [e [E [Q _]]]. destruct (IH H2) as [es [E2 Q2]].
  exists (e :: es). cbn [map_res]. rewrite E. cbn [bind]. rewrite E2. cbn. rewrite Q, Q2. auto.
Qed.

Lemma bindable_to_array : forall g, bindable g = true -> to_array g = map_res new_expression [g].
Proof.
  intros g H. destruct g; cbn in H; try discriminate; reflexivity.
Qed.

Lemma erase_array : forall gs, forallb bindable gs = true ->
  exists es, new_array gs = Ok (EArray es) /\ map erase es = repeat (EValue (GBool true)) (length gs).
Proof.
  intros gs H. destruct (erase_map gs H) as [es [E Q]]. exists es. split; [|exact Q].
  unfold new_array. destruct gs as [|g [|g' gs]].
  - rewrite E. reflexivity.
  - cbn in H. rewrite andb_true_r in H. rewrite (bindable_to_array g H), E. reflexivity.
  - rewrite E. reflexivity.
Qed.

Lemma erase_in : forall l gs, forallb bindable gs = true ->
  exists e, expr_in l gs = Ok e
            /\ erase e = EIn (erase l) "IN" (EArray (repeat (EValue (GBool true)) (length gs))).
Proof.
  intros l gs H. destruct (erase_array gs H) as [es [E Q]]. unfold expr_in. rewrite E. cbn [bind].
  eexists; split; [reflexivity|]. unfold erase in *. cbn [subst]. rewrite Q. reflexivity.
Qed.

Lemma erase_between : forall id a b, bindable a = true -> bindable b = true ->
  exists e, ident_between id a b = Ok e
            /\ erase e = EBetween id "BETWEEN" (EValue (GBool true)) "AND" (EValue (GBool true)).
Proof.
  intros id a b Ha Hb. destruct (erase_new a Ha) as [ea [Ea [Qa _]]].
  destruct (erase_new b Hb) as [eb [Eb [Qb _]]].
  unfold ident_between. rewrite Ea. cbn [bind]. rewrite Eb. cbn [bind].
  eexists; split; [reflexivity|]. unfold erase in *. cbn [subst]. rewrite Qa, Qb. reflexivity.
Qed.

(* Update(...).Set(Pair(k, v)) *)
Lemma erase_pm_set : forall c e e' m, erase e = erase e' ->
  map (fun ce => (fst ce, erase (snd ce))) (pm_set c e m)
  = map (fun ce => (fst ce, erase (snd ce))) (pm_set c e' m).
Proof.
  intros c e e' m H. induction m as [|[k v] m IH]; cbn; [rewrite H; reflexivity|].
  destruct (col_eqb c k); cbn; [rewrite H|rewrite IH]; reflexivity.
Qed.

Lemma erase_pair : forall p k a b, bindable a = true -> bindable b = true ->
  match merge_arg p (GPair k a), merge_arg p (GPair k b) with
  | Ok pa, Ok pb => erase_pairs pa = erase_pairs pb
  | Panic x, Panic y => x = y
  | _, _ => False
  end.
Proof.
  intros p k a b Ha Hb. cbn [merge_arg]. unfold merge_pair. cbn [fst snd].
  destruct (to_column k) as [c|]; [|reflexivity]. cbn [bind].
  destruct (erase_new a Ha) as [ea [Ea [Qa Wa]]]. destruct (erase_new b Hb) as [eb [Eb [Qb Wb]]].
  rewrite Ea, Eb. cbn [bind]. rewrite Wa, Wb. unfold pairs_add.
  destruct (p_mode p); try reflexivity;
    unfold erase_pairs, subst_pairs; cbn [p_mode p_map p_cols p_exprs];
    f_equal; apply erase_pm_set; congruence.
Qed.

(* Insert(...).Values(g1, ..., gn) *)
Lemma erase_values : forall gs, forallb bindable gs = true -> gs <> [] ->
  exists e, new_array_list gs = Ok e
            /\ erase e = EArrayList [EArray (repeat (EValue (GBool true)) (length gs))].
Proof.
  intros gs H N. destruct (erase_array gs H) as [es [E Q]]. unfold new_array_list.
  destruct gs as [|g gs]; [congruence|].
  assert (R : to_array_list g = Ok []).
  { cbn in H. apply andb_true_iff in H. destruct H as [H _]. destruct g; cbn in H; try discriminate; reflexivity. }
  rewrite R. cbn [bind nonempty]. rewrite E. cbn [bind]. eexists; split; [reflexivity|].
  unfold erase in *. cbn [subst map]. rewrite Q. reflexivity.
Qed.
