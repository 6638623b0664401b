(* C71: joins and conditions: an inner join is a condition on a product; an outer join keeps the rows of the inner. *)
From Verif Require Import GrammarReadP PropsGrammar PropsGrammarDml EffectP TablesP MeaningP ClosedP ChangesP.
From Verif Require Export Closed Laws JoinLaws.
From Verif Require AssignP PropsEffect PropsTables PropsMeaning PropsChanges PropsLaws PropsCorrelated.
Import PropsCorrelated PropsMeaning PropsChanges PropsLaws.

Local Notation named := PropsCorrelated.named.

Section JoinLaws.
  Context {O : Oracle}.
  #[local] Existing Instance Bound.

  Lemma filter_twice : forall A (f h : A -> bool) l, filter f (filter h l) = filter (fun x => h x && f x) l.
  Proof.
    intros A f h l. induction l as [|x l IH]; [reflexivity|]. cbn [filter]. destruct (h x); cbn [filter andb]; [destruct (f x)|]; rewrite IH; reflexivity.
  Qed.
  Lemma map_filter : forall A B (f : B -> bool) (k : A -> B) l, map k (filter (fun x => f (k x)) l) = filter f (map k l).
  Proof. intros A B f k l. induction l as [|x l IH]; [reflexivity|]. cbn [map filter]. destruct (f (k x)); cbn [map]; rewrite IH; reflexivity. Qed.
  Lemma filter_flat : forall A B (f : B -> bool) (k : A -> list B) l, filter f (flat_map k l) = flat_map (fun x => filter f (k x)) l.
  Proof. intros A B f k l. induction l as [|x l IH]; [reflexivity|]. cbn [flat_map]. rewrite filter_app, IH. reflexivity. Qed.

  (* -- Conditions ----------------------------------------------------------- *)

  Definition holds_true {g} (db : tabledb g) (v : bnaming g) (f : formula) : bool := is_true (btruth means db v f).
  Lemma and_true : forall a b, is_true (and3 a b) = is_true a && is_true b.
  Proof. intros [[]|] [[]|]; reflexivity. Qed.

  Lemma linked_true : forall g (db : tabledb g) v k f0, (forall x f, In (x, f) k -> x <> ByOr) ->
    holds_true db v (fold_left link k f0) = holds_true db v f0 && forallb (fun x => holds_true db v (snd x)) k.
  Proof.
    intros g db v k. induction k as [|[x f] k IH]; intros f0 H; cbn [fold_left forallb]; [rewrite andb_true_r; reflexivity|].
    rewrite IH; [|intros y h I; apply (H y h); right; exact I]. cbn [fst snd].
    assert (E : holds_true db v (link f0 (x, f)) = holds_true db v f0 && holds_true db v f).
    { unfold link. cbn [fst snd]. destruct x; [apply and_true|apply and_true|]. exfalso. apply (H ByOr f); [left|]; reflexivity. }
    rewrite E, andb_assoc. reflexivity.
  Qed.

  Lemma first_true : forall x f c fs, says x f -> conditions_say c fs -> without_or c ->
    exists fs', conditions_say (and_first x c) fs'
      /\ forall g (db : tabledb g) v, bchosen g means db (all_conditions fs') v = holds_true db v f && bchosen g means db (all_conditions fs) v.
  Proof.
    intros x f c fs Sx Hc W. destruct c as [[e l]|], fs as [[f0 k]|]; try contradiction.
    - destruct Hc as [He Hl]. exists (Some (f, (ByAnd, f0) :: k)). split.
      + split; [exact Sx|]. constructor; [split; [reflexivity|exact He]|exact Hl].
      + intros g db v. rewrite !all_conditions_link. cbn [bchosen].
        assert (K : forall y h, In (y, h) k -> y <> ByOr).
        { cbn [without_or] in W. clear He. revert W. induction Hl as [|[k1 e1] [k2 f2] l k [E _] Hl IH]; intros W y h I; [contradiction|].
          cbn [fst] in E. subst k2. destruct I as [I|I]; [injection I as <- <-; apply (W k1 e1); left; reflexivity|].
          apply (IH (fun k0 e0 I0 => W k0 e0 (or_intror I0)) y h I). }
        assert (K' : forall y h, In (y, h) ((ByAnd, f0) :: k) -> y <> ByOr) by (intros y h [I|I]; [injection I as <- <-; discriminate|exact (K y h I)]).
        change (is_true (btruth means db v ?a)) with (holds_true db v a).
        rewrite (linked_true g db v k f0 K), (linked_true g db v _ f K'). reflexivity.
    - exists (Some (f, [])). split; [split; [exact Sx|constructor]|]. intros g db v. cbn [all_conditions bchosen fold_left fst snd]. rewrite andb_true_r. reflexivity.
  Qed.

  (* -- Tables --------------------------------------------------------------- *)

  Lemma inner_flat : forall g (db : tabledb g) v ts kw t f l, hd "" kw = "INNER" ->
    bjoin g means db v ts kw t f l = flat_map (bpartners g means db v t f) l.
  Proof. intros g db v ts kw t f l K. destruct kw as [|k kw]; [reflexivity|]. cbn [hd] in K. subst k. reflexivity. Qed.

  Lemma bjoins_app : forall g (db : tabledb g) v js ts kw t f l,
    bjoins g means db v ts (js ++ [(kw, t, f)])%list l = bjoin g means db v (ts ++ map (fun j => snd (fst j)) js)%list kw t f (bjoins g means db v ts js l).
  Proof.
    intros g db v js. induction js as [|[[k1 t1] f1] js IH]; intros ts kw t f l; cbn [app bjoins map fst snd]; [rewrite app_nil_r; reflexivity|].
    rewrite IH, <- app_assoc. reflexivity.
  Qed.

  (* The product, cut to the rows that meet the condition of the join. *)
  Lemma product_cut : forall g (db : tabledb g) v kw t1 t2 f, hd "" kw = "INNER" ->
    map (names_in v) (bfrom g means db v [(kw, t2, f)] [t1])
    = filter (fun n => holds_true db n f) (map (names_in v) (bfrom g means db v [] [t1; t2])).
  Proof.
    intros g db v kw t1 t2 f K. cbn [bfrom bjoins]. rewrite (inner_flat _ _ _ _ _ _ _ _ K), <- map_filter. f_equal.
    rewrite filter_flat. induction (snd (db (tb_name t1))) as [|r rows IH]; [reflexivity|]. cbn [map flat_map]. rewrite IH. f_equal.
    unfold bpartners, on_true. rewrite map_map. reflexivity.
  Qed.

  Definition body_at (b : body) (froms : list tableref) (js : list (list string * tableref * formula)) (w : option formula) : body :=
    {| q_prefix := q_prefix b; q_with := q_with b; q_distinct_on := q_distinct_on b; q_distinct := q_distinct b; q_items := q_items b;
       q_from := froms; q_joins := js; q_where := w; q_group_by := q_group_by b; q_having := q_having b;
       q_order_by := q_order_by b; q_limit := q_limit b; q_offset := q_offset b; q_suffix := q_suffix b |}.
  Lemma placed_says : forall p b froms ts js jl c fs, program_says p b -> Forall2 table_says froms ts -> Forall2 join_arg_says js jl ->
    conditions_say c fs -> program_says (placed p froms js c) (body_at b ts jl (all_conditions fs)).
  Proof. intros p b froms ts js jl c fs [] Ht Hj Hc. constructor; cbn; try assumption. exists fs. split; [exact Hc|reflexivity]. Qed.

  (* The rows of a body look at FROM and WHERE only through the chosen combinations. *)
  Lemma rows_at : forall b froms js w g (db : tabledb g),
    (q_from b ++ map (fun j => snd (fst j)) (q_joins b) = froms ++ map (fun j => snd (fst j)) js)%list ->
    (let db' := with_tables g means query_columns (q_with b) db nothing in
     filter (bchosen g means db' (q_where b)) (map (names_in nothing) (bfrom g means db' nothing (q_joins b) (q_from b)))
     = filter (bchosen g means db' w) (map (names_in nothing) (bfrom g means db' nothing js froms))) ->
    body_rows g means query_columns b db nothing = body_rows g means query_columns (body_at b froms js w) db nothing.
  Proof.
    intros b froms js w g db T H. cbv zeta in H. unfold body_rows. cbn [body_at q_prefix q_with q_distinct_on q_distinct q_items q_from q_joins q_where
      q_group_by q_having q_order_by q_limit q_offset q_suffix]. rewrite H, T. reflexivity.
  Qed.

  Lemma one_table : forall froms ts (a : gval), Forall2 table_says froms ts -> froms = [a] -> exists t, ts = [t] /\ table_says a t.
  Proof. intros froms ts a F ->. inversion F as [|? t ? ? H F']; subst. inversion F'; subst. exists t. split; [reflexivity|exact H]. Qed.

  (* C71: From(a).Join(b, on) answers what From(a, b).Where(on) answers, whatever the other calls, if the
     conditions are joined with And. *)
  Theorem C71_join_is_condition : forall p bd a b kw t f x s s',
    program_says p bd -> pr_from p = [a] -> q_joins bd = [(kw, t, f)] -> hd "" kw = "INNER" ->
    table_says b t -> says x f -> without_or (pr_conditions p) ->
    program_select p = Ok s -> program_select (placed p [a; b] [] (and_first x (pr_conditions p))) = Ok s' ->
    forall g (db : tabledb g), exists out, responds db s out /\ responds db s' out.
  Proof.
    intros p bd a b kw t f x s s' P Ef Jl K Hb Sx W E E' g db.
    destruct (one_table _ _ a (ps_from p bd P) Ef) as (t1 & Et & Ha).
    destruct (ps_where p bd P) as (fs & Hc & Ew). destruct (first_true x f _ fs Sx Hc W) as (fs' & Hc' & T).
    pose proof (placed_says p bd [a; b] [t1; t] [] [] _ fs' P (Forall2_cons _ _ Ha (Forall2_cons _ _ Hb (Forall2_nil _))) (Forall2_nil _) Hc') as P'.
    pose proof (program_responds p bd s P E g db) as R. pose proof (program_responds _ _ s' P' E' g db) as R'.
    destruct (ps_rest p bd P) as [N1 N2].
    rewrite (means_body bd db nothing N1 N2), (rows_at bd [t1; t] [] (all_conditions fs') g db) in R.
    - rewrite (means_body (body_at bd [t1; t] [] (all_conditions fs')) db nothing N1 N2) in R'. eexists. split; [exact R|exact R'].
    - rewrite Et, Jl. reflexivity.
    - cbv zeta. rewrite Et, Jl, (product_cut g _ nothing kw t1 t f K), filter_twice, Ew. apply filter_ext. intro v. rewrite T. reflexivity.
  Qed.

  Lemma partners_and : forall g (db : tabledb g) v t f h sc,
    bpartners g means db v t (FAnd f h) sc = filter (on_true g means db v h) (bpartners g means db v t f sc).
  Proof.
    intros. unfold bpartners. rewrite filter_twice. apply filter_ext. intro x. unfold on_true. cbn [btruth]. apply and_true.
  Qed.

  Lemma on_filter : forall g (db : tabledb g) v h l,
    map (names_in v) (filter (on_true g means db v h) l) = filter (fun n => holds_true db n h) (map (names_in v) l).
  Proof. intros g db v h l. exact (map_filter _ _ (fun n => holds_true db n h) (names_in v) l). Qed.
  Lemma joined_app : forall js (j : join_arg) jl k, Forall2 join_arg_says (js ++ [j])%list (jl ++ [k])%list -> Forall2 join_arg_says js jl.
  Proof.
    intros js. induction js as [|i js IH]; intros j jl k F.
    - destruct jl as [|x [|y jl]]; [constructor|inversion F as [|? ? ? ? _ F']; inversion F'|inversion F as [|? ? ? ? _ F']; inversion F'].
    - destruct jl as [|x jl]; [inversion F as [|? ? ? ? _ F']; subst; destruct js; inversion F'|].
      inversion F as [|? ? ? ? H F']; subst. constructor; [exact H|exact (IH j jl k F')].
  Qed.

  (* C71: a condition of the last join, if it is an inner join, can be said in Where instead. *)
  Theorem C71_on_or_where : forall p bd a js jl j j' kw t f h x s s',
    program_says p bd -> pr_from p = [a] -> pr_joins p = (js ++ [j])%list ->
    q_joins bd = (jl ++ [(kw, t, FAnd f h)])%list -> join_arg_says j' (kw, t, f) -> hd "" kw = "INNER" ->
    says x h -> without_or (pr_conditions p) ->
    program_select p = Ok s -> program_select (placed p [a] (js ++ [j'])%list (and_first x (pr_conditions p))) = Ok s' ->
    forall g (db : tabledb g), exists out, responds db s out /\ responds db s' out.
  Proof.
    intros p bd a js jl j j' kw t f h x s s' P Ef Ej Jl Hj' K Sx W E E' g db.
    destruct (one_table _ _ a (ps_from p bd P) Ef) as (t1 & Et & Ha).
    pose proof (ps_joins p bd P) as F. rewrite Ej, Jl in F. apply joined_app in F.
    destruct (ps_where p bd P) as (fs & Hc & Ew). destruct (first_true x h _ fs Sx Hc W) as (fs' & Hc' & T).
    pose proof (placed_says p bd [a] [t1] (js ++ [j'])%list (jl ++ [(kw, t, f)])%list _ fs' P (Forall2_cons _ _ Ha (Forall2_nil _))
      (Forall2_app F (Forall2_cons _ _ Hj' (Forall2_nil _))) Hc') as P'.
    pose proof (program_responds p bd s P E g db) as R. pose proof (program_responds _ _ s' P' E' g db) as R'.
    destruct (ps_rest p bd P) as [N1 N2].
    rewrite (means_body bd db nothing N1 N2), (rows_at bd [t1] (jl ++ [(kw, t, f)])%list (all_conditions fs') g db) in R.
    - rewrite (means_body (body_at bd [t1] (jl ++ [(kw, t, f)])%list (all_conditions fs')) db nothing N1 N2) in R'. eexists. split; [exact R|exact R'].
    - rewrite Et, Jl, !map_app. reflexivity.
    - cbv zeta. rewrite Et, Jl. cbn [bfrom]. rewrite !bjoins_app, !(inner_flat _ _ _ _ _ _ _ _ K).
      rewrite (flat_map_ext _ _ (partners_and g _ nothing t f h)), <- filter_flat.
      rewrite on_filter, filter_twice, Ew. apply filter_ext. intro v. rewrite T. reflexivity.
  Qed.

  (* -- Outer joins ------------------------------------------------------------ *)

  Lemma part_refl : forall A (l : list A), part_of l l.
  Proof. induction l; constructor; assumption. Qed.
  Lemma part_app : forall A (a b a' b' : list A), part_of a b -> part_of a' b' -> part_of (a ++ a') (b ++ b').
  Proof. intros A a b a' b' P Q. induction P; cbn [app]; [exact Q|constructor; assumption|constructor; assumption]. Qed.
  Lemma part_nil : forall A (l : list A), part_of [] l.
  Proof. induction l; constructor; assumption. Qed.

  Lemma outer_keeps : forall g (db : tabledb g) v ts kw kw' t f l, hd "" kw = "INNER" -> hd "" kw' = "LEFT" \/ hd "" kw' = "RIGHT" ->
    part_of (bjoin g means db v ts kw t f l) (bjoin g means db v ts kw' t f l).
  Proof.
    intros g db v ts kw kw' t f l K K'. rewrite (inner_flat _ _ _ _ _ _ _ _ K).
    destruct kw' as [|k kw']; [destruct K'; discriminate|]. cbn [hd] in K'. destruct K'; subst k; cbn [bjoin].
    - induction l as [|sc l IH]; [constructor|]. cbn [flat_map]. apply part_app; [|exact IH].
      destruct (bpartners g means db v t f sc); [apply part_nil|apply part_refl].
    - rewrite <- (app_nil_r (flat_map _ l)) at 1. apply part_app; [apply part_refl|apply part_nil].
  Qed.

  (* C71: with LEFT or RIGHT in its last join, a row-by-row Select shows every row that it shows with INNER,
     as often and in the same order. *)
  Theorem C71_outer_keeps : forall p bd a js jl j j' kw kw' t f s s',
    program_says p bd -> row_by_row p bd -> pr_from p = [a] -> pr_joins p = (js ++ [j])%list ->
    q_joins bd = (jl ++ [(kw, t, f)])%list -> join_arg_says j' (kw', t, f) -> hd "" kw = "INNER" -> hd "" kw' = "LEFT" \/ hd "" kw' = "RIGHT" ->
    program_select p = Ok s -> program_select (placed p [a] (js ++ [j'])%list (pr_conditions p)) = Ok s' ->
    forall g (db : tabledb g), exists out out', responds db s out /\ responds db s' out' /\ part_of out out'.
  Proof.
    intros p bd a js jl j j' kw kw' t f s s' P N Ef Ej Jl Hj' K K' E E' g db.
    destruct (one_table _ _ a (ps_from p bd P) Ef) as (t1 & Et & Ha).
    pose proof (ps_joins p bd P) as F. rewrite Ej, Jl in F. apply joined_app in F.
    destruct (ps_where p bd P) as (fs & Hc & Ew).
    pose proof (placed_says p bd [a] [t1] (js ++ [j'])%list (jl ++ [(kw', t, f)])%list _ fs P (Forall2_cons _ _ Ha (Forall2_nil _))
      (Forall2_app F (Forall2_cons _ _ Hj' (Forall2_nil _))) Hc) as P'.
    exists (means (Query bd) db nothing), (means (Query (body_at bd [t1] (jl ++ [(kw', t, f)])%list (all_conditions fs))) db nothing).
    split; [exact (program_responds p bd s P E g db)|]. split; [exact (program_responds _ _ s' P' E' g db)|].
    destruct N as (D1 & D2 & D3 & D4 & D5 & D6 & D7). destruct P as [_ Pd Pdo _ _ _ _ Pg Ph Po (_ & Pl & Pk) (N1 & N2)].
    rewrite D1 in Pd. rewrite D2 in Pdo. rewrite D3 in Pg. rewrite D4 in Ph. rewrite D5 in Po. rewrite D6 in Pl, Pk.
    assert (Eo : q_order_by bd = []) by (inversion Po; reflexivity). destruct (q_having bd) eqn:Eh; [contradiction|].
    rewrite (means_body bd db nothing N1 N2), (means_body (body_at bd _ _ _) db nothing N1 N2). unfold body_rows.
    cbn [body_at q_prefix q_with q_distinct_on q_distinct q_items q_from q_joins q_where
      q_group_by q_having q_order_by q_limit q_offset q_suffix].
    rewrite Pd, Pdo, Pg, Eh, Eo, Pl, Pk. cbn [window_first window_skip btake bskip bsorted grouped]. rewrite D7.
    apply part_map, part_map, filter_same_part, part_map. rewrite Ew. apply filter_same_part, part_map. rewrite Et, Jl. cbn [bfrom].
    rewrite !bjoins_app. apply outer_keeps; assumption.
  Qed.

  (* -- In, Exists, Using ------------------------------------------------------ *)

  Lemma no_comment : forall args froms s, program_select (plain_program args froms [] None) = Ok s -> s_comment s = "".
  Proof.
    intros args froms s H. unfold program_select, plain_program in H. cbn [pr_args] in H.
    destruct (lk_select args) as [s0|] eqn:E0; [|discriminate]. cbn [bind] in H. unfold lk_select in E0. cbn [sel_step] in E0.
    destruct (to_selexprs _) as [es|]; [|discriminate]. cbn [bind] in E0. injection E0 as <-.
    unfold program_calls in H. cbn [pr_distinct pr_distinct_on pr_with pr_from pr_joins pr_conditions pr_group_by pr_having pr_order_by pr_window
      unless_none app map sel_conditions window_calls] in H. unfold sel_run in H. cbn [fold_res] in H.
    cbn [sel_step] in H. destruct (nonempty (s_from (with_exprs new_select es))); [discriminate|].
    destruct (to_from froms) as [f|]; [|discriminate]. cbn [bind] in H. injection H as <-. reflexivity.
  Qed.

  Definition column_body (t y : string) : body := plain_body [[y]] [named t] [] None.
  Lemma column_values : forall g (db : tabledb g) t y v, In y (fst (db [t])) ->
    means (Query (column_body t y)) db v = map (fun r => [r y]) (snd (db [t])).
  Proof.
    intros g db t y v I. rewrite (means_body (column_body t y) db v eq_refl eq_refl). unfold column_body, body_rows.
    cbn [q_prefix q_with q_distinct_on q_distinct q_items q_from q_joins q_where q_group_by q_having q_order_by q_limit
         q_offset q_suffix nth_body plain_body with_tables grouped btake bskip bsorted bchosen bfrom bjoins named tb_name columns_item map].
    change (aggregated [ItName [y] []]) with false. cbn iota. rewrite !all_true, !map_map. apply map_ext. intro r.
    cbn [snd bitems map bitem fst names_in find with_row].
    assert (H : has_col (fst (db [t])) y = true) by (apply existsb_exists; exists y; split; [exact I|apply String.eqb_refl]).
    cbn [tb_name named]. change (tb_name (PropsCorrelated.named t)) with [t]. rewrite H. reflexivity.
  Qed.

  (* What makes the two subqueries of x In (Select y) and Exists(Select where y = x). *)
  Definition match_calls (inner ys : list gval) (t2 sy sx qx : string) (c : expr) (sub sub2 : select) (e ei : expr) : Prop :=
    cmp_expr (lk_condition (GStr sy)) OpEqual (GExpr (lk_raw sx)) = Ok c
    /\ program_select (plain_program inner [GStr t2] [] (Some c)) = Ok sub /\ lk_exists (g_select sub) = Ok e
    /\ program_select (plain_program ys [GStr t2] [] None) = Ok sub2 /\ expr_in (lk_condition (GStr qx)) [g_select sub2] = Ok ei.

  Lemma match_truth : forall g (db : tabledb g) t1 x t2 y r, (forall a b, bcompares g "=" a b = bcompares g "=" b a) ->
    In y (fst (db [t2])) ->
    bchosen g means db (Some (FInSub false (MName [t1; x]) (Query (column_body t2 y)))) (names_in nothing [with_row db (named t1) r])
    = has_match db t2 x y r.
  Proof.
    intros g db t1 x t2 y r Sym I. cbn [bchosen btruth negated bterm]. rewrite (column_values g db t2 y _ I), outer_names, map_map. cbn [hd].
    unfold has_match. induction (snd (db [t2])) as [|r' rows IH]; [reflexivity|]. cbn [map existsb bamong fold_right]. rewrite <- IH, Sym.
    change (fold_right (fun d o => or3 (bcompares g "=" (r x) d) o) (Some false) ?l) with (bamong (g := g) (r x) l).
    destruct (bcompares g "=" (r' y) (r x)) as [[]|], (bamong (r x) _) as [[]|]; reflexivity.
  Qed.

  (* C71: In of a subquery and Exists of the rows that match ask the same. *)
  Theorem C71_in_or_exists : forall (g : basis) (db : tabledb g) args cs inner ns ys t1 x t2 y sx sy qx c sub sub2 e ei s si,
    (forall a b, bcompares g "=" a b = bcompares g "=" b a) ->
    t1 <> t2 -> one_name t1 -> one_name t2 -> column_of_table t2 y sy -> raw_column t1 x sx -> column_of_table t1 x qx ->
    args <> [] -> args_say args (columns_item (map (fun c => [c]) cs)) -> cs <> [] -> incl cs (fst (db [t1])) ->
    inner <> [] -> args_say inner (columns_item ns) -> ns <> [] ->
    ys <> [] -> args_say ys (columns_item [[y]]) -> In y (fst (db [t2])) ->
    match_calls inner ys t2 sy sx qx c sub sub2 e ei ->
    program_select (plain_program args [GStr t1] [] (Some e)) = Ok s ->
    program_select (plain_program args [GStr t1] [] (Some ei)) = Ok si ->
    exists out, responds db s out /\ responds db si out.
  Proof.
    intros g db args cs inner ns ys t1 x t2 y sx sy qx c sub sub2 e ei s si Sym N T1 T2 Cy Rx Cx Na Ha Nc I Ni Hi Nn Ny Hy Iy (Hc & Hs & He & Hs2 & Hi2) H H'.
    destruct (matching_sub inner ns t1 x t2 y sx sy c sub Ni Hi Nn T2 Cy Rx Hc Hs) as [S F].
    assert (Nm : map (fun c : string => [c]) cs <> []) by (destruct cs; [congruence|discriminate]).
    assert (Ft : Forall2 table_says [GStr t1] [named t1]) by (constructor; [exact (named_says t1 T1)|constructor]).
    pose proof (plain_responds db args [GStr t1] [] (Some e) _ [named t1] [] (Some (FExists false (Query (matching_body ns t1 x t2 y)))) s Na Ha Nm Ft (Forall2_nil _)
      (says_exists (g_select sub) sub _ e (sub_builder sub) S F He) H) as P.
    assert (Sy : program_says (plain_program ys [GStr t2] [] None) (column_body t2 y)).
    { apply plain_says; [exact Ny|exact Hy|discriminate| |constructor|exact Logic.I]. constructor; [exact (named_says t2 T2)|constructor]. }
    pose proof (program_described _ _ sub2 Sy Hs2) as S2.
    assert (F2 : finished sub2 (column_body t2 y)) by (split; [discriminate|exact (no_comment ys [GStr t2] sub2 Hs2)]).
    assert (Q : says ei (FInSub false (MName [t1; x]) (Query (column_body t2 y)))).
    { destruct Cx as [Px Ex]. rewrite <- Ex. exact (says_in_sub qx (g_select sub2) sub2 _ ei Px (sub_builder sub2) S2 F2 Hi2). }
    pose proof (plain_responds db args [GStr t1] [] (Some ei) _ [named t1] [] (Some (FInSub false (MName [t1; x]) (Query (column_body t2 y)))) si Na Ha Nm Ft (Forall2_nil _) Q H') as P'.
    eexists. split; [exact P|]. match goal with |- responds _ _ ?o => match type of P' with responds _ _ ?o' => replace o with o' end end; [exact P'|].
    f_equal. unfold combinations. cbn [bfrom bjoins]. rewrite map_map.
    induction (snd (db (tb_name (named t1)))) as [|r rows IH]; [reflexivity|]. cbn [map filter].
    rewrite (match_truth g db t1 x t2 y r Sym Iy), (matching_chosen db ns t1 x t2 y false r N), xorb_false_l, IH. reflexivity.
  Qed.

  (* C71: Delete(t1).Using(t2).Where(y = x), Delete(t1).Where(Exists(...)) and Delete(t1).Where(x In (...)) remove the same rows. *)
  Definition delete_using (t1 t2 : string) (c : expr) : removal :=
    {| rm_table := GStr t1; rm_using := [GStr t2]; rm_conditions := Some (c, []); rm_returning := [] |}.
  Theorem C71_delete_using : forall (g : basis) (db : tabledb g) inner ns ys t1 x t2 y sx sy qx c sub sub2 e ei d1 d2 d3,
    (forall a b, bcompares g "=" a b = bcompares g "=" b a) ->
    t1 <> t2 -> one_name t1 -> one_name t2 -> column_of_table t2 y sy -> raw_column t1 x sx -> column_of_table t1 x qx ->
    inner <> [] -> args_say inner (columns_item ns) -> ns <> [] ->
    ys <> [] -> args_say ys (columns_item [[y]]) -> In y (fst (db [t2])) ->
    match_calls inner ys t2 sy sx qx c sub sub2 e ei ->
    removal_delete (delete_using t1 t2 c) = Ok d1 -> removal_delete (delete_where t1 e) = Ok d2 -> removal_delete (delete_where t1 ei) = Ok d3 ->
    forall out db', (removes db d1 out db' <-> removes db d2 out db') /\ (removes db d2 out db' <-> removes db d3 out db').
  Proof.
    intros g db inner ns ys t1 x t2 y sx sy qx c sub sub2 e ei d1 d2 d3 Sym N T1 T2 Cy Rx Cx Ni Hi Nn Ny Hy Iy (Hc & Hs & He & Hs2 & Hi2) H1 H2 H3 out db'.
    destruct (matching_sub inner ns t1 x t2 y sx sy c sub Ni Hi Nn T2 Cy Rx Hc Hs) as [S F].
    assert (Sy : program_says (plain_program ys [GStr t2] [] None) (column_body t2 y)).
    { apply plain_says; [exact Ny|exact Hy|discriminate| |constructor|exact Logic.I]. constructor; [exact (named_says t2 T2)|constructor]. }
    pose proof (program_described _ _ sub2 Sy Hs2) as S2.
    assert (F2 : finished sub2 (column_body t2 y)) by (split; [discriminate|exact (no_comment ys [GStr t2] sub2 Hs2)]).
    assert (Q : says ei (FInSub false (MName [t1; x]) (Query (column_body t2 y)))).
    { destruct Cx as [Px Ex]. rewrite <- Ex. exact (says_in_sub qx (g_select sub2) sub2 _ ei Px (sub_builder sub2) S2 F2 Hi2). }
    pose proof (matching_says t1 x t2 y sx sy c Cy Rx Hc) as M.
    pose proof (removal_described (delete_using t1 t2 c) (named t1) [named t2] (Some (matching t1 x t2 y, [])) [] d1 (named_says t1 T1)
      (Forall2_cons _ _ (named_says t2 T2) (Forall2_nil _)) (conj M (Forall2_nil _)) eq_refl H1) as D1.
    pose proof (removal_described (delete_where t1 e) (named t1) [] (Some (FExists false (Query (matching_body ns t1 x t2 y)), [])) [] d2 (named_says t1 T1)
      (Forall2_nil _) (conj (says_exists (g_select sub) sub _ e (sub_builder sub) S F He) (Forall2_nil _)) eq_refl H2) as D2.
    pose proof (removal_described (delete_where t1 ei) (named t1) [] (Some (FInSub false (MName [t1; x]) (Query (column_body t2 y)), [])) [] d3 (named_says t1 T1)
      (Forall2_nil _) (conj Q (Forall2_nil _)) eq_refl H3) as D3.
    rewrite (removes_iff d1 _ D1), (removes_iff d2 _ D2), (removes_iff d3 _ D3).
    unfold bdelete. cbn [delete_body de_from de_using de_where de_returning may_return aggregated existsb negb return_all tb_name named].
    assert (G1 : forall r, goes db (named t1) (delete_body (named t1) [named t2] (all_conditions (Some (matching t1 x t2 y, []))) []) r = has_match db t2 x y r).
    { intro r. unfold goes, partner, others. cbn [delete_body de_using de_where all_conditions fold_left fst snd bfrom bjoins]. unfold has_match.
      change (tb_name (named t2)) with [t2].
      induction (snd (db [t2])) as [|r' rows IH]; [reflexivity|]. cbn [map find existsb].
      assert (B : bchosen g means db (Some (matching t1 x t2 y)) (next_to db (named t1) r [with_row db (named t2) r']) = is_true (bcompares g "=" (r' y) (r x))).
      { unfold next_to. cbn [bchosen btruth matching bterm names_in removelast last find with_row fst snd called_so named tb_alias tb_name].
        rewrite !name_eqb_refl. cbn [orb].
        assert (Z : name_eqb [t2] [t1] = false) by (unfold name_eqb; destruct (list_eq_dec string_dec [t2] [t1]); [congruence|reflexivity]).
        rewrite Z. reflexivity. }
      rewrite B. destruct (is_true (bcompares g "=" (r' y) (r x))); [reflexivity|exact IH]. }
    assert (G2 : forall r, goes db (named t1) (delete_body (named t1) [] (all_conditions (Some (FExists false (Query (matching_body ns t1 x t2 y)), []))) []) r = has_match db t2 x y r).
    { intro r. pose proof (matching_chosen db ns t1 x t2 y false r N) as Z. rewrite xorb_false_l in Z. unfold goes, partner.
      change (others db (de_using _)) with ([[]] : list (bscope g)). cbn [find]. unfold next_to.
      cbn [delete_body de_using de_where all_conditions fold_left fst snd]. rewrite Z. destruct (has_match db t2 x y r); reflexivity. }
    assert (G3 : forall r, goes db (named t1) (delete_body (named t1) [] (all_conditions (Some (FInSub false (MName [t1; x]) (Query (column_body t2 y)), []))) []) r = has_match db t2 x y r).
    { intro r. pose proof (match_truth g db t1 x t2 y r Sym Iy) as Z. unfold goes, partner.
      change (others db (de_using _)) with ([[]] : list (bscope g)). cbn [find]. unfold next_to.
      cbn [delete_body de_using de_where all_conditions fold_left fst snd]. rewrite Z. destruct (has_match db t2 x y r); reflexivity. }
    rewrite (filter_ext _ (fun r => negb (has_match db t2 x y r)) (fun r => f_equal negb (G1 r))).
    rewrite (filter_ext _ (fun r => negb (has_match db t2 x y r)) (fun r => f_equal negb (G2 r))).
    rewrite (filter_ext _ (fun r => negb (has_match db t2 x y r)) (fun r => f_equal negb (G3 r))).
    split; reflexivity.
  Qed.
End JoinLaws.

Print Assumptions C71_join_is_condition.
Print Assumptions C71_on_or_where.
Print Assumptions C71_outer_keeps.
Print Assumptions C71_in_or_exists.
Print Assumptions C71_delete_using.

(* ------------------------------------------------------------------------- *)
(* Examples                                                                    *)
(* ------------------------------------------------------------------------- *)

Section Examples.
  #[local] Existing Instance go_oracle.
  #[local] Existing Instance Bound.

  (* Select("name").From("users").Join("news", On("users.id", "news.user_id")).Where(title = y)
     and Select("name").From("users", "news").Where(users.id = news.user_id).And(title = y) *)
  Definition on_users : expr := lk_on "users.id" "news.user_id".
  Lemma on_users_says : on_says on_users f_joined.
  Proof. exact (on_equal "users.id" "news.user_id" eq_refl eq_refl). Qed.
  Definition with_news (kw : list string) : join_arg := JoinAs (GStr "news") on_users kw.
  Lemma with_news_says : forall kw, In kw join_types -> join_arg_says (with_news kw) (kw, news, f_joined).
  Proof. intros kw I. apply says_join_as; [apply news_says|exact on_users_says|exact I]. Qed.
  Definition inner : list string := ["INNER"; "JOIN"].
  Definition left_ : list string := ["LEFT"; "JOIN"].
  Definition joined_program : program := plain_program [GStr "name"] [GStr "users"] [with_news inner] (Some title_y).
  Definition joined_body : body := plain_body [["name"]] [users] [(inner, news, f_joined)] (Some f_y).
  Lemma joined_program_says : program_says joined_program joined_body.
  Proof.
    apply plain_says; [discriminate|apply name_says|discriminate|constructor; [apply users_says|constructor]| |apply title_y_says].
    constructor; [apply with_news_says|constructor]. vm_compute. tauto.
  Qed.
  Definition product_program : program := placed joined_program [GStr "users"; GStr "news"] [] (Some (PropsChanges.joined, [(ByAnd, title_y)])).
  Example C71_join_ex : given joined_program (board []) = Some [[CStr "a"]; [CStr "c"]; [CStr "c"]]
    /\ given product_program (board []) = Some [[CStr "a"]; [CStr "c"]; [CStr "c"]].
  Proof. split; vm_compute; reflexivity. Qed.
  Example C71_join_met : forall s s', program_select joined_program = Ok s -> program_select product_program = Ok s' ->
    exists out, responds (board []) s out /\ responds (board []) s' out.
  Proof.
    intros s s' E E'. exact (C71_join_is_condition joined_program joined_body (GStr "users") (GStr "news") inner news f_joined PropsChanges.joined s s'
      joined_program_says eq_refl eq_refl eq_refl news_says joined_says (fun k e (I : False) => match I with end) E E' bx (board [])).
  Qed.
  (* With Or the two are not the same: the condition of the join is lost for the rows of the Or. *)
  Definition user_2 : expr := match cmp_expr (lk_condition (GStr "id")) OpEqual (GInt KInt 2) with Ok e => e | _ => ENil end.
  Example C71_join_or : given (placed joined_program [GStr "users"] [with_news inner] (Some (title_y, [(ByOr, user_2)]))) (board [])
      = Some [[CStr "a"]; [CStr "c"]; [CStr "c"]]
    /\ given (placed joined_program [GStr "users"; GStr "news"] [] (Some (PropsChanges.joined, [(ByAnd, title_y); (ByOr, user_2)]))) (board [])
      = Some [[CStr "a"]; [CStr "b"]; [CStr "b"]; [CStr "b"]; [CStr "b"]; [CStr "c"]; [CStr "c"]].
  Proof. split; vm_compute; reflexivity. Qed.

  (* Join("news", On("users.id", "news.user_id").And(On("users.name", "news.title"))) and the second condition in Where *)
  Definition on_name : expr := lk_on "users.name" "news.title".
  Definition f_name : formula := FCmp (MName ["users"; "name"]) "=" (MName ["news"; "title"]).
  Definition name_title : expr := match cmp_expr (lk_condition (GStr "users.name")) OpEqual (GExpr (lk_raw "news.title")) with Ok e => e | _ => ENil end.
  Lemma name_title_says : says name_title f_name.
  Proof.
    apply (says_cmp "users.name" OpEqual (GExpr (lk_raw "news.title"))); [reflexivity| |reflexivity].
    apply operand_value. exact (value_column "news.title" eq_refl).
  Qed.
  Definition with_both_on : join_arg := JoinAs (GStr "news") (lk_and_on on_users on_name) inner.
  Definition two_program : program := plain_program [GStr "name"] [GStr "users"] [with_both_on] (Some title_y).
  Definition two_body : body := plain_body [["name"]] [users] [(inner, news, FAnd f_joined f_name)] (Some f_y).
  Lemma two_says : program_says two_program two_body.
  Proof.
    apply plain_says; [discriminate|apply name_says|discriminate|constructor; [apply users_says|constructor]| |apply title_y_says].
    constructor; [|constructor]. apply says_join_as; [apply news_says| |vm_compute; tauto].
    apply on_and; [exact on_users_says|exact (on_equal "users.name" "news.title" eq_refl eq_refl)].
  Qed.
  Example C71_on_met : forall s s', program_select two_program = Ok s ->
    program_select (placed two_program [GStr "users"] [with_news inner] (Some (name_title, [(ByAnd, title_y)]))) = Ok s' ->
    exists out, responds (board []) s out /\ responds (board []) s' out.
  Proof.
    intros s s' E E'. refine (C71_on_or_where two_program two_body (GStr "users") [] [] with_both_on (with_news inner) inner news f_joined f_name name_title s s'
      two_says eq_refl eq_refl eq_refl _ eq_refl name_title_says (fun k e (I : False) => match I with end) E E' bx (board [])).
    apply with_news_says. vm_compute. tauto.
  Qed.
  Example C71_on_ex : given two_program (board [[CInt 2; CStr "y"]; [CInt 1; CStr "a"]]) = Some []
    /\ given (placed two_program [GStr "users"] [with_both_on] None) (board [[CInt 2; CStr "y"]; [CInt 1; CStr "a"]]) = Some [[CStr "a"]]
    /\ given (placed two_program [GStr "users"] [with_news inner] (Some (name_title, []))) (board [[CInt 2; CStr "y"]; [CInt 1; CStr "a"]]) = Some [[CStr "a"]].
  Proof. split; [|split]; vm_compute; reflexivity. Qed.
  (* Not with a LEFT join: it keeps the users without such news, Where does not. *)
  Example C71_on_left : given (placed two_program [GStr "users"] [JoinAs (GStr "news") (lk_and_on on_users on_name) left_] None) (board [[CInt 1; CStr "a"]])
      = Some [[CStr "a"]; [CStr "b"]; [CStr "c"]]
    /\ given (placed two_program [GStr "users"] [with_news left_] (Some (name_title, []))) (board [[CInt 1; CStr "a"]]) = Some [[CStr "a"]].
  Proof. split; vm_compute; reflexivity. Qed.

  Example C71_outer_met : forall s s', program_select joined_program = Ok s ->
    program_select (placed joined_program [GStr "users"] [with_news left_] (Some (title_y, []))) = Ok s' ->
    exists out out', responds (board []) s out /\ responds (board []) s' out' /\ part_of out out'.
  Proof.
    intros s s' E E'. refine (C71_outer_keeps joined_program joined_body (GStr "users") [] [] (with_news inner) (with_news left_) inner left_ news f_joined s s'
      joined_program_says _ eq_refl eq_refl eq_refl _ eq_refl (or_introl eq_refl) E E' bx (board [])).
    - repeat split.
    - apply with_news_says. vm_compute. tauto.
  Qed.
  Example C71_outer_ex : given (placed joined_program [GStr "users"] [with_news left_] None) (board []) = Some [[CStr "a"]; [CStr "a"]; [CStr "b"]; [CStr "c"]; [CStr "c"]]
    /\ given (placed joined_program [GStr "users"] [with_news inner] None) (board []) = Some [[CStr "a"]; [CStr "a"]; [CStr "c"]; [CStr "c"]].
  Proof. split; vm_compute; reflexivity. Qed.

  (* Condition("users.id").In(Select("user_id").From("news")) and Exists(Select("title").From("news").Where(news.user_id = users.id)) *)
  Definition authors : select := match program_select (plain_program [GStr "user_id"] [GStr "news"] [] None) with Ok s => s | _ => new_select end.
  Definition in_news : expr := match expr_in (lk_condition (GStr "users.id")) [g_select authors] with Ok e => e | _ => ENil end.
  Lemma bx_sym : forall a b, bcompares bx "=" a b = bcompares bx "=" b a.
  Proof.
    intros [|x|x|x] [|y|y|y]; cbn; try reflexivity; f_equal; [apply Z.eqb_sym|apply String.eqb_sym|destruct x, y; reflexivity].
  Qed.
  Lemma news_calls : match_calls [GStr "title"] [GStr "user_id"] "news" "news.user_id" "users.id" "users.id" owned theirs authors has_news in_news.
  Proof. repeat split; vm_compute; reflexivity. Qed.
  Example C71_in_met : forall s si, program_select (names_where has_news) = Ok s -> program_select (names_where in_news) = Ok si ->
    exists out, responds (board []) s out /\ responds (board []) si out.
  Proof.
    intros s si H H'.
    apply (C71_in_or_exists bx (board []) [GStr "name"] ["name"] [GStr "title"] [["title"]] [GStr "user_id"] "users" "id" "news" "user_id" "users.id" "news.user_id" "users.id"
             owned theirs authors has_news in_news s si bx_sym); try discriminate; try (split; reflexivity).
    - exact name_says.
    - intros q [<-|[]]. right. left. reflexivity.
    - exact title_arg_says.
    - exact user_id_says.
    - left. reflexivity.
    - exact news_calls.
    - exact H.
    - exact H'.
  Qed.
  Example C71_in_ex : given (names_where has_news) (board [[CNull; CStr "z"]]) = Some [[CStr "a"]; [CStr "c"]]
    /\ given (names_where in_news) (board [[CNull; CStr "z"]]) = Some [[CStr "a"]; [CStr "c"]].
  Proof. split; vm_compute; reflexivity. Qed.
  (* NotIn and NotExists differ if the subquery shows a NULL. *)
  Definition not_in_news : expr := match expr_not_in (lk_condition (GStr "users.id")) [g_select authors] with Ok e => e | _ => ENil end.
  Example C71_not_in : given (names_where no_news) (board [[CNull; CStr "z"]]) = Some [[CStr "b"]]
    /\ given (names_where not_in_news) (board [[CNull; CStr "z"]]) = Some [].
  Proof. split; vm_compute; reflexivity. Qed.

  Example C71_delete_met : forall d1 d2 d3, removal_delete (delete_using "users" "news" owned) = Ok d1 ->
    removal_delete (delete_where "users" has_news) = Ok d2 -> removal_delete (delete_where "users" in_news) = Ok d3 ->
    forall out db', (removes (board []) d1 out db' <-> removes (board []) d2 out db') /\ (removes (board []) d2 out db' <-> removes (board []) d3 out db').
  Proof.
    intros d1 d2 d3 H1 H2 H3.
    apply (C71_delete_using bx (board []) [GStr "title"] [["title"]] [GStr "user_id"] "users" "id" "news" "user_id" "users.id" "news.user_id" "users.id"
             owned theirs authors has_news in_news d1 d2 d3 bx_sym); try discriminate; try (split; reflexivity).
    - exact title_arg_says.
    - exact user_id_says.
    - left. reflexivity.
    - exact news_calls.
    - exact H1.
    - exact H2.
    - exact H3.
  Qed.
  Example C71_delete_ex : run_removal (delete_using "users" "news" owned) (board []) ["users"] ["id"] = Some ([], [[CInt 2]])
    /\ run_removal (delete_where "users" has_news) (board []) ["users"] ["id"] = Some ([], [[CInt 2]])
    /\ run_removal (delete_where "users" in_news) (board []) ["users"] ["id"] = Some ([], [[CInt 2]]).
  Proof. split; [|split]; vm_compute; reflexivity. Qed.
End Examples.
