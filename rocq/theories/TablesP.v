(* Proofs about Tables.v: programs describe the statements that Tables.v carries out. *)
From Verif Require Import GrammarDmlP GrammarReadP PropsGrammar PropsGrammarDml EffectP.
From Verif Require Export Tables.

Section Programs.
  Context {O : Oracle}.
  #[local] Existing Instance Bound.

  Lemma wchosen_meets {g} (db : tables g) : forall fs v, wchosen db (whole_formula fs) v = wmeets db fs v.
  Proof.
    intros [[f l]|] v; [|reflexivity]. cbn [whole_formula wchosen wmeets]. f_equal.
    revert f. induction l as [|[c h] l IH]; intro f; [reflexivity|]. cbn [fold_left fst snd]. rewrite IH.
    destruct c; reflexivity.
  Qed.

  Lemma join_calls : forall js l, Forall2 join_arg_says js l -> forall s b s', sel_says s b ->
    sel_run s (map join_call js) = Ok s' -> sel_says s' (set_joins (q_joins b ++ l)%list b).
  Proof.
    intros js l F. induction F as [|j x js l J F IH]; intros s b s' S R.
    - cbn in R. injection R as <-. rewrite app_nil_r. destruct b. exact S.
    - cbn [map] in R. apply run_cons in R as (y & E & R).
      assert (S' : sel_says y (set_joins (q_joins b ++ [x])%list b)).
      { destruct J; cbn [join_call] in E.
        - eapply sel_join_on; eassumption.
        - eapply sel_join_type; eassumption.
        - eapply sel_join_text; eassumption. }
      pose proof (IH y _ s' S' R) as T. cbn [set_joins q_joins] in T. rewrite <- app_assoc in T. exact T.
  Qed.

  Definition join_body (l : list item) (ts : list tableref) (js : list (list string * tableref * formula))
    (fs : formulas) (o : list (string * string)) (p : window) : body :=
    {| q_prefix := []; q_with := []; q_distinct_on := []; q_distinct := false; q_items := l;
       q_from := ts; q_joins := js; q_where := whole_formula fs; q_group_by := []; q_having := None;
       q_order_by := o; q_limit := window_limit p; q_offset := window_offset p; q_suffix := [] |}.

  Lemma join_described : forall args l tables ts js jl c fs os o p s,
    args <> [] -> args_say args l -> Forall2 table_says tables ts -> Forall2 join_arg_says js jl ->
    conditions_say c fs -> Forall2 order_says os o -> window_ok p ->
    join_program args tables js c os p = Ok s -> sel_says s (join_body l ts jl fs o p).
  Proof.
    intros args l tables ts js jl c fs os o p s Na Ha Ht Hj Hc Ho Hp H. unfold join_program in H.
    destruct (lk_select args) as [s0|] eqn:E0; [|discriminate]. cbn [bind] in H.
    pose proof (sel_columns new_select empty_body args l s0 sel_new Na Ha E0) as S0.
    apply run_cons in H as (s1 & E1 & H).
    pose proof (sel_from s0 _ tables ts s1 S0 Ht E1) as S1.
    apply run_app in H as (sj & Ej & H).
    pose proof (join_calls js jl Hj s1 _ sj S1 Ej) as Sj.
    apply run_app in H as (s2 & E2 & H).
    pose proof (sel_conds c fs sj (set_joins jl (set_from ts (set_items l empty_body))) s2 Hc eq_refl Sj E2) as S2.
    apply run_app in H as (s3 & E3 & H).
    assert (S3 : sel_says s3 (join_body l ts jl fs o Everything)).
    { destruct os as [|o0 os]; cbn [unless_none] in E3.
      - inversion Ho; subst. cbn in E3. injection E3 as <-. exact S2.
      - apply run_cons in E3 as (y & Ey & E3). cbn in E3. injection E3 as <-.
        exact (sel_order_by s2 _ (o0 :: os) o y S2 Ho Ey). }
    destruct p as [|n|n k]; cbn [window_calls window_ok] in H, Hp.
    - cbn in H. injection H as <-. exact S3.
    - destruct Hp as [Hn On]. apply run_cons in H as (y & Ey & H). cbn in H. injection H as <-.
      pose proof (sel_limit s3 _ (GInt KInt64 n) n y S3 On ltac:(discriminate) eq_refl Ey) as S4.
      rewrite (nonzero_pos n Hn) in S4. exact S4.
    - destruct Hp as (Hn & On & Hk & Ok_). apply run_cons in H as (y & Ey & H). apply run_cons in H as (z & Ez & H).
      cbn in H. injection H as <-.
      pose proof (sel_limit s3 _ (GInt KInt64 n) n y S3 On ltac:(discriminate) eq_refl Ey) as S4.
      rewrite (nonzero_pos n Hn) in S4.
      exact (sel_offset y _ (GInt KInt64 k) k z S4 Ok_ ltac:(discriminate) eq_refl Ez).
  Qed.

  Lemma cut_window {g} : forall p (rows : list (naming g)), window_ok p ->
    cut_to (window_limit p) (window_offset p) rows = in_window p rows.
  Proof.
    intros [|n|n k] rows H; unfold cut_to; cbn [window_limit window_offset in_window take_rows]; try reflexivity.
    - rewrite Z_N_nat. reflexivity.
    - rewrite Z_N_nat. destruct H as (_ & _ & Hk & _). unfold nonzero. destruct (Z.eqb_spec k 0); [subst; reflexivity|].
      rewrite Z_N_nat. reflexivity.
  Qed.

  Lemma answered : forall s b, sel_says s b -> q_items b <> [] ->
    exists text values, query (StSelect s) = Ok (text, values)
    /\ forall g (db : tables g), answer_select db text values = wselect db b.
  Proof.
    intros s b S Nl. destruct (C49_select_read_back s b S Nl) as (text & values & Q & R).
    exists text, values. split; [exact Q|]. intros g db. unfold answer_select. rewrite R. reflexivity.
  Qed.

  Lemma plain_wdata {g} (db : tables g) : forall l v, plain_items l = true -> witems db l v = Some (wdata db l v).
  Proof.
    intros l v. unfold witems, plain_items. induction l as [|i l IH]; intro H; [reflexivity|].
    cbn [counts existsb negb] in H. destruct i; [| discriminate |]; cbn [orb] in H; cbn [map witem all_some];
      (rewrite (IH H); reflexivity).
  Qed.
  Lemma plain_wdata_rows {g} (db : tables g) : forall l, plain_items l = true -> forall rows,
    all_some (map (witems db l) rows) = Some (map (wdata db l) rows).
  Proof.
    intros l H. induction rows as [|r rows IH]; [reflexivity|]. cbn [map all_some]. rewrite (plain_wdata db l r H), IH. reflexivity.
  Qed.

  Lemma join_rows : forall args l tables ts js jl c fs os o p s,
    args <> [] -> args_say args l -> l <> [] -> plain_items l = true ->
    Forall2 table_says tables ts -> Forall2 join_arg_says js jl ->
    conditions_say c fs -> Forall2 order_says os o -> window_ok p ->
    join_program args tables js c os p = Ok s ->
    exists text values, query (StSelect s) = Ok (text, values)
    /\ forall g (db : Tables.tables g), answer_select db text values
       = Some (map (wdata db l) (in_window p (sorted_by o (filter (wmeets db fs) (map named_in (from_clause db ts jl)))))).
  Proof.
    intros args l tables ts js jl c fs os o p s Na Ha Nl Pl Ht Hj Hc Ho Hp H.
    pose proof (join_described args l tables ts js jl c fs os o p s Na Ha Ht Hj Hc Ho Hp H) as S.
    destruct (answered s _ S Nl) as (text & values & Q & R).
    exists text, values. split; [exact Q|]. intros g db. rewrite R. unfold wselect, join_body.
    rewrite (filter_ext _ _ (wchosen_meets db fs)). rewrite (cut_window p _ Hp).
    rewrite <- (plain_wdata_rows db l Pl).
    destruct l as [|[n a|f [] x a|n q] [|i l]]; try reflexivity; discriminate.
  Qed.

  Lemma join_counts : forall tables ts js jl c fs s,
    Forall2 table_says tables ts -> Forall2 join_arg_says js jl -> conditions_say c fs ->
    join_program [GSel (lk_count "*")] tables js c [] Everything = Ok s ->
    exists text values, query (StSelect s) = Ok (text, values)
    /\ forall g (db : Tables.tables g), answer_select db text values
       = Some [[wnumber g (List.length (filter (wmeets db fs) (map named_in (from_clause db ts jl))))]].
  Proof.
    intros tables ts js jl c fs s Ht Hj Hc H.
    pose proof (join_described [GSel (lk_count "*")] _ tables ts js jl c fs [] [] Everything s ltac:(discriminate)
      (args_items _ _ (items_agg _ _ _ _ _ _ _ (agg_count "*" eq_refl) items_none)) Ht Hj Hc (Forall2_nil _) I H) as S.
    destruct (answered s _ S) as (text & values & Q & R); [discriminate|].
    exists text, values. split; [exact Q|]. intros g db. rewrite R. unfold wselect, join_body. cbn [window_limit window_offset].
    rewrite (filter_ext _ _ (wchosen_meets db fs)). reflexivity.
  Qed.

  (* ----------------------------------------------------------------------- *)
  (* DELETE                                                                    *)
  (* ----------------------------------------------------------------------- *)

  Definition dbody_of (t : tableref) (us : list tableref) (w : option formula) : dbody :=
    {| de_from := [t]; de_using := us; de_where := w; de_returning := [] |}.

  Lemma using_links : forall l l', Forall2 (fun x y => fst x = fst y /\ says (snd x) (snd y)) l l' ->
    forall d t us f d', del_says d (dbody_of t us (Some f)) ->
    del_run d (map (fun x => match fst x with
                     ByWhere => DelWhere (snd x) | ByAnd => DelAnd (snd x) | ByOr => DelOr (snd x) end) l) = Ok d' ->
    del_says d' (dbody_of t us (Some (fold_left (fun a x => joined_by (fst x) a (snd x)) l' f))).
  Proof.
    intros l l' F. induction F as [|[c e] [c' h] l l' [Ec He] F IH]; intros d t us f d' S R.
    - cbn in R. injection R as <-. exact S.
    - cbn [fst snd] in *. subst c'. cbn [map fst snd] in R. apply run_cons in R as (x & E & R).
      cbn [fold_left fst snd]. apply (IH x); [|exact R].
      destruct c; cbn [joined_by].
      + exact (del_where d _ e h x S He E).
      + exact (del_and d _ e h f x S He eq_refl E).
      + exact (del_or d _ e h f x S He eq_refl E).
  Qed.

  Lemma using_described : forall table t others us c fs d,
    table_says table t -> Forall2 table_says others us -> conditions_say c fs ->
    using_delete_program table others c = Ok d -> del_says d (dbody_of t us (whole_formula fs)).
  Proof.
    intros table t others us c fs d Ht Hu Hc H. unfold using_delete_program in H.
    destruct (lk_delete table) as [d0|] eqn:E0; [|discriminate]. cbn [bind] in H.
    pose proof (del_new table t d0 Ht E0) as S0.
    apply run_cons in H as (d1 & E1 & H).
    pose proof (del_using d0 _ others us d1 S0 Hu E1) as S1.
    destruct c as [[e cs]|], fs as [[f fs]|]; cbn [conditions_say] in Hc; try contradiction.
    - destruct Hc as [He F]. cbn [del_conditions] in H. apply run_cons in H as (x & E & R).
      cbn [whole_formula]. apply (using_links cs fs F x); [|exact R]. exact (del_where d1 _ e f x S1 He E).
    - cbn in H. injection H as <-. exact S1.
  Qed.

  Lemma using_deletes : forall table t others us c fs d,
    table_says table t -> Forall2 table_says others us -> conditions_say c fs ->
    using_delete_program table others c = Ok d ->
    exists text values, query (StDelete d) = Ok (text, values)
    /\ forall g (db : tables g), answer_delete db text values
       = Some (wreplace db (tb_name t) (filter (fun r => negb (removed db t us (whole_formula fs) r)) (db (tb_name t)))).
  Proof.
    intros table t others us c fs d Ht Hu Hc H.
    pose proof (using_described table t others us c fs d Ht Hu Hc H) as S.
    destruct (C50_delete_read_back d _ S) as (text & values & Q & R).
    exists text, values. split; [exact Q|]. intros g db. unfold answer_delete. rewrite R. reflexivity.
  Qed.
End Programs.
