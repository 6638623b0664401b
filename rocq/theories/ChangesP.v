(* Proofs about Changes.v: the database reads the text of a program as the statement that the
   program says, and what that does. *)
From Verif Require Import GrammarReadP PropsGrammarDml EffectP TablesP MeaningP PropsEffect.
From Verif Require Export Changes.

Section Programs.
  Context {O : Oracle}.
  #[local] Existing Instance Bound.

  Definition update_body (w : list (string * squery)) (t : tableref) (s : setting) (ts : list tableref) (wh : option formula)
    (l : list item) : ubody :=
    {| up_with := w; up_table := t; up_set := s; up_from := ts; up_where := wh; up_returning := l |}.

  Lemma update_links : forall l l', Forall2 (fun x y => fst x = fst y /\ says (snd x) (snd y)) l l' ->
    forall u u' w t s ts f rl, upd_says u (update_body w t s ts (Some f) rl) ->
    upd_run u (map (fun x => match fst x with ByWhere => UpdWhere (snd x) | ByAnd => UpdAnd (snd x) | ByOr => UpdOr (snd x) end) l) = Ok u' ->
    upd_says u' (update_body w t s ts (Some (fold_left (fun a x => match fst x with ByOr => FOr a (snd x) | _ => FAnd a (snd x) end) l' f)) rl).
  Proof.
    intros l l' F. induction F as [|[k e] [k' f'] l l' [E1 E2] F IH]; intros u u' w t s ts f rl S R.
    - cbn in R. injection R as <-. exact S.
    - cbn [map] in R. apply run_cons in R as (x & E & R). cbn [fold_left]. cbn [fst snd] in E1, E2, E |- *. subst k'.
      apply (IH x); [|exact R]. destruct k.
      + exact (upd_where u _ e f' x S E2 E).
      + exact (upd_and u _ e f' f x S E2 eq_refl E).
      + exact (upd_or u _ e f' f x S E2 eq_refl E).
  Qed.

  Lemma change_described : forall c t wl s ts fs rl u,
    table_says (ch_table c) t -> withs_say (ch_with c) wl ->
    (forall u b u', upd_says u b -> up_set b = SetEach [] -> upd_run u (set_calls (ch_set c)) = Ok u' -> upd_says u' (put_set s b)) ->
    from_says (ch_from c) ts -> conditions_say (ch_conditions c) fs -> returning_says (ch_returning c) rl ->
    change_update c = Ok u -> upd_says u (update_body wl t s ts (all_conditions fs) rl).
  Proof.
    intros [table ws st f cs ret] t wl s ts fs rl u Ht Hw Hs Hf Hc Hr H.
    cbn [ch_table ch_with ch_set ch_from ch_conditions ch_returning] in *.
    unfold change_update in H. cbn [ch_table] in H. destruct (lk_update table) as [u0|] eqn:E0; [|discriminate]. cbn [bind] in H.
    pose proof (upd_new table t u0 Ht E0) as S0. unfold change_calls in H.
    cbn [ch_table ch_with ch_set ch_from ch_conditions ch_returning] in H.
    apply run_app in H as (u1 & R1 & H).
    assert (S1 : upd_says u1 (update_body wl t (SetEach []) [] None [])).
    { destruct ws as [|w0 ws]; cbn [unless_none] in R1.
      - inversion Hw; subst. cbn in R1. injection R1 as <-. exact S0.
      - apply run_cons in R1 as (y & Ey & R1). cbn in R1. injection R1 as <-. exact (upd_with u0 _ _ wl y S0 Hw Ey). }
    apply run_app in H as (u2 & R2 & H).
    pose proof (Hs u1 _ u2 S1 eq_refl R2) as S2. change (put_set s _) with (update_body wl t s [] None []) in S2.
    apply run_app in H as (u3 & R3 & H).
    assert (S3 : upd_says u3 (update_body wl t s ts None [])).
    { destruct f as [x|].
      - destruct Hf as (tf & Htf & ->). apply run_cons in R3 as (y & Ey & R3). cbn in R3. injection R3 as <-.
        exact (upd_from u2 _ x tf y S2 Htf Ey).
      - cbn in Hf. subst ts. cbn in R3. injection R3 as <-. exact S2. }
    apply run_app in H as (u4 & R4 & H).
    assert (S4 : upd_says u4 (update_body wl t s ts (all_conditions fs) [])).
    { destruct cs as [[e l]|], fs as [[f0 l']|]; cbn [conditions_say] in Hc; try contradiction.
      - destruct Hc as [He F]. cbn [upd_conditions] in R4. apply run_cons in R4 as (x & E & R4).
        cbn [all_conditions]. apply (update_links l l' F x); [|exact R4]. exact (upd_where u3 _ e f0 x S3 He E).
      - cbn in R4. injection R4 as <-. exact S3. }
    destruct ret as [|r ret]; cbn [unless_none] in H.
    - cbn in Hr. subst rl. cbn in H. injection H as <-. exact S4.
    - destruct Hr as [Hr _]. apply run_cons in H as (x & E & H). cbn in H. injection H as <-.
      exact (upd_returning u4 _ (r :: ret) rl x S4 Hr E).
  Qed.

  (* Set(pairs...)... *)
  Lemma pairs_described : forall sets ls, Forall2 pairs_say sets ls -> forall u b u' m,
    upd_says u b -> up_set b = SetEach m -> upd_run u (map UpdSet sets) = Ok u' ->
    upd_says u' (put_set (SetEach (assign_all m (List.concat ls))) b).
  Proof.
    intros sets ls F. induction F as [|a l sets ls P F IH]; intros u b u' m S E R.
    - cbn in R. injection R as <-. replace (put_set _ b) with b; [exact S|].
      destruct b as [x1 x2 x3 x4 x5 x6]. cbn in E. subst x3. reflexivity.
    - cbn [map] in R. apply run_cons in R as (x & Ex & R). cbn [List.concat].
      unfold assign_all. rewrite fold_left_app. fold (assign_all m l).
      pose proof (upd_set u b a m l x S E P Ex) as S1. pose proof (IH x _ u' (assign_all m l) S1 eq_refl R) as S2.
      exact S2.
  Qed.

  Lemma set_described : forall st l, set_says st l -> l <> [] -> simple_names l = true ->
    exists s, assigns_something s
    /\ (forall u b u', upd_says u b -> up_set b = SetEach [] -> upd_run u (set_calls st) = Ok u' -> upd_says u' (put_set s b))
    /\ forall g (db : tabledb g) v, exists w, bassigned db s v = Some w
         /\ forall c, lookup_col c w = option_map (bterm g means db v) (last_value c l).
  Proof.
    intros st l H N Ss. destruct H as [sets ls F|cols ns vs ts Hc Hv L Nr].
    - exists (SetEach (assign_all [] (List.concat ls))). split; [|split].
      + cbn [assigns_something]. pose proof (GrammarDmlP.assign_all_nonempty _ [] N) as X.
        destruct (assign_all [] (List.concat ls)); [congruence|exact I].
      + intros u b u' S E R. exact (pairs_described sets ls F u b u' [] S E R).
      + intros g db v. cbn [bassigned]. rewrite (assign_all_settable _ Ss). eexists. split; [reflexivity|].
        intro c. change (map _ (assign_all [] (List.concat ls))) with (evaluated (bterm g means db v) (assign_all [] (List.concat ls))).
        rewrite (assign_all_lookup (bterm g means db v) c (List.concat ls) [] Ss eq_refl). reflexivity.
    - exists (SetList ns (SValues ts)). split; [|split].
      + destruct ts; [|exact I]. destruct ns; [cbn in N; congruence|cbn in L; discriminate].
      + intros u b u' S E R. cbn [set_calls] in R. apply run_cons in R as (x & Ex & R). apply run_cons in R as (y & Ey & R).
        cbn in R. injection R as <-. pose proof (upd_columns u b cols ns x S E Hc Ex) as S1.
        exact (upd_using x _ vs ns [] ts y S1 eq_refl Hv Ey).
      + intros g db v. cbn [bassigned].
        assert (St : settable ns = true).
        { unfold settable. rewrite Nr, andb_true_r. clear - Ss L. revert ts L Ss. induction ns as [|n ns IH]; intros [|a ts] L Ss; try reflexivity; try discriminate.
          cbn [combine simple_names forallb fst] in Ss. apply andb_true_iff in Ss as [S1 S2]. cbn [forallb]. rewrite S1. cbn in L. injection L as L.
          exact (IH ts L S2). }
        rewrite St, L, Nat.eqb_refl. eexists. split; [reflexivity|]. intro c. exact (paired_lookup _ c ns ts Nr L).
  Qed.

  Lemma update_sent : forall u b, sort_contract o_sort -> upd_says u b -> assigns_something (up_set b) ->
    forall g (db : tabledb g) out db', bupdate db b = Some (out, db') -> updates db u out db'.
  Proof.
    intros u b C S A g db out db' E. destruct (C51_update_read_back u b C S A) as (text & values & Q & R).
    exists text, values. split; [exact Q|]. unfold send_update. rewrite R. exact E.
  Qed.

  Lemma using_sub_described : forall cols ns ga sub sb, columns_say cols ns -> sub_arg sub ga -> sel_says sub sb -> finished sub sb ->
    forall u b u', upd_says u b -> up_set b = SetEach [] -> upd_run u (set_calls (SetUsing cols [ga])) = Ok u' ->
    upd_says u' (put_set (SetList ns (SQuery (Query sb))) b).
  Proof.
    intros cols ns ga sub sb Hc Sa Ss Fs u b u' S E R. cbn [set_calls] in R.
    apply run_cons in R as (x & Ex & R). apply run_cons in R as (y & Ey & R). cbn in R. injection R as <-.
    pose proof (upd_columns u b cols ns x S E Hc Ex) as S1.
    exact (upd_using_sub x _ ga sub sb ns y S1 eq_refl Sa Ss Fs Ey).
  Qed.

  (* ----------------------------------------------------------------------- *)
  (* DELETE                                                                    *)
  (* ----------------------------------------------------------------------- *)

  Definition delete_body (t : tableref) (us : list tableref) (wh : option formula) (l : list item) : dbody :=
    {| de_from := [t]; de_using := us; de_where := wh; de_returning := l |}.

  Lemma delete_links : forall l l', Forall2 (fun x y => fst x = fst y /\ says (snd x) (snd y)) l l' ->
    forall d d' t us f rl, del_says d (delete_body t us (Some f) rl) ->
    del_run d (map (fun x => match fst x with ByWhere => DelWhere (snd x) | ByAnd => DelAnd (snd x) | ByOr => DelOr (snd x) end) l) = Ok d' ->
    del_says d' (delete_body t us (Some (fold_left (fun a x => match fst x with ByOr => FOr a (snd x) | _ => FAnd a (snd x) end) l' f)) rl).
  Proof.
    intros l l' F. induction F as [|[k e] [k' f'] l l' [E1 E2] F IH]; intros d d' t us f rl S R.
    - cbn in R. injection R as <-. exact S.
    - cbn [map] in R. apply run_cons in R as (x & E & R). cbn [fold_left]. cbn [fst snd] in E1, E2, E |- *. subst k'.
      apply (IH x); [|exact R]. destruct k.
      + exact (del_where d _ e f' x S E2 E).
      + exact (del_and d _ e f' f x S E2 eq_refl E).
      + exact (del_or d _ e f' f x S E2 eq_refl E).
  Qed.

  Lemma removal_described : forall c t us fs rl d,
    table_says (rm_table c) t -> Forall2 table_says (rm_using c) us ->
    conditions_say (rm_conditions c) fs -> returning_says (rm_returning c) rl ->
    removal_delete c = Ok d -> del_says d (delete_body t us (all_conditions fs) rl).
  Proof.
    intros [table os cs ret] t us fs rl d Ht Hu Hc Hr H. cbn [rm_table rm_using rm_conditions rm_returning] in *.
    unfold removal_delete in H. cbn [rm_table rm_using rm_conditions rm_returning] in H.
    destruct (lk_delete table) as [d0|] eqn:E0; [|discriminate]. cbn [bind] in H.
    pose proof (del_new table t d0 Ht E0) as S0.
    apply run_app in H as (d1 & R1 & H).
    assert (S1 : del_says d1 (delete_body t us None [])).
    { destruct os as [|o os]; cbn [unless_none] in R1.
      - inversion Hu; subst. cbn in R1. injection R1 as <-. exact S0.
      - apply run_cons in R1 as (y & Ey & R1). cbn in R1. injection R1 as <-. exact (del_using d0 _ _ us y S0 Hu Ey). }
    apply run_app in H as (d4 & R4 & H).
    assert (S4 : del_says d4 (delete_body t us (all_conditions fs) [])).
    { destruct cs as [[e l]|], fs as [[f0 l']|]; cbn [conditions_say] in Hc; try contradiction.
      - destruct Hc as [He F]. cbn [del_conditions] in R4. apply run_cons in R4 as (x & E & R4).
        cbn [all_conditions]. apply (delete_links l l' F x); [|exact R4]. exact (del_where d1 _ e f0 x S1 He E).
      - cbn in R4. injection R4 as <-. exact S1. }
    destruct ret as [|r ret]; cbn [unless_none] in H.
    - cbn in Hr. subst rl. cbn in H. injection H as <-. exact S4.
    - destruct Hr as [Hr _]. apply run_cons in H as (x & E & H). cbn in H. injection H as <-.
      exact (del_returning d4 _ (r :: ret) rl x S4 Hr E).
  Qed.

  Lemma delete_sent : forall d b, del_says d b ->
    forall g (db : tabledb g) out db', bdelete db b = Some (out, db') -> removes db d out db'.
  Proof.
    intros d b S g db out db' E. destruct (C50_delete_read_back d b S) as (text & values & Q & R).
    exists text, values. split; [exact Q|]. unfold send_delete. rewrite R. exact E.
  Qed.
End Programs.

(* ------------------------------------------------------------------------- *)
(* What is done                                                                *)
(* ------------------------------------------------------------------------- *)

Section Done.
  Context {g : basis}.

  Lemma put_same : forall (db : tabledb g) t rows, put_table db t rows t = (fst (db t), rows).
  Proof. intros. unfold put_table. rewrite name_eqb_refl. reflexivity. Qed.
  Lemma put_other : forall (db : tabledb g) t rows t', t' <> t -> put_table db t rows t' = db t'.
  Proof. intros db t rows t' N. unfold put_table, name_eqb. destruct (list_eq_dec string_dec t t'); [congruence|reflexivity]. Qed.

  (* A row, what it becomes, and the rows of the other tables with which it meets the conditions. *)
  Definition step (db : tabledb g) (t : tableref) (ps : list (bscope g)) (w : option formula)
    (value : bnaming g -> string -> option (bdatum g)) (r : brow g) (x : brow g * option (bscope g)) : Prop :=
    match snd x with
    | None => fst x = r /\ forall sc, In sc ps -> bchosen g means db w (next_to db t r sc) = false
    | Some sc => In sc ps /\ bchosen g means db w (next_to db t r sc) = true
                 /\ forall c, fst x c = match value (next_to db t r sc) c with Some d => d | None => r c end
    end.

  Lemma changed_step : forall (db : tabledb g) b value,
    (forall v, exists w, bassigned db (up_set b) v = Some w /\ forall c, lookup_col c w = value v c) ->
    forall rows, exists l, all_some (map (changed db b) rows) = Some l
      /\ Forall2 (step db (up_table b) (others db (up_from b)) (up_where b) value) rows l.
  Proof.
    intros db b value A rows. induction rows as [|r rows (l & E & F)]; [exists []; split; [reflexivity|constructor]|].
    cbn [map all_some]. unfold changed at 1. destruct (partner db (up_table b) (up_from b) (up_where b) r) as [sc|] eqn:Ep.
    - unfold partner in Ep. pose proof (find_some _ _ Ep) as [I M].
      destruct (A (next_to db (up_table b) r sc)) as (w & Ew & Lw). rewrite Ew. cbn [option_map]. rewrite E. cbn [option_map].
      eexists. split; [reflexivity|]. constructor; [|exact F]. cbn [step snd fst]. unfold step. cbn [snd fst].
      split; [exact I|]. split; [exact M|]. intro c. unfold bwrite. rewrite Lw. reflexivity.
    - unfold partner in Ep. cbn [option_map]. rewrite E. cbn [option_map]. eexists. split; [reflexivity|]. constructor; [|exact F].
      unfold step. cbn [snd fst]. split; [reflexivity|]. intros sc I. exact (find_none _ _ Ep sc I).
  Qed.

  Lemma update_done : forall (db : tabledb g) b value, let db1 := with_tables g means query_columns (up_with b) db nothing in
    (forall v, exists w, bassigned db1 (up_set b) v = Some w /\ forall c, lookup_col c w = value v c) ->
    named_with (up_with b) (tb_name (up_table b)) = false -> aggregated (up_returning b) = false ->
    exists l, Forall2 (step db1 (up_table b) (others db1 (up_from b)) (up_where b) value) (snd (db (tb_name (up_table b)))) l
      /\ bupdate db b = Some (return_all db1 (up_returning b)
                        (flat_map (fun x => match snd x with Some sc => [next_to db1 (up_table b) (fst x) sc] | None => [] end) l),
                      put_table db (tb_name (up_table b)) (map fst l)).
  Proof.
    intros db b value db1 A N R. destruct (changed_step db1 b value A (snd (db (tb_name (up_table b))))) as (l & E & F).
    exists l. split; [exact F|]. unfold bupdate. fold db1. rewrite N. unfold may_return. rewrite R. cbn [negb orb]. rewrite E. reflexivity.
  Qed.

  (* Without FROM there is one combination. *)
  Lemma step_alone : forall (db : tabledb g) t w value rows l,
    Forall2 (step db t (others db []) w value) rows l ->
    map snd l = map (fun r => if bchosen g means db w (next_to db t r []) then Some [] else None) rows
    /\ Forall2 (fun r x => if bchosen g means db w (next_to db t r [])
                  then forall c, fst x c = match value (next_to db t r []) c with Some d => d | None => r c end
                  else fst x = r) rows l.
  Proof.
    intros db t w value rows l F. induction F as [|r [r' o] rows l S F [IH1 IH2]]; [split; [reflexivity|constructor]|].
    cbn [map snd]. unfold step in S. cbn [snd fst] in S. destruct o as [sc|].
    - destruct S as ([<-|[]] & M & V). rewrite M, IH1. split; [reflexivity|]. constructor; [|exact IH2]. rewrite M. exact V.
    - destruct S as [S1 S2]. rewrite (S2 [] (or_introl eq_refl)), IH1. split; [reflexivity|]. constructor; [|exact IH2].
      rewrite (S2 [] (or_introl eq_refl)). exact S1.
  Qed.
End Done.
