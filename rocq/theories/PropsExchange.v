(* C67: a condition can be exchanged for one that asks the same, anywhere in Where, And, Or and Having. *)
From Verif Require Import GrammarReadP PropsGrammar PropsGrammarDml EffectP TablesP MeaningP ClosedP ChangesP.
From Verif Require Export Closed Laws Exchange.
From Verif Require AssignP PropsEffect PropsTables PropsMeaning PropsChanges PropsLaws.
Import PropsMeaning PropsChanges PropsLaws.

Section Exchange.
  Context {O : Oracle}.
  #[local] Existing Instance Bound.

  (* Delete("t").Where(e) *)
  Definition del_t : delete := match lk_delete (GStr "t") with Ok d => d | _ => new_delete end.
  Definition t_body : dbody := {| de_from := [{| tb_only := false; tb_name := ["t"]; tb_alias := [] |}]; de_using := []; de_where := None; de_returning := [] |}.
  Lemma del_t_says : del_says del_t t_body.
  Proof. apply (del_new (GStr "t")); [|reflexivity]. apply (table_string "t"). reflexivity. Qed.

  (* What a condition says is determined. *)
  Lemma says_one : forall e f f', says e f -> says e f' -> f = f'.
  Proof.
    intros e f f' H H'. destruct (del_step del_t (DelWhere e)) as [d|] eqn:E; [|discriminate].
    pose proof (del_where del_t _ e f d del_t_says H E) as D. pose proof (del_where del_t _ e f' d del_t_says H' E) as D'.
    pose proof (C50_one_reading d _ d _ D D' eq_refl) as X. cbn in X. injection X as X. exact X.
  Qed.

  Lemma alike_refl : forall f, alike f f.
  Proof. intros f g db v. reflexivity. Qed.
  Lemma alike_trans : forall f h k, alike f h -> alike h k -> alike f k.
  Proof. intros f h k A B g db v. rewrite (A g db v). apply B. Qed.
  Lemma alike_and : forall f f' h h', alike f f' -> alike h h' -> alike (FAnd f h) (FAnd f' h').
  Proof. intros f f' h h' A B g db v. cbn [btruth]. rewrite (A g db v), (B g db v). reflexivity. Qed.
  Lemma alike_or : forall f f' h h', alike f f' -> alike h h' -> alike (FOr f h) (FOr f' h').
  Proof. intros f f' h h' A B g db v. cbn [btruth]. rewrite (A g db v), (B g db v). reflexivity. Qed.

  Lemma plain_bound : forall v, plain_value v = true -> exists a, shown v = Some a /\ value_says v a.
  Proof.
    intros v H. destruct v; try discriminate; (eexists; split; [reflexivity|apply value_bound; reflexivity]).
  Qed.

  Lemma or3_assoc : forall a b c, or3 (or3 a b) c = or3 a (or3 b c).
  Proof. intros [[]|] [[]|] [[]|]; reflexivity. Qed.
  Lemma or3_none : forall a, or3 a (Some false) = a.
  Proof. intros [[]|]; reflexivity. Qed.
  Lemma not3_or3 : forall a b, not3 (or3 a b) = and3 (not3 a) (not3 b).
  Proof. intros [[]|] [[]|]; reflexivity. Qed.
  Lemma and3_assoc : forall a b c, and3 (and3 a b) c = and3 a (and3 b c).
  Proof. intros [[]|] [[]|] [[]|]; reflexivity. Qed.
  Lemma and3_all : forall a, and3 a (Some true) = a.
  Proof. intros [[]|]; reflexivity. Qed.

  (* In, one value after the other *)
  Lemma in_or : forall x vs es e0 f0, plain_name x = true -> forallb plain_value vs = true -> says e0 f0 ->
    Forall2 (fun v e => cmp_expr (lk_condition (GStr x)) OpEqual v = Ok e) vs es ->
    exists l f, Forall2 (fun v a => shown v = Some a) vs l /\ says (fold_left lk_or es e0) f
      /\ forall g (db : tabledb g) v, btruth means db v f
           = or3 (btruth means db v f0) (bamong (v (parts_of x)) (map (bterm g means db v) l)).
  Proof.
    intros x vs es e0 f0 Px Pv S0 F. revert e0 f0 S0. induction F as [|v e vs es Ev F IH]; intros e0 f0 S0.
    - exists [], f0. split; [constructor|]. split; [exact S0|]. intros g db v. cbn [map bamong fold_right]. rewrite or3_none. reflexivity.
    - cbn [forallb] in Pv. apply andb_prop in Pv as [P1 P2]. destruct (plain_bound v P1) as (a & Sa & Va).
      pose proof (says_cmp x OpEqual v a e Px (operand_value _ _ _ Va) Ev) as Se.
      destruct (IH P2 (lk_or e0 e) _ (says_or _ _ _ _ S0 Se)) as (l & f & Hl & Hf & T).
      exists (a :: l), f. split; [constructor; assumption|]. split; [exact Hf|]. intros g db v'. rewrite (T g db v').
      cbn [map bamong fold_right btruth bterm sql_op]. rewrite or3_assoc. reflexivity.
  Qed.
  Lemma not_in_and : forall x vs es e0 f0, plain_name x = true -> forallb plain_value vs = true -> ~ In GNil vs -> says e0 f0 ->
    Forall2 (fun v e => expr_not_in (lk_condition (GStr x)) [v] = Ok e) vs es ->
    exists l f, Forall2 (fun v a => shown v = Some a) vs l /\ says (fold_left lk_and es e0) f
      /\ forall g (db : tabledb g) v, btruth means db v f
           = and3 (btruth means db v f0) (not3 (bamong (v (parts_of x)) (map (bterm g means db v) l))).
  Proof.
    intros x vs es e0 f0 Px Pv Nn S0 F. revert e0 f0 S0. induction F as [|v e vs es Ev F IH]; intros e0 f0 S0.
    - exists [], f0. split; [constructor|]. split; [exact S0|]. intros g db v. cbn [map bamong fold_right not3]. rewrite and3_all. reflexivity.
    - cbn [forallb] in Pv. apply andb_prop in Pv as [P1 P2]. destruct (plain_bound v P1) as (a & Sa & Va).
      assert (Se : says e (FIn true (MName (parts_of x)) [a])).
      { apply (says_not_in x [v]); [exact Px|discriminate| |cbn [forallb]; rewrite P1; reflexivity|repeat constructor; exact Sa|exact Ev].
        intro X. injection X as ->. apply Nn. left. reflexivity. }
      destruct (IH P2 (fun X => Nn (or_intror X)) (lk_and e0 e) _ (says_and _ _ _ _ S0 Se)) as (l & f & Hl & Hf & T).
      exists (a :: l), f. split; [constructor; assumption|]. split; [exact Hf|]. intros g db v'. rewrite (T g db v').
      cbn [map bamong fold_right btruth bterm negated]. rewrite or3_none, and3_assoc, not3_or3. reflexivity.
  Qed.

  Lemma same_says : forall x y, same_condition x y -> exists f h, says x f /\ says y h /\ alike f h.
  Proof.
    intros x y S. induction S as [x [f Hf]|x y S IH|x y z S1 IH1 S2 IH2|x x' y y' S1 IH1 S2 IH2|x x' y y' S1 IH1 S2 IH2
      |x y [f Hf] [h Hh]|x y [f Hf] [h Hh]|x y [f Hf] [h Hh]|x y [f Hf] [h Hh]|x y z [f Hf] [h Hh] [k Hk]|x y z [f Hf] [h Hh] [k Hk]
      |x [f Hf]|x [f Hf]|x y z [f Hf] [h Hh] [k Hk]|x y z [f Hf] [h Hh] [k Hk]|x y [f Hf] [h Hh]|x y [f Hf] [h Hh]
      |x v vs e e0 es Px Pv Nv E E0 F|x v vs e e0 es Px Pv Nv E E0 F|x a b ta tb e e1 e2 Px Va Vb E E1 E2].
    - exists f, f. split; [exact Hf|]. split; [exact Hf|apply alike_refl].
    - destruct IH as (f & h & Hf & Hh & A). exists h, f. split; [exact Hh|]. split; [exact Hf|]. intros g db v. symmetry. apply A.
    - destruct IH1 as (f & h & Hf & Hh & A), IH2 as (h' & k & Hh' & Hk & B). rewrite (says_one _ _ _ Hh Hh') in A.
      exists f, k. split; [exact Hf|]. split; [exact Hk|]. exact (alike_trans _ _ _ A B).
    - destruct IH1 as (f & f' & Hf & Hf' & A), IH2 as (h & h' & Hh & Hh' & B). exists (FAnd f h), (FAnd f' h').
      split; [apply says_and; assumption|]. split; [apply says_and; assumption|]. apply alike_and; assumption.
    - destruct IH1 as (f & f' & Hf & Hf' & A), IH2 as (h & h' & Hh & Hh' & B). exists (FOr f h), (FOr f' h').
      split; [apply says_or; assumption|]. split; [apply says_or; assumption|]. apply alike_or; assumption.
    - exists (FAnd f h), (FAnd f h). split; [apply says_infix_and; assumption|]. split; [apply says_and; assumption|apply alike_refl].
    - exists (FOr f h), (FOr f h). split; [apply says_infix_or; assumption|]. split; [apply says_or; assumption|apply alike_refl].
    - exists (FAnd f h), (FAnd h f). split; [apply says_and; assumption|]. split; [apply says_and; assumption|].
      intros g db v. cbn [btruth]. destruct (btruth means db v f) as [[]|], (btruth means db v h) as [[]|]; reflexivity.
    - exists (FOr f h), (FOr h f). split; [apply says_or; assumption|]. split; [apply says_or; assumption|].
      intros g db v. cbn [btruth]. destruct (btruth means db v f) as [[]|], (btruth means db v h) as [[]|]; reflexivity.
    - exists (FAnd (FAnd f h) k), (FAnd f (FAnd h k)). split; [repeat apply says_and; assumption|]. split; [repeat apply says_and; assumption|].
      intros g db v. cbn [btruth]. apply and3_assoc.
    - exists (FOr (FOr f h) k), (FOr f (FOr h k)). split; [repeat apply says_or; assumption|]. split; [repeat apply says_or; assumption|].
      intros g db v. cbn [btruth]. apply or3_assoc.
    - exists (FAnd f f), f. split; [apply says_and; assumption|]. split; [assumption|].
      intros g db v. cbn [btruth]. destruct (btruth means db v f) as [[]|]; reflexivity.
    - exists (FOr f f), f. split; [apply says_or; assumption|]. split; [assumption|].
      intros g db v. cbn [btruth]. destruct (btruth means db v f) as [[]|]; reflexivity.
    - exists (FAnd f (FOr h k)), (FOr (FAnd f h) (FAnd f k)). split; [apply says_and; [|apply says_or]; assumption|].
      split; [apply says_or; apply says_and; assumption|]. intros g db v. cbn [btruth].
      destruct (btruth means db v f) as [[]|], (btruth means db v h) as [[]|], (btruth means db v k) as [[]|]; reflexivity.
    - exists (FOr f (FAnd h k)), (FAnd (FOr f h) (FOr f k)). split; [apply says_or; [|apply says_and]; assumption|].
      split; [apply says_and; apply says_or; assumption|]. intros g db v. cbn [btruth].
      destruct (btruth means db v f) as [[]|], (btruth means db v h) as [[]|], (btruth means db v k) as [[]|]; reflexivity.
    - exists (FAnd f (FOr f h)), f. split; [apply says_and; [|apply says_or]; assumption|]. split; [assumption|].
      intros g db v. cbn [btruth]. destruct (btruth means db v f) as [[]|], (btruth means db v h) as [[]|]; reflexivity.
    - exists (FOr f (FAnd f h)), f. split; [apply says_or; [|apply says_and]; assumption|]. split; [assumption|].
      intros g db v. cbn [btruth]. destruct (btruth means db v f) as [[]|], (btruth means db v h) as [[]|]; reflexivity.
    - pose proof Pv as Pv'. cbn [forallb] in Pv'. apply andb_prop in Pv' as [P1 P2]. destruct (plain_bound v P1) as (a & Sa & Va).
      pose proof (says_cmp x OpEqual v a e0 Px (operand_value _ _ _ Va) E0) as S0.
      destruct (in_or x vs es e0 _ Px P2 S0 F) as (l & f & Hl & Hf & T).
      exists (FIn false (MName (parts_of x)) (a :: l)), f.
      split; [apply (says_in x (v :: vs)); [exact Px|discriminate|exact Nv|exact Pv|constructor; assumption|exact E]|].
      split; [exact Hf|]. intros g db v'. rewrite (T g db v'). reflexivity.
    - pose proof Pv as Pv'. cbn [forallb] in Pv'. apply andb_prop in Pv' as [P1 P2]. destruct (plain_bound v P1) as (a & Sa & Va).
      assert (N1 : v <> GNil) by (intro X; subst; apply Nv; left; reflexivity).
      assert (S0 : says e0 (FIn true (MName (parts_of x)) [a])).
      { apply (says_not_in x [v]); [exact Px|discriminate| |cbn [forallb]; rewrite P1; reflexivity|repeat constructor; exact Sa|exact E0].
        intro X. injection X as X. exact (N1 X). }
      destruct (not_in_and x vs es e0 _ Px P2 (fun X => Nv (or_intror X)) S0 F) as (l & f & Hl & Hf & T).
      exists (FIn true (MName (parts_of x)) (a :: l)), f.
      split; [apply (says_not_in x (v :: vs)); [exact Px|discriminate| |exact Pv|constructor; assumption|exact E]|].
      { intro X. injection X as X _. exact (N1 X). }
      split; [exact Hf|]. intros g db v'. rewrite (T g db v'). cbn [btruth negated map bamong fold_right bterm].
      rewrite or3_none, not3_or3. reflexivity.
    - exists (FBetween false (MName (parts_of x)) ta tb), (FAnd (FCmp (MName (parts_of x)) ">=" ta) (FCmp (MName (parts_of x)) "<=" tb)).
      split; [exact (says_between x a b ta tb e Px Va Vb E)|]. split.
      + apply says_and; [exact (says_cmp x OpGreaterThanOrEqual a ta e1 Px (operand_value _ _ _ Va) E1)
                        |exact (says_cmp x OpLessThanOrEqual b tb e2 Px (operand_value _ _ _ Vb) E2)].
      + intros g db v. reflexivity.
  Qed.

  Definition alike_all (w w' : option formula) : Prop :=
    match w, w' with None, None => True | Some f, Some f' => alike f f' | _, _ => False end.

  Lemma chain_says : forall c c', same_chain c c' -> forall fs, conditions_say c fs ->
    exists fs', conditions_say c' fs' /\ alike_all (all_conditions fs) (all_conditions fs').
  Proof.
    intros [[e l]|] [[e' l']|] S [[f k]|] H; try contradiction.
    2: { exists None. split; exact I. }
    destruct S as [S F], H as [He Hl]. destruct (same_says _ _ S) as (f0 & f' & Hf & Hf' & A). rewrite (says_one _ _ _ Hf He) in A. clear f0 Hf.
    assert (X : exists k', Forall2 (fun c m => fst c = fst m /\ says (snd c) (snd m)) l' k' /\ alike (fold_left link k f) (fold_left link k' f')).
    { clear S He Hf'. revert k f f' Hl A. induction F as [|[i x] [j y] l l' [Ei Sx] F IH]; intros k f f' Hl A.
      - inversion Hl; subst. exists []. split; [constructor|exact A].
      - inversion Hl as [|? [n a] ? k0 [En Sa] Hl0]; subst. cbn [fst snd] in *. subst.
        destruct (same_says _ _ Sx) as (a0 & b & Ha & Hb & B). rewrite (says_one _ _ _ Ha Sa) in B.
        destruct (IH k0 (link f (n, a)) (link f' (n, b)) Hl0) as (k' & Hk' & C).
        { unfold link. cbn [fst snd]. destruct n; [apply alike_and|apply alike_and|apply alike_or]; assumption. }
        exists ((n, b) :: k'). split; [constructor; [split; [reflexivity|exact Hb]|exact Hk']|exact C]. }
    destruct X as (k' & Hk' & C). exists (Some (f', k')). split; [split; assumption|]. rewrite !all_conditions_link. exact C.
  Qed.

  Definition with_both (b : body) (w h : option formula) : body :=
    {| q_prefix := q_prefix b; q_with := q_with b; q_distinct_on := q_distinct_on b; q_distinct := q_distinct b; q_items := q_items b;
       q_from := q_from b; q_joins := q_joins b; q_where := w; q_group_by := q_group_by b; q_having := h;
       q_order_by := q_order_by b; q_limit := q_limit b; q_offset := q_offset b; q_suffix := q_suffix b |}.
  Lemma exchanged_says : forall p b c h fs fh, program_says p b -> conditions_say c fs ->
    match h, fh with None, None => True | Some e, Some f => says e f | _, _ => False end ->
    program_says (exchanged p c h) (with_both b (all_conditions fs) fh).
  Proof.
    intros p b c h fs fh [? ? ? ? ? ? ? ? ? ? ? ?] H Hh. constructor; cbn; try assumption. exists fs. split; [exact H|reflexivity].
  Qed.
  Lemma chosen_alike : forall w w' g (db : tabledb g) v, alike_all w w' -> bchosen g means db w v = bchosen g means db w' v.
  Proof. intros [f|] [f'|] g db v A; try contradiction; [|reflexivity]. cbn [bchosen]. rewrite (A g db v). reflexivity. Qed.
  Lemma rows_both : forall b w h g (db : tabledb g) v, alike_all (q_where b) w -> alike_all (q_having b) h ->
    body_rows g means query_columns b db v = body_rows g means query_columns (with_both b w h) db v.
  Proof.
    intros b w h g db v A B. unfold body_rows. cbn [with_both q_prefix q_with q_distinct_on q_distinct q_items q_from q_joins q_where
      q_group_by q_having q_order_by q_limit q_offset q_suffix].
    rewrite (filter_ext (bchosen g means (with_tables g means query_columns (q_with b) db v) (q_where b))
                        (bchosen g means (with_tables g means query_columns (q_with b) db v) w)); [|intro u; apply chosen_alike, A].
    rewrite (filter_ext (fun gr => bchosen g means (with_tables g means query_columns (q_with b) db v) (q_having b) (fst gr))
                        (fun gr => bchosen g means (with_tables g means query_columns (q_with b) db v) h (fst gr))); [reflexivity|].
    intro u; apply chosen_alike, B.
  Qed.

  (* C67: with conditions that ask the same in Where, And, Or and Having, the same rows. *)
  Theorem C67_exchange_select : forall p b c h s s',
    program_says p b -> same_chain (pr_conditions p) c -> same_having (pr_having p) h ->
    program_select p = Ok s -> program_select (exchanged p c h) = Ok s' ->
    forall g (db : tabledb g), exists out, responds db s out /\ responds db s' out.
  Proof.
    intros p b c h s s' P S Sh E E' g db. destruct (ps_where p b P) as (fs & Hc & Ew).
    destruct (chain_says _ _ S fs Hc) as (fs' & Hc' & A). rewrite <- Ew in A.
    assert (X : exists fh, match h, fh with None, None => True | Some e, Some f => says e f | _, _ => False end /\ alike_all (q_having b) fh).
    { pose proof (ps_having p b P) as Hh. destruct (pr_having p) as [e|], (q_having b) as [f|], h as [e'|]; try contradiction.
      - destruct (same_says _ _ Sh) as (f0 & f' & Hf & Hf' & B). rewrite (says_one _ _ _ Hf Hh) in B. exists (Some f'). split; assumption.
      - exists None. split; exact I. }
    destruct X as (fh & Hh & B). pose proof (exchanged_says p b c h _ fh P Hc' Hh) as P'.
    pose proof (program_responds p b s P E g db) as R. pose proof (program_responds _ _ s' P' E' g db) as R'.
    destruct (ps_rest p b P) as [N1 N2].
    rewrite (means_body b db nothing N1 N2), (rows_both b _ _ g db nothing A B) in R.
    rewrite (means_body (with_both b (all_conditions fs') fh) db nothing N1 N2) in R'.
    eexists. split; [exact R|exact R'].
  Qed.

  Lemma partner_both : forall w w' g (db : tabledb g) t ts r, alike_all w w' -> partner db t ts w r = partner db t ts w' r.
  Proof. intros w w' g db t ts r A. unfold partner. apply find_ext. intro sc. apply chosen_alike, A. Qed.

  Theorem C67_exchange_delete : forall p t us fs rl c d d',
    table_says (rm_table p) t -> Forall2 table_says (rm_using p) us -> conditions_say (rm_conditions p) fs -> returning_says (rm_returning p) rl ->
    same_chain (rm_conditions p) c ->
    removal_delete p = Ok d -> removal_delete (removal_under p c) = Ok d' ->
    forall g (db : tabledb g) out db', removes db d out db' <-> removes db d' out db'.
  Proof.
    intros p t us fs rl c d d' Ht Hu Hc Hr S E E' g db out db'.
    destruct (chain_says _ _ S fs Hc) as (fs' & Hc' & A).
    pose proof (removal_described p t us _ rl d Ht Hu Hc Hr E) as D.
    pose proof (removal_described (removal_under p c) t us _ rl d' Ht Hu Hc' Hr E') as D'.
    rewrite (removes_iff d _ D), (removes_iff d' _ D').
    unfold bdelete, goes. cbn [delete_body de_from de_using de_where de_returning]. destruct (negb (may_return rl)); [reflexivity|].
    rewrite (filter_ext _ (fun r => negb match partner db t us (all_conditions fs') r with Some _ => true | None => false end));
      [|intro r; rewrite (partner_both _ _ g db t us r A); reflexivity].
    rewrite (flat_map_ext _ (fun r => match partner db t us (all_conditions fs') r with Some sc => [next_to db t r sc] | None => [] end));
      [reflexivity|intro r; rewrite (partner_both _ _ g db t us r A); reflexivity].
  Qed.

  Theorem C67_exchange_update : forall p t wl l ts fs rl c u u', sort_contract o_sort ->
    table_says (ch_table p) t -> withs_say (ch_with p) wl -> set_says (ch_set p) l -> l <> [] -> simple_names l = true ->
    from_says (ch_from p) ts -> conditions_say (ch_conditions p) fs -> returning_says (ch_returning p) rl ->
    same_chain (ch_conditions p) c ->
    change_update p = Ok u -> change_update (change_under p c) = Ok u' ->
    forall g (db : tabledb g) out db', updates db u out db' <-> updates db u' out db'.
  Proof.
    intros p t wl l ts fs rl c u u' C Ht Hw Hs Nl Sn Hf Hc Hr S E E' g db out db'.
    destruct (chain_says _ _ S fs Hc) as (fs' & Hc' & A).
    destruct (set_described (ch_set p) l Hs Nl Sn) as (s & As & Hset & _).
    pose proof (change_described p t wl s ts _ rl u Ht Hw Hset Hf Hc Hr E) as D.
    pose proof (change_described (change_under p c) t wl s ts _ rl u' Ht Hw Hset Hf Hc' Hr E') as D'.
    rewrite (updates_iff u _ C D As), (updates_iff u' _ C D' As).
    unfold bupdate. cbn [update_body up_with up_table up_set up_from up_where up_returning].
    destruct (named_with wl (tb_name t) || negb (may_return rl)); [reflexivity|].
    rewrite (map_ext (changed (with_tables g means query_columns wl db nothing) (update_body wl t s ts (all_conditions fs) rl))
      (changed (with_tables g means query_columns wl db nothing) (update_body wl t s ts (all_conditions fs') rl))); [reflexivity|].
    intro r. unfold changed. cbn [update_body up_with up_table up_set up_from up_where up_returning].
    rewrite (partner_both _ _ g _ t ts r A). reflexivity.
  Qed.

  (* ----------------------------------------------------------------------- *)
  (* Update narrows and widens                                                 *)
  (* ----------------------------------------------------------------------- *)

  Lemma all_changed : forall g (db : tabledb g) b b' rows l l',
    up_table b = up_table b' -> up_set b = up_set b' -> up_from b = [] -> up_from b' = [] ->
    (forall v, bchosen g means db (up_where b) v = true -> bchosen g means db (up_where b') v = true) ->
    all_some (map (changed db b) rows) = Some l -> all_some (map (changed db b') rows) = Some l' ->
    partway rows (map fst l) (map fst l').
  Proof.
    intros g db b b' rows l l' Et Es F F' H. revert l l'. induction rows as [|r rows IH]; intros l l' E E'; cbn [map all_some] in E, E'.
    - injection E as <-. injection E' as <-. constructor.
    - destruct (changed db b r) as [x|] eqn:C; [|discriminate]. destruct (changed db b' r) as [x'|] eqn:C'; [|discriminate].
      destruct (all_some (map (changed db b) rows)) as [m|]; [|discriminate]. destruct (all_some (map (changed db b') rows)) as [m'|]; [|discriminate].
      injection E as <-. injection E' as <-. cbn [map]. specialize (IH m m' eq_refl eq_refl).
      unfold changed, partner in C, C'. rewrite F in C. rewrite F', <- Et, <- Es in C'.
      change (others db []) with ([[]] : list (bscope g)) in C, C'. cbn [find] in C, C'.
      destruct (bchosen g means db (up_where b) (next_to db (up_table b) r [])) eqn:K.
      + rewrite (H _ K) in C'. rewrite C in C'. injection C' as <-. apply partway_changed, IH.
      + injection C as <-. apply partway_left, IH.
  Qed.

  (* C67: with one more And an Update without From changes some of the rows that it changed before, and in the
     same way; with one more Or at least those. *)
  Theorem C67_update_narrows : forall p t wl l e c fs rl x f k u u', sort_contract o_sort ->
    table_says (ch_table p) t -> withs_say (ch_with p) wl -> set_says (ch_set p) l -> l <> [] -> simple_names l = true ->
    ch_from p = None -> ch_conditions p = Some (e, c) -> conditions_say (Some (e, c)) fs -> returning_says (ch_returning p) rl -> says x f ->
    change_update p = Ok u -> change_update (change_under p (Some (e, c ++ [(k, x)])%list)) = Ok u' ->
    forall g (db : tabledb g) out db1 out' db2, updates db u out db1 -> updates db u' out' db2 ->
      let rows d := snd (d (tb_name t)) in
      match k with
      | ByOr => partway (rows db) (rows db1) (rows db2)
      | _ => partway (rows db) (rows db2) (rows db1)
      end.
  Proof.
    intros p t wl l e c fs rl x f k u u' C Ht Hw Hs Nl Sn Hf Ec Hc Hr Sx E E' g db out db1 out' db2 R R'.
    destruct fs as [[f0 m]|]; [|contradiction].
    assert (Hc' : conditions_say (Some (e, c ++ [(k, x)])%list) (Some (f0, m ++ [(k, f)])%list)).
    { destruct Hc as [He Hl]. split; [exact He|]. apply Forall2_app; [exact Hl|]. constructor; [split; [reflexivity|exact Sx]|constructor]. }
    rewrite <- Ec in Hc. destruct (set_described (ch_set p) l Hs Nl Sn) as (s & As & Hset & _).
    assert (Hn : from_says (ch_from p) []) by (rewrite Hf; reflexivity).
    pose proof (change_described p t wl s [] _ rl u Ht Hw Hset Hn Hc Hr E) as D.
    pose proof (change_described (change_under p (Some (e, c ++ [(k, x)])%list)) t wl s [] _ rl u' Ht Hw Hset Hn Hc' Hr E') as D'.
    rewrite all_conditions_link in D, D'. rewrite fold_left_app in D'. cbn [fold_left link fst snd] in D'.
    apply (updates_iff u _ C D As) in R. apply (updates_iff u' _ C D' As) in R'. unfold bupdate in R, R'.
    cbn [update_body up_with up_table up_set up_from up_where up_returning] in R, R'.
    destruct (named_with wl (tb_name t) || negb (may_return rl)); [discriminate|].
    destruct (all_some (map (changed _ (update_body wl t s [] (Some (fold_left link m f0)) rl)) _)) as [l1|] eqn:A1 in R; [|discriminate].
    destruct (all_some (map (changed _ (update_body wl t s [] (Some (link (fold_left link m f0) (k, f))) rl)) _)) as [l2|] eqn:A2 in R'; [|discriminate].
    injection R as <- <-. injection R' as <- <-. cbv zeta beta. rewrite !put_same. cbn [snd].
    destruct k.
    - eapply all_changed; [..|exact A2|exact A1]; try reflexivity. intros v. cbn [update_body up_where bchosen link fst snd btruth].
      destruct (btruth means _ v (fold_left link m f0)) as [[]|], (btruth means _ v f) as [[]|]; intro; try discriminate; reflexivity.
    - eapply all_changed; [..|exact A2|exact A1]; try reflexivity. intros v. cbn [update_body up_where bchosen link fst snd btruth].
      destruct (btruth means _ v (fold_left link m f0)) as [[]|], (btruth means _ v f) as [[]|]; intro; try discriminate; reflexivity.
    - eapply all_changed; [..|exact A1|exact A2]; try reflexivity. intros v. cbn [update_body up_where bchosen link fst snd btruth].
      destruct (btruth means _ v (fold_left link m f0)) as [[]|], (btruth means _ v f) as [[]|]; intro; try discriminate; reflexivity.
  Qed.
End Exchange.

Print Assumptions C67_exchange_select.
Print Assumptions C67_exchange_delete.
Print Assumptions C67_exchange_update.
Print Assumptions C67_update_narrows.

(* ------------------------------------------------------------------------- *)
(* Examples                                                                    *)
(* ------------------------------------------------------------------------- *)

Section Examples.
  #[local] Existing Instance go_oracle.
  #[local] Existing Instance Bound.

  Definition the (r : res expr) : expr := match r with Ok e => e | _ => ENil end.
  Definition user_id_is (o : cmp) (z : Z) : expr := the (cmp_expr (lk_condition (GStr "user_id")) o (GInt KInt z)).
  Definition in_3_1 : expr := the (expr_in (lk_condition (GStr "user_id")) [GInt KInt 3; GInt KInt 1]).
  Definition not_in_3_1 : expr := the (expr_not_in (lk_condition (GStr "user_id")) [GInt KInt 3; GInt KInt 1]).
  Definition not_in (z : Z) : expr := the (expr_not_in (lk_condition (GStr "user_id")) [GInt KInt z]).
  Definition from_2_to_5 : expr := the (ident_between (GStr "user_id") (GInt KInt 2) (GInt KInt 5)).
  Lemma in_3_1_same : same_condition in_3_1 (lk_or (user_id_is OpEqual 3) (user_id_is OpEqual 1)).
  Proof.
    refine (sc_in "user_id" (GInt KInt 3) [GInt KInt 1] _ _ [_] _ _ _ _ _ _); [reflexivity|reflexivity|discriminate|reflexivity|reflexivity|].
    repeat constructor.
  Qed.
  Lemma not_in_3_1_same : same_condition not_in_3_1 (lk_and (not_in 3) (not_in 1)).
  Proof.
    refine (sc_not_in "user_id" (GInt KInt 3) [GInt KInt 1] _ _ [_] _ _ _ _ _ _); [reflexivity|reflexivity| |reflexivity|reflexivity|].
    - intros [X|[X|[]]]; discriminate.
    - repeat constructor.
  Qed.
  Lemma from_2_to_5_same : same_condition from_2_to_5 (lk_and (user_id_is OpGreaterThanOrEqual 2) (user_id_is OpLessThanOrEqual 5)).
  Proof. eapply (sc_between "user_id" (GInt KInt 2) (GInt KInt 5)); [reflexivity|apply value_bound; reflexivity|apply value_bound; reflexivity|reflexivity..]. Qed.
  Lemma title_y_described : described title_y.
  Proof. exists f_y. exact title_y_says. Qed.

  (* Select("user_id").From("news").Where(title = y).And(user_id In 3, 1).GroupBy("user_id").Having(user_id Between 2 and 5)
     and Where(And(title = y, title = y)).And(Or(user_id = 3, user_id = 1)) ... Having(And(user_id >= 2, user_id <= 5)) *)
  Definition short_chain : conditions := Some (title_y, [(ByAnd, in_3_1)]).
  Definition long_chain : conditions := Some (lk_and title_y title_y, [(ByAnd, lk_or (user_id_is OpEqual 3) (user_id_is OpEqual 1))]).
  Definition long_having : option expr := Some (lk_and (user_id_is OpGreaterThanOrEqual 2) (user_id_is OpLessThanOrEqual 5)).
  Definition short_program : program := exchanged (grouped_by sub_program [GStr "user_id"] [GStr "user_id"]) short_chain (Some from_2_to_5).
  Lemma chains_same : same_chain short_chain long_chain.
  Proof. split; [apply sc_sym, sc_and_self, title_y_described|]. constructor; [split; [reflexivity|exact in_3_1_same]|constructor]. Qed.

  Definition short_where : formula := FAnd f_y (FIn false (MName ["user_id"]) [MVal (GInt KInt 3); MVal (GInt KInt 1)]).
  Definition short_body : body := {| q_prefix := []; q_with := []; q_distinct_on := []; q_distinct := false; q_items := [ItName ["user_id"] []];
    q_from := [news]; q_joins := []; q_where := Some short_where; q_group_by := [["user_id"]];
    q_having := Some (FBetween false (MName ["user_id"]) (MVal (GInt KInt 2)) (MVal (GInt KInt 5)));
    q_order_by := []; q_limit := None; q_offset := None; q_suffix := [] |}.
  Lemma in_3_1_says : says in_3_1 (FIn false (MName ["user_id"]) [MVal (GInt KInt 3); MVal (GInt KInt 1)]).
  Proof. apply (says_in "user_id" [GInt KInt 3; GInt KInt 1]); [reflexivity|discriminate|discriminate|reflexivity|repeat constructor|reflexivity]. Qed.
  Lemma short_chain_says : conditions_say short_chain (Some (f_y, [(ByAnd, FIn false (MName ["user_id"]) [MVal (GInt KInt 3); MVal (GInt KInt 1)])])).
  Proof. split; [exact title_y_says|]. constructor; [split; [reflexivity|exact in_3_1_says]|constructor]. Qed.
  Lemma short_says : program_says short_program short_body.
  Proof.
    destruct sub_says as [? ? ? ? ? ? ? ? ? ? ? ?]. constructor; cbn; try assumption.
    - exists (Some (f_y, [(ByAnd, FIn false (MName ["user_id"]) [MVal (GInt KInt 3); MVal (GInt KInt 1)])])). split; [exact short_chain_says|reflexivity].
    - exact by_user_says.
    - apply (says_between "user_id" (GInt KInt 2) (GInt KInt 5)); [reflexivity|apply value_bound; reflexivity|apply value_bound; reflexivity|reflexivity].
  Qed.
  Example C67_exchange_select_met : forall s s', program_select short_program = Ok s -> program_select (exchanged short_program long_chain long_having) = Ok s' ->
    exists out, responds (board []) s out /\ responds (board []) s' out.
  Proof. intros s s' E E'. exact (C67_exchange_select short_program short_body long_chain long_having s s' short_says chains_same from_2_to_5_same E E' bx (board [])). Qed.
  Example C67_exchange_select_ex : given short_program (board []) = Some [[CInt 3]]
    /\ given (exchanged short_program long_chain long_having) (board []) = Some [[CInt 3]]
    /\ given (exchanged short_program short_chain None) (board []) = Some [[CInt 1]; [CInt 3]].
  Proof. split; [|split]; vm_compute; reflexivity. Qed.

  (* laws inside laws: x.And(y Or z) as z.And(x) Or x.And(y), where z is user_id Between 2 and 5 *)
  Example C67_laws_ex : same_condition (lk_and title_y (lk_or in_3_1 from_2_to_5))
    (lk_or (lk_and (lk_and (user_id_is OpGreaterThanOrEqual 2) (user_id_is OpLessThanOrEqual 5)) title_y) (lk_and title_y in_3_1)).
  Proof.
    assert (D1 : described in_3_1) by (eexists; exact in_3_1_says).
    assert (D2 : described from_2_to_5) by (destruct (same_says _ _ from_2_to_5_same) as (f & h & Hf & _); exists f; exact Hf).
    pose proof title_y_described as [f Hf]. pose proof D1 as [h Hh]. pose proof D2 as [k Hk].
    assert (D0 : described title_y) by (exists f; exact Hf).
    apply (sc_trans _ (lk_or (lk_and title_y in_3_1) (lk_and title_y from_2_to_5))); [apply sc_and_or; assumption|].
    apply (sc_trans _ (lk_or (lk_and title_y from_2_to_5) (lk_and title_y in_3_1))).
    { apply sc_or_swap; eexists; apply says_and; eassumption. }
    apply sc_or; [|apply sc_refl; eexists; apply says_and; eassumption].
    apply (sc_trans _ (lk_and from_2_to_5 title_y)); [apply sc_and_swap; assumption|].
    apply sc_and; [exact from_2_to_5_same|apply sc_refl; assumption].
  Qed.

  Example C67_exchange_delete_met : forall d d', removal_delete (remove_news short_chain) = Ok d -> removal_delete (remove_news long_chain) = Ok d' ->
    forall out db', removes (board []) d out db' <-> removes (board []) d' out db'.
  Proof.
    intros d d' E E'. exact (C67_exchange_delete (remove_news short_chain) news [] _ [] long_chain d d' news_says (Forall2_nil _) short_chain_says eq_refl
      chains_same E E' bx (board [])).
  Qed.
  Example C67_exchange_update_met : forall u u', change_update (change_news short_chain) = Ok u -> change_update (change_news long_chain) = Ok u' ->
    forall out db', updates (board []) u out db' <-> updates (board []) u' out db'.
  Proof.
    intros u u' E E'. refine (C67_exchange_update (change_news short_chain) news [] [(["title"], MVal (GStr "z"))] [] _ [] long_chain u u'
      AssignP.insertion_contract news_says withs_none _ _ eq_refl eq_refl short_chain_says eq_refl chains_same E E' bx (board [])).
    - apply (set_pairs _ [[(["title"], MVal (GStr "z"))]]). constructor; [|constructor]. apply pairs_pair; [|apply pairs_none].
      split; cbn [fst snd]; [apply (key_string "title"); reflexivity|apply source_value, value_bound; reflexivity].
    - discriminate.
  Qed.
  Example C67_exchange_change_ex :
    run_removal (remove_news short_chain) (board []) ["news"] ["user_id"] = Some ([], [[CInt 1]])
    /\ run_removal (remove_news long_chain) (board []) ["news"] ["user_id"] = Some ([], [[CInt 1]])
    /\ run_change (change_news short_chain) (board []) ["news"] ["title"] = Some ([], [[CStr "x"]; [CStr "z"]; [CStr "z"]; [CStr "z"]])
    /\ run_change (change_news long_chain) (board []) ["news"] ["title"] = Some ([], [[CStr "x"]; [CStr "z"]; [CStr "z"]; [CStr "z"]]).
  Proof. split; [|split; [|split]]; vm_compute; reflexivity. Qed.
  Example C67_not_in_ex : run_removal (remove_news (Some (not_in_3_1, []))) (board []) ["news"] ["user_id"] = Some ([], [[CInt 1]; [CInt 1]; [CInt 3]; [CInt 3]])
    /\ run_removal (remove_news (Some (lk_and (not_in 3) (not_in 1), []))) (board []) ["news"] ["user_id"] = Some ([], [[CInt 1]; [CInt 1]; [CInt 3]; [CInt 3]])
    /\ run_removal (remove_news (Some (not_in 3, []))) (board []) ["news"] ["user_id"] = Some ([], [[CInt 3]; [CInt 3]]).
  Proof. split; [|split]; vm_compute; reflexivity. Qed.

  Example C67_update_narrows_met : forall u u', change_update (change_news (Some (title_y, []))) = Ok u -> change_update (change_news short_chain) = Ok u' ->
    forall out db1 out' db2, updates (board []) u out db1 -> updates (board []) u' out' db2 ->
    partway (snd (board [] ["news"])) (snd (db2 ["news"])) (snd (db1 ["news"])).
  Proof.
    intros u u' E E'. refine (C67_update_narrows (change_news (Some (title_y, []))) news [] [(["title"], MVal (GStr "z"))] title_y [] (Some (f_y, [])) []
      in_3_1 _ ByAnd u u' AssignP.insertion_contract news_says withs_none _ _ eq_refl eq_refl eq_refl _ eq_refl in_3_1_says E E' bx (board [])).
    - apply (set_pairs _ [[(["title"], MVal (GStr "z"))]]). constructor; [|constructor]. apply pairs_pair; [|apply pairs_none].
      split; cbn [fst snd]; [apply (key_string "title"); reflexivity|apply source_value, value_bound; reflexivity].
    - discriminate.
    - split; [exact title_y_says|constructor].
  Qed.
  Example C67_update_narrows_ex :
    run_change (change_news (Some (title_y, []))) (board []) ["news"] ["title"] = Some ([], [[CStr "x"]; [CStr "z"]; [CStr "z"]; [CStr "z"]])
    /\ run_change (change_news (Some (title_y, [(ByAnd, user_3)]))) (board []) ["news"] ["title"] = Some ([], [[CStr "x"]; [CStr "y"]; [CStr "z"]; [CStr "z"]])
    /\ run_change (change_news (Some (title_y, [(ByOr, user_id_is OpEqual 1)]))) (board []) ["news"] ["title"] = Some ([], [[CStr "z"]; [CStr "z"]; [CStr "z"]; [CStr "z"]]).
  Proof. split; [|split]; vm_compute; reflexivity. Qed.
End Examples.
