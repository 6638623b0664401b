(* C67: conditions that ask the same choose the same rows, And never chooses more rows, and
   Or never fewer. *)
From Verif Require Import GrammarReadP PropsGrammar PropsGrammarDml EffectP TablesP MeaningP ClosedP ChangesP.
From Verif Require Export Closed Laws.
From Verif Require AssignP PropsEffect PropsTables PropsMeaning PropsChanges.
Import PropsMeaning PropsChanges.

Section Laws.
  Context {O : Oracle}.
  #[local] Existing Instance Bound.

  Definition link (a : formula) (x : linked * formula) : formula := match fst x with ByOr => FOr a (snd x) | _ => FAnd a (snd x) end.

  (* The same truth in every row. *)
  Definition alike (f h : formula) : Prop := forall g (db : tabledb g) v, btruth means db v f = btruth means db v h.

  Lemma alike_link : forall f h x, alike f h -> alike (link f x) (link h x).
  Proof. intros f h [k a] H g db v. unfold link. destruct k; cbn [fst snd btruth]; rewrite (H g db v); reflexivity. Qed.
  Lemma alike_links : forall l f h, alike f h -> alike (fold_left link l f) (fold_left link l h).
  Proof. induction l as [|x l IH]; intros f h H; [exact H|]. cbn [fold_left]. apply IH, alike_link, H. Qed.

  Ltac listed := repeat first [assumption | match goal with |- says _ _ => fail 1 | _ => constructor end].

  Lemma says_same : forall c c', same_conditions c c' -> forall fs, conditions_say c fs ->
    exists f l f' l', fs = Some (f, l) /\ conditions_say c' (Some (f', l')) /\ alike (fold_left link l f) (fold_left link l' f').
  Proof.
    intros c c' S. induction S as [e l x y|e l x y|x y|x y|e l x|e l x y|e l x y|x y|x y|x y|x y|e l x|e l x|x|x|x y z|e l e' l' m S IH];
      intros [[f k]|] H; try contradiction; destruct H as [He Hl].
    - apply Forall2_app_inv_l in Hl as (k1 & k2 & H1 & H2 & ->).
      inversion H2 as [|? [i a] ? ? [E1 Sx] H3]; subst. inversion H3 as [|? [j b] ? ? [E2 Sy] H4]; subst. inversion H4; subst.
      cbn [fst snd] in *. subst. exists f, (k1 ++ [(ByAnd, a); (ByAnd, b)])%list, f, (k1 ++ [(ByAnd, b); (ByAnd, a)])%list. split; [reflexivity|].
      split; [split; [exact He|apply Forall2_app; [exact H1|listed]]|].
      rewrite !fold_left_app. intros g db v. cbn [fold_left link fst snd btruth].
      destruct (btruth means db v (fold_left _ k1 f)) as [[]|], (btruth means db v a) as [[]|], (btruth means db v b) as [[]|]; reflexivity.
    - apply Forall2_app_inv_l in Hl as (k1 & k2 & H1 & H2 & ->).
      inversion H2 as [|? [i a] ? ? [E1 Sx] H3]; subst. inversion H3 as [|? [j b] ? ? [E2 Sy] H4]; subst. inversion H4; subst.
      cbn [fst snd] in *. subst. exists f, (k1 ++ [(ByOr, a); (ByOr, b)])%list, f, (k1 ++ [(ByOr, b); (ByOr, a)])%list. split; [reflexivity|].
      split; [split; [exact He|apply Forall2_app; [exact H1|listed]]|].
      rewrite !fold_left_app. intros g db v. cbn [fold_left link fst snd btruth].
      destruct (btruth means db v (fold_left _ k1 f)) as [[]|], (btruth means db v a) as [[]|], (btruth means db v b) as [[]|]; reflexivity.
    - inversion Hl as [|? [j b] ? ? [E2 Sy] H4]; subst. inversion H4; subst. cbn [fst snd] in *. subst.
      exists f, [(ByAnd, b)], b, [(ByAnd, f)]. split; [reflexivity|]. split; [split; [exact Sy|listed]|].
      intros g db v. cbn [fold_left link fst snd btruth]. destruct (btruth means db v f) as [[]|], (btruth means db v b) as [[]|]; reflexivity.
    - inversion Hl as [|? [j b] ? ? [E2 Sy] H4]; subst. inversion H4; subst. cbn [fst snd] in *. subst.
      exists f, [(ByOr, b)], b, [(ByOr, f)]. split; [reflexivity|]. split; [split; [exact Sy|listed]|].
      intros g db v. cbn [fold_left link fst snd btruth]. destruct (btruth means db v f) as [[]|], (btruth means db v b) as [[]|]; reflexivity.
    - apply Forall2_app_inv_l in Hl as (k1 & k2 & H1 & H2 & ->). inversion H2 as [|? [i a] ? ? [E1 Sx] H3]; subst. inversion H3; subst.
      cbn [fst snd] in *. subst. exists f, (k1 ++ [(ByWhere, a)])%list, f, (k1 ++ [(ByAnd, a)])%list. split; [reflexivity|].
      split; [split; [exact He|apply Forall2_app; [exact H1|listed]]|].
      rewrite !fold_left_app. intros g db v. reflexivity.
    - apply Forall2_app_inv_l in Hl as (k1 & k2 & H1 & H2 & ->).
      inversion H2 as [|? [i a] ? ? [E1 Sx] H3]; subst. inversion H3 as [|? [j b] ? ? [E2 Sy] H4]; subst. inversion H4; subst.
      cbn [fst snd] in *. subst. exists f, (k1 ++ [(ByAnd, a); (ByAnd, b)])%list, f, (k1 ++ [(ByAnd, FAnd a b)])%list. split; [reflexivity|].
      split; [split; [exact He|apply Forall2_app; [exact H1|constructor; [split; [reflexivity|apply says_and; assumption]|constructor]]]|].
      rewrite !fold_left_app. intros g db v. cbn [fold_left link fst snd btruth].
      destruct (btruth means db v (fold_left _ k1 f)) as [[]|], (btruth means db v a) as [[]|], (btruth means db v b) as [[]|]; reflexivity.
    - apply Forall2_app_inv_l in Hl as (k1 & k2 & H1 & H2 & ->).
      inversion H2 as [|? [i a] ? ? [E1 Sx] H3]; subst. inversion H3 as [|? [j b] ? ? [E2 Sy] H4]; subst. inversion H4; subst.
      cbn [fst snd] in *. subst. exists f, (k1 ++ [(ByOr, a); (ByOr, b)])%list, f, (k1 ++ [(ByOr, FOr a b)])%list. split; [reflexivity|].
      split; [split; [exact He|apply Forall2_app; [exact H1|constructor; [split; [reflexivity|apply says_or; assumption]|constructor]]]|].
      rewrite !fold_left_app. intros g db v. cbn [fold_left link fst snd btruth].
      destruct (btruth means db v (fold_left _ k1 f)) as [[]|], (btruth means db v a) as [[]|], (btruth means db v b) as [[]|]; reflexivity.
    - inversion Hl as [|? [j b] ? ? [E2 Sy] H4]; subst. inversion H4; subst. cbn [fst snd] in *. subst.
      exists f, [(ByAnd, b)], (FAnd f b), []. split; [reflexivity|]. split; [split; [apply says_and; assumption|constructor]|]. intros g db v. reflexivity.
    - inversion Hl as [|? [j b] ? ? [E2 Sy] H4]; subst. inversion H4; subst. cbn [fst snd] in *. subst.
      exists f, [(ByOr, b)], (FOr f b), []. split; [reflexivity|]. split; [split; [apply says_or; assumption|constructor]|]. intros g db v. reflexivity.
    - inversion Hl as [|? [j b] ? ? [E2 Sy] H4]; subst. inversion H4; subst. cbn [fst snd] in *. subst.
      exists f, [(ByAnd, b)], (FAnd f b), []. split; [reflexivity|]. split; [split; [apply says_infix_and; assumption|constructor]|]. intros g db v. reflexivity.
    - inversion Hl as [|? [j b] ? ? [E2 Sy] H4]; subst. inversion H4; subst. cbn [fst snd] in *. subst.
      exists f, [(ByOr, b)], (FOr f b), []. split; [reflexivity|]. split; [split; [apply says_infix_or; assumption|constructor]|]. intros g db v. reflexivity.
    - apply Forall2_app_inv_l in Hl as (k1 & k2 & H1 & H2 & ->). inversion H2 as [|? [i a] ? ? [E1 Sx] H3]; subst. inversion H3; subst.
      cbn [fst snd] in *. subst. exists f, (k1 ++ [(ByAnd, a)])%list, f, (k1 ++ [(ByAnd, a); (ByAnd, a)])%list. split; [reflexivity|].
      split; [split; [exact He|apply Forall2_app; [exact H1|listed]]|].
      rewrite !fold_left_app. intros g db v. cbn [fold_left link fst snd btruth].
      destruct (btruth means db v (fold_left _ k1 f)) as [[]|], (btruth means db v a) as [[]|]; reflexivity.
    - apply Forall2_app_inv_l in Hl as (k1 & k2 & H1 & H2 & ->). inversion H2 as [|? [i a] ? ? [E1 Sx] H3]; subst. inversion H3; subst.
      cbn [fst snd] in *. subst. exists f, (k1 ++ [(ByOr, a)])%list, f, (k1 ++ [(ByOr, a); (ByOr, a)])%list. split; [reflexivity|].
      split; [split; [exact He|apply Forall2_app; [exact H1|listed]]|].
      rewrite !fold_left_app. intros g db v. cbn [fold_left link fst snd btruth].
      destruct (btruth means db v (fold_left _ k1 f)) as [[]|], (btruth means db v a) as [[]|]; reflexivity.
    - inversion Hl; subst. exists f, [], f, [(ByAnd, f)]. split; [reflexivity|]. split; [split; [exact He|listed]|].
      intros g db v. cbn [fold_left link fst snd btruth]. destruct (btruth means db v f) as [[]|]; reflexivity.
    - inversion Hl; subst. exists f, [], f, [(ByOr, f)]. split; [reflexivity|]. split; [split; [exact He|listed]|].
      intros g db v. cbn [fold_left link fst snd btruth]. destruct (btruth means db v f) as [[]|]; reflexivity.
    - inversion Hl as [|? [i a] ? ? [E1 Sx] H3]; subst. inversion H3 as [|? [j b] ? ? [E2 Sy] H4]; subst. inversion H4; subst.
      cbn [fst snd] in *. subst. exists f, [(ByOr, a); (ByAnd, b)], (FAnd f b), [(ByOr, FAnd a b)]. split; [reflexivity|].
      split; [split; [apply says_and; assumption|constructor; [split; [reflexivity|apply says_and; assumption]|constructor]]|].
      intros g db v. cbn [fold_left link fst snd btruth].
      destruct (btruth means db v f) as [[]|], (btruth means db v a) as [[]|], (btruth means db v b) as [[]|]; reflexivity.
    - apply Forall2_app_inv_l in Hl as (k1 & k2 & H1 & H2 & ->).
      destruct (IH (Some (f, k1)) (conj He H1)) as (f0 & l0 & f' & k' & E & [He' Hl'] & A). injection E as <- <-.
      exists f, (k1 ++ k2)%list, f', (k' ++ k2)%list. split; [reflexivity|]. split; [split; [exact He'|apply Forall2_app; assumption]|].
      rewrite !fold_left_app. apply alike_links, A.
  Qed.

  Lemma all_conditions_link : forall f l, all_conditions (Some (f, l)) = Some (fold_left link l f).
  Proof. reflexivity. Qed.

  (* ----------------------------------------------------------------------- *)
  (* Select                                                                    *)
  (* ----------------------------------------------------------------------- *)

  Definition with_where (b : body) (w : option formula) : body :=
    {| q_prefix := q_prefix b; q_with := q_with b; q_distinct_on := q_distinct_on b; q_distinct := q_distinct b; q_items := q_items b;
       q_from := q_from b; q_joins := q_joins b; q_where := w; q_group_by := q_group_by b; q_having := q_having b;
       q_order_by := q_order_by b; q_limit := q_limit b; q_offset := q_offset b; q_suffix := q_suffix b |}.
  Lemma under_says : forall p b c fs, program_says p b -> conditions_say c fs -> program_says (under p c) (with_where b (all_conditions fs)).
  Proof.
    intros p b c fs [? ? ? ? ? ? ? ? ? ? ? ?] H. constructor; cbn; try assumption. exists fs. split; [exact H|reflexivity].
  Qed.
  Lemma rows_alike : forall b w w' g (db : tabledb g) v, q_where b = Some w -> alike w w' ->
    body_rows g means query_columns b db v = body_rows g means query_columns (with_where b (Some w')) db v.
  Proof.
    intros b w w' g db v E A. unfold body_rows. cbn [with_where q_prefix q_with q_distinct_on q_distinct q_items q_from q_joins q_where
      q_group_by q_having q_order_by q_limit q_offset q_suffix]. rewrite E.
    rewrite (filter_ext (bchosen g means (with_tables g means query_columns (q_with b) db v) (Some w))
                        (bchosen g means (with_tables g means query_columns (q_with b) db v) (Some w'))); [reflexivity|].
    intro u. cbn [bchosen]. rewrite (A g _ u). reflexivity.
  Qed.

  (* C67: conditions that ask the same give the same rows, whatever else the program asks: joins,
     groups, order, limits. *)
  Theorem C67_select : forall p b c s s',
    program_says p b -> same_conditions (pr_conditions p) c ->
    program_select p = Ok s -> program_select (under p c) = Ok s' ->
    forall g (db : tabledb g), exists out, responds db s out /\ responds db s' out.
  Proof.
    intros p b c s s' P S E E' g db. destruct (ps_where p b P) as (fs & Hc & Ew).
    destruct (says_same _ _ S fs Hc) as (f & l & f' & l' & -> & Hc' & A).
    rewrite all_conditions_link in Ew.
    pose proof (under_says p b c _ P Hc') as P'. rewrite all_conditions_link in P'.
    pose proof (program_responds p b s P E g db) as R. pose proof (program_responds _ _ s' P' E' g db) as R'.
    destruct (ps_rest p b P) as [N1 N2].
    rewrite (means_body b db nothing N1 N2), (rows_alike b _ _ g db nothing Ew A) in R.
    rewrite (means_body (with_where b (Some (fold_left link l' f'))) db nothing N1 N2) in R'.
    eexists. split; [exact R|exact R'].
  Qed.

  Lemma filter_part : forall A (f h : A -> bool) l, (forall x, f x = true -> h x = true) -> part_of (filter f l) (filter h l).
  Proof.
    intros A f h l H. induction l as [|x l IH]; cbn [filter]; [constructor|].
    destruct (f x) eqn:E.
    - rewrite (H x E). constructor. exact IH.
    - destruct (h x); [constructor|]; exact IH.
  Qed.
  Lemma part_map : forall A B (f : A -> B) a b, part_of a b -> part_of (map f a) (map f b).
  Proof. intros A B f a b P. induction P; cbn [map]; constructor; assumption. Qed.
  Lemma filter_same_part : forall A (f : A -> bool) a b, part_of a b -> part_of (filter f a) (filter f b).
  Proof. intros A f a b P. induction P; cbn [filter]; [constructor|destruct (f x); [constructor|]; assumption|destruct (f x); [constructor|]; assumption]. Qed.

  (* Each row of the tables gives one row or none. *)
  Definition row_by_row (p : program) (b : body) : Prop :=
    pr_distinct p = false /\ pr_distinct_on p = [] /\ pr_group_by p = [] /\ pr_having p = None /\ pr_order_by p = [] /\
    pr_window p = Everything /\ aggregated (q_items b) = false.

  Lemma part_rows : forall p b w w', program_says p b -> row_by_row p b ->
    (forall g (db : tabledb g) v, is_true (btruth means db v w) = true -> is_true (btruth means db v w') = true) ->
    forall g (db : tabledb g), part_of (means (Query (with_where b (Some w))) db nothing) (means (Query (with_where b (Some w'))) db nothing).
  Proof.
    intros p b w w' P (D1 & D2 & D3 & D4 & D5 & D6 & D7) H g db. destruct P as [_ Pd Pdo _ _ _ _ Pg Ph Po (_ & Pl & Pk) (N1 & N2)].
    rewrite D1 in Pd. rewrite D2 in Pdo. rewrite D3 in Pg. rewrite D4 in Ph. rewrite D5 in Po. rewrite D6 in Pl, Pk.
    assert (Eo : q_order_by b = []) by (inversion Po; reflexivity). destruct (q_having b) eqn:Eh; [contradiction|].
    rewrite !(means_body (with_where b _) db nothing N1 N2). unfold body_rows.
    cbn [with_where q_prefix q_with q_distinct_on q_distinct q_items q_from q_joins q_where
      q_group_by q_having q_order_by q_limit q_offset q_suffix].
    rewrite Pd, Pdo, Pg, Eh, Eo, Pl, Pk. cbn [window_first window_skip btake bskip bsorted grouped]. rewrite D7.
    apply part_map, part_map, filter_same_part, part_map, filter_part.
    intros v. cbn [bchosen]. apply H.
  Qed.

  (* C67: And never shows more rows, Or never fewer; the rows that stay keep their order. *)
  Theorem C67_and_narrows : forall p b e l x f s s',
    program_says p b -> row_by_row p b -> pr_conditions p = Some (e, l) -> says x f ->
    program_select p = Ok s -> program_select (under p (Some (e, l ++ [(ByAnd, x)])%list)) = Ok s' ->
    forall g (db : tabledb g), exists out out', responds db s out /\ responds db s' out' /\ part_of out' out.
  Proof.
    intros p b e l x f s s' P N Ec Sx E E' g db. destruct (ps_where p b P) as (fs & Hc & Ew). rewrite Ec in Hc.
    destruct fs as [[f0 k]|]; [|contradiction]. destruct Hc as [He Hl].
    assert (Hc' : conditions_say (Some (e, l ++ [(ByAnd, x)])%list) (Some (f0, k ++ [(ByAnd, f)])%list)).
    { split; [exact He|]. apply Forall2_app; [exact Hl|]. constructor; [split; [reflexivity|exact Sx]|constructor]. }
    pose proof (under_says p b _ _ P Hc') as P'. rewrite all_conditions_link, fold_left_app in P'. cbn [fold_left link fst snd] in P'.
    assert (Eb : b = with_where b (Some (fold_left link k f0))).
    { rewrite all_conditions_link in Ew. destruct b. cbn in Ew. subst. reflexivity. }
    exists (means (Query b) db nothing), (means (Query (with_where b (Some (FAnd (fold_left link k f0) f)))) db nothing).
    split; [exact (program_responds p b s P E g db)|]. split; [exact (program_responds _ _ s' P' E' g db)|].
    rewrite Eb at 2. apply (part_rows p b _ _ P N).
    intros g' db' v T. cbn [btruth] in T. destruct (btruth means db' v (fold_left link k f0)) as [[]|], (btruth means db' v f) as [[]|]; try discriminate; reflexivity.
  Qed.
  Theorem C67_or_widens : forall p b e l x f s s',
    program_says p b -> row_by_row p b -> pr_conditions p = Some (e, l) -> says x f ->
    program_select p = Ok s -> program_select (under p (Some (e, l ++ [(ByOr, x)])%list)) = Ok s' ->
    forall g (db : tabledb g), exists out out', responds db s out /\ responds db s' out' /\ part_of out out'.
  Proof.
    intros p b e l x f s s' P N Ec Sx E E' g db. destruct (ps_where p b P) as (fs & Hc & Ew). rewrite Ec in Hc.
    destruct fs as [[f0 k]|]; [|contradiction]. destruct Hc as [He Hl].
    assert (Hc' : conditions_say (Some (e, l ++ [(ByOr, x)])%list) (Some (f0, k ++ [(ByOr, f)])%list)).
    { split; [exact He|]. apply Forall2_app; [exact Hl|]. constructor; [split; [reflexivity|exact Sx]|constructor]. }
    pose proof (under_says p b _ _ P Hc') as P'. rewrite all_conditions_link, fold_left_app in P'. cbn [fold_left link fst snd] in P'.
    assert (Eb : b = with_where b (Some (fold_left link k f0))).
    { rewrite all_conditions_link in Ew. destruct b. cbn in Ew. subst. reflexivity. }
    exists (means (Query b) db nothing), (means (Query (with_where b (Some (FOr (fold_left link k f0) f)))) db nothing).
    split; [exact (program_responds p b s P E g db)|]. split; [exact (program_responds _ _ s' P' E' g db)|].
    rewrite Eb at 1. apply (part_rows p b _ _ P N).
    intros g' db' v T. cbn [btruth]. destruct (btruth means db' v (fold_left link k f0)) as [[]|], (btruth means db' v f) as [[]|]; try discriminate; reflexivity.
  Qed.

  (* ----------------------------------------------------------------------- *)
  (* Delete                                                                    *)
  (* ----------------------------------------------------------------------- *)

  Lemma removes_iff : forall d b, del_says d b -> forall g (db : tabledb g) out db', removes db d out db' <-> bdelete db b = Some (out, db').
  Proof.
    intros d b S g db out db'. split; [|exact (delete_sent d b S g db out db')].
    intros (t & v & Q & R). destruct (C50_delete_read_back d b S) as (t' & v' & Q' & R'). rewrite Q in Q'. injection Q' as <- <-.
    unfold send_delete in R. rewrite R' in R. exact R.
  Qed.
  Lemma find_ext : forall A (f h : A -> bool) l, (forall x, f x = h x) -> find f l = find h l.
  Proof. intros A f h l H. induction l as [|x l IH]; [reflexivity|]. cbn [find]. rewrite (H x), IH. reflexivity. Qed.
  Lemma partner_alike : forall w w' g (db : tabledb g) t ts r, alike w w' -> partner db t ts (Some w) r = partner db t ts (Some w') r.
  Proof. intros w w' g db t ts r A. unfold partner. apply find_ext. intro sc. cbn [bchosen]. rewrite (A g db _). reflexivity. Qed.

  Theorem C67_delete : forall p t us fs rl c d d',
    table_says (rm_table p) t -> Forall2 table_says (rm_using p) us -> conditions_say (rm_conditions p) fs -> returning_says (rm_returning p) rl ->
    same_conditions (rm_conditions p) c ->
    removal_delete p = Ok d -> removal_delete (removal_under p c) = Ok d' ->
    forall g (db : tabledb g) out db', removes db d out db' <-> removes db d' out db'.
  Proof.
    intros p t us fs rl c d d' Ht Hu Hc Hr S E E' g db out db'.
    destruct (says_same _ _ S fs Hc) as (f & l & f' & l' & -> & Hc' & A).
    pose proof (removal_described p t us _ rl d Ht Hu Hc Hr E) as D.
    pose proof (removal_described (removal_under p c) t us _ rl d' Ht Hu Hc' Hr E') as D'.
    rewrite all_conditions_link in D, D'. rewrite (removes_iff d _ D), (removes_iff d' _ D').
    unfold bdelete, goes. cbn [delete_body de_from de_using de_where de_returning]. destruct (negb (may_return rl)); [reflexivity|].
    rewrite (filter_ext _ (fun r => negb match partner db t us (Some (fold_left link l' f')) r with Some _ => true | None => false end));
      [|intro r; rewrite (partner_alike _ _ g db t us r A); reflexivity].
    rewrite (flat_map_ext _ (fun r => match partner db t us (Some (fold_left link l' f')) r with Some sc => [next_to db t r sc] | None => [] end));
      [reflexivity|intro r; rewrite (partner_alike _ _ g db t us r A); reflexivity].
  Qed.

  Lemma find_some_mono : forall A (f h : A -> bool) l, (forall x, f x = true -> h x = true) ->
    match find f l with Some _ => true | None => false end = true -> match find h l with Some _ => true | None => false end = true.
  Proof.
    intros A f h l H. induction l as [|x l IH]; cbn [find]; [discriminate|]. destruct (f x) eqn:E; intro T.
    - rewrite (H x E). reflexivity.
    - destruct (h x); [reflexivity|exact (IH T)].
  Qed.
  Lemma left_more : forall t us w w' rl g (db : tabledb g) out db1 out' db2,
    (forall v, is_true (btruth means db v w) = true -> is_true (btruth means db v w') = true) ->
    bdelete db (delete_body t us (Some w) rl) = Some (out, db1) -> bdelete db (delete_body t us (Some w') rl) = Some (out', db2) ->
    part_of (snd (db2 (tb_name t))) (snd (db1 (tb_name t))) /\ forall t', t' <> tb_name t -> db1 t' = db t' /\ db2 t' = db t'.
  Proof.
    intros t us w w' rl g db out db1 out' db2 H E1 E2. unfold bdelete in E1, E2. cbn [delete_body de_from de_using de_where de_returning] in E1, E2.
    destruct (negb (may_return rl)); [discriminate|]. injection E1 as <- <-. injection E2 as <- <-. split.
    - rewrite !put_same. cbn [snd]. apply filter_part. intros r. unfold goes. cbn [delete_body de_from de_using de_where de_returning].
      intro T. destruct (match partner db t us (Some w) r with Some _ => true | None => false end) eqn:Eg; [|reflexivity].
      unfold partner in *. rewrite (find_some_mono _ _ (fun sc => bchosen g means db (Some w') (next_to db t r sc)) _ (fun sc => H (next_to db t r sc)) Eg) in T. discriminate.
    - intros t' Nt. split; apply put_other; exact Nt.
  Qed.

  (* C67: with one more And a Delete leaves at least the rows it left before, with one more Or at
     most those. *)
  Theorem C67_delete_narrows : forall p t us e l fs rl x f k d d',
    table_says (rm_table p) t -> Forall2 table_says (rm_using p) us -> rm_conditions p = Some (e, l) -> conditions_say (Some (e, l)) fs ->
    returning_says (rm_returning p) rl -> says x f ->
    removal_delete p = Ok d -> removal_delete (removal_under p (Some (e, l ++ [(k, x)])%list)) = Ok d' ->
    forall g (db : tabledb g) out db1 out' db2, removes db d out db1 -> removes db d' out' db2 ->
      match k with
      | ByOr => part_of (snd (db2 (tb_name t))) (snd (db1 (tb_name t)))
      | _ => part_of (snd (db1 (tb_name t))) (snd (db2 (tb_name t)))
      end.
  Proof.
    intros p t us e l fs rl x f k d d' Ht Hu Ec Hc Hr Sx E E' g db out db1 out' db2 R R'.
    destruct fs as [[f0 m]|]; [|contradiction]. 
    assert (Hc' : conditions_say (Some (e, l ++ [(k, x)])%list) (Some (f0, m ++ [(k, f)])%list)).
    { destruct Hc as [He Hl]. split; [exact He|]. apply Forall2_app; [exact Hl|]. constructor; [split; [reflexivity|exact Sx]|constructor]. }
    rewrite <- Ec in Hc. pose proof (removal_described p t us _ rl d Ht Hu Hc Hr E) as D.
    pose proof (removal_described (removal_under p _) t us _ rl d' Ht Hu Hc' Hr E') as D'.
    rewrite all_conditions_link in D, D'. rewrite fold_left_app in D'. cbn [fold_left link fst snd] in D'.
    apply (removes_iff d _ D) in R. apply (removes_iff d' _ D') in R'.
    destruct k.
    - refine (proj1 (left_more _ _ _ _ _ g db _ _ _ _ _ R' R)). intros v T. cbn [link fst snd btruth] in T.
      destruct (btruth means db v (fold_left link m f0)) as [[]|], (btruth means db v f) as [[]|]; try discriminate; reflexivity.
    - refine (proj1 (left_more _ _ _ _ _ g db _ _ _ _ _ R' R)). intros v T. cbn [link fst snd btruth] in T.
      destruct (btruth means db v (fold_left link m f0)) as [[]|], (btruth means db v f) as [[]|]; try discriminate; reflexivity.
    - refine (proj1 (left_more _ _ _ _ _ g db _ _ _ _ _ R R')). intros v T. cbn [link fst snd btruth].
      destruct (btruth means db v (fold_left link m f0)) as [[]|], (btruth means db v f) as [[]|]; try discriminate; reflexivity.
  Qed.

  (* ----------------------------------------------------------------------- *)
  (* Update                                                                    *)
  (* ----------------------------------------------------------------------- *)

  Lemma updates_iff : forall u b, sort_contract o_sort -> upd_says u b -> assigns_something (up_set b) ->
    forall g (db : tabledb g) out db', updates db u out db' <-> bupdate db b = Some (out, db').
  Proof.
    intros u b C S A g db out db'. split; [|exact (update_sent u b C S A g db out db')].
    intros (t & v & Q & R). destruct (C51_update_read_back u b C S A) as (t' & v' & Q' & R'). rewrite Q in Q'. injection Q' as <- <-.
    unfold send_update in R. rewrite R' in R. exact R.
  Qed.

  Theorem C67_update : forall p t wl l ts fs rl c u u', sort_contract o_sort ->
    table_says (ch_table p) t -> withs_say (ch_with p) wl -> set_says (ch_set p) l -> l <> [] -> simple_names l = true ->
    from_says (ch_from p) ts -> conditions_say (ch_conditions p) fs -> returning_says (ch_returning p) rl ->
    same_conditions (ch_conditions p) c ->
    change_update p = Ok u -> change_update (change_under p c) = Ok u' ->
    forall g (db : tabledb g) out db', updates db u out db' <-> updates db u' out db'.
  Proof.
    intros p t wl l ts fs rl c u u' C Ht Hw Hs Nl Sn Hf Hc Hr S E E' g db out db'.
    destruct (says_same _ _ S fs Hc) as (f & k & f' & k' & -> & Hc' & A).
    destruct (set_described (ch_set p) l Hs Nl Sn) as (s & As & Hset & _).
    pose proof (change_described p t wl s ts _ rl u Ht Hw Hset Hf Hc Hr E) as D.
    pose proof (change_described (change_under p c) t wl s ts _ rl u' Ht Hw Hset Hf Hc' Hr E') as D'.
    rewrite all_conditions_link in D, D'. rewrite (updates_iff u _ C D As), (updates_iff u' _ C D' As).
    unfold bupdate. cbn [update_body up_with up_table up_set up_from up_where up_returning].
    destruct (named_with wl (tb_name t) || negb (may_return rl)); [reflexivity|].
    rewrite (map_ext (changed (with_tables g means query_columns wl db nothing) (update_body wl t s ts (Some (fold_left link k f)) rl))
      (changed (with_tables g means query_columns wl db nothing) (update_body wl t s ts (Some (fold_left link k' f')) rl))); [reflexivity|].
    intro r. unfold changed. cbn [update_body up_with up_table up_set up_from up_where up_returning].
    rewrite (partner_alike _ _ g _ t ts r A). reflexivity.
  Qed.
End Laws.

Print Assumptions C67_select.
Print Assumptions C67_and_narrows.
Print Assumptions C67_or_widens.
Print Assumptions C67_delete.
Print Assumptions C67_delete_narrows.
Print Assumptions C67_update.

(* ------------------------------------------------------------------------- *)
(* Examples                                                                    *)
(* ------------------------------------------------------------------------- *)

Section Examples.
  #[local] Existing Instance go_oracle.
  #[local] Existing Instance Bound.

  (* Select("user_id").From("news").Where(title = y).And(user_id = 3), the two the other way around,
     and all in one condition *)
  Definition y_and_3 : program := under sub_program (Some (title_y, [(ByAnd, user_3)])).
  Definition y_or_3 : program := under sub_program (Some (title_y, [(ByOr, user_3)])).
  Definition both (p : program) (c : conditions) : option (list (list cell)) := given (under p c) (board []).
  Example C67_select_ex : given y_and_3 (board []) = Some [[CInt 3]; [CInt 3]]
    /\ both sub_program (Some (user_3, [(ByAnd, title_y)])) = Some [[CInt 3]; [CInt 3]]
    /\ both sub_program (Some (lk_and title_y user_3, [])) = Some [[CInt 3]; [CInt 3]].
  Proof. split; [|split]; vm_compute; reflexivity. Qed.
  Lemma y_and_3_says : exists b, program_says y_and_3 b /\ aggregated (q_items b) = false.
  Proof.
    eexists. split; [apply (under_says sub_program sub_body _ (Some (f_y, [(ByAnd, f_user_3)])) sub_says)|reflexivity].
    split; [exact title_y_says|]. constructor; [split; [reflexivity|exact user_3_says]|constructor].
  Qed.
  Definition flipped : conditions := Some (user_3, [(ByAnd, title_y)]).
  Example C67_select_met : forall s s', program_select y_and_3 = Ok s -> program_select (under y_and_3 flipped) = Ok s' ->
    exists out, responds (board []) s out /\ responds (board []) s' out.
  Proof.
    intros s s' E E'. destruct y_and_3_says as (b & P & _). exact (C67_select y_and_3 b flipped s s' P (same_first_and title_y user_3) E E' bx (board [])).
  Qed.
  (* not for any two conditions *)
  Example C67_select_other : both sub_program (Some (title_y, [(ByOr, user_3)])) = Some [[CInt 1]; [CInt 3]; [CInt 3]].
  Proof. vm_compute. reflexivity. Qed.

  Example C67_narrows_ex : given sub_program (board []) = Some [[CInt 1]; [CInt 3]; [CInt 3]] /\ given y_and_3 (board []) = Some [[CInt 3]; [CInt 3]]
    /\ given (under sub_program (Some (user_3, []))) (board []) = Some [[CInt 3]; [CInt 3]]
    /\ given (under sub_program (Some (user_3, [(ByOr, title_y)]))) (board []) = Some [[CInt 1]; [CInt 3]; [CInt 3]].
  Proof. split; [|split; [|split]]; vm_compute; reflexivity. Qed.
  Example C67_narrows_met : forall s s', program_select sub_program = Ok s -> program_select y_and_3 = Ok s' ->
    exists out out', responds (board []) s out /\ responds (board []) s' out' /\ part_of out' out.
  Proof.
    intros s s' E E'. refine (C67_and_narrows sub_program sub_body title_y [] user_3 f_user_3 s s' sub_says _ eq_refl user_3_says E E' bx (board [])).
    repeat split.
  Qed.
  Example C67_widens_met : forall s s', program_select sub_program = Ok s -> program_select y_or_3 = Ok s' ->
    exists out out', responds (board []) s out /\ responds (board []) s' out' /\ part_of out out'.
  Proof.
    intros s s' E E'. refine (C67_or_widens sub_program sub_body title_y [] user_3 f_user_3 s s' sub_says _ eq_refl user_3_says E E' bx (board [])).
    repeat split.
  Qed.

  (* Delete("news").Where(...) and Update("news").Set(Pair("title", "z")).Where(...) *)
  Definition remove_news (c : conditions) : removal := {| rm_table := GStr "news"; rm_using := []; rm_conditions := c; rm_returning := [] |}.
  Definition change_news (c : conditions) : change := {| ch_table := GStr "news"; ch_with := []; ch_set := SetPairs [[GPair (GStr "title") (GStr "z")]];
    ch_from := None; ch_conditions := c; ch_returning := [] |}.
  Definition y_then_3 : conditions := Some (title_y, [(ByAnd, user_3)]).
  Lemma y_then_3_says : conditions_say y_then_3 (Some (f_y, [(ByAnd, f_user_3)])).
  Proof. split; [exact title_y_says|]. constructor; [split; [reflexivity|exact user_3_says]|constructor]. Qed.
  Example C67_change_ex :
    run_removal (remove_news y_then_3) (board []) ["news"] ["user_id"] = Some ([], [[CInt 1]; [CInt 1]])
    /\ run_removal (remove_news flipped) (board []) ["news"] ["user_id"] = Some ([], [[CInt 1]; [CInt 1]])
    /\ run_change (change_news y_then_3) (board []) ["news"] ["title"] = Some ([], [[CStr "x"]; [CStr "y"]; [CStr "z"]; [CStr "z"]])
    /\ run_change (change_news flipped) (board []) ["news"] ["title"] = Some ([], [[CStr "x"]; [CStr "y"]; [CStr "z"]; [CStr "z"]]).
  Proof. split; [|split; [|split]]; vm_compute; reflexivity. Qed.
  Example C67_delete_met : forall d d', removal_delete (remove_news y_then_3) = Ok d -> removal_delete (remove_news flipped) = Ok d' ->
    forall out db', removes (board []) d out db' <-> removes (board []) d' out db'.
  Proof.
    intros d d' E E'. refine (C67_delete (remove_news y_then_3) news [] _ [] flipped d d' news_says (Forall2_nil _) y_then_3_says eq_refl _ E E' bx (board [])).
    apply same_first_and.
  Qed.
  Example C67_update_met : forall u u', change_update (change_news y_then_3) = Ok u -> change_update (change_news flipped) = Ok u' ->
    forall out db', updates (board []) u out db' <-> updates (board []) u' out db'.
  Proof.
    intros u u' E E'. refine (C67_update (change_news y_then_3) news [] [(["title"], MVal (GStr "z"))] [] _ [] flipped u u'
      AssignP.insertion_contract news_says withs_none _ _ eq_refl eq_refl y_then_3_says eq_refl _ E E' bx (board [])).
    - apply (set_pairs _ [[(["title"], MVal (GStr "z"))]]). constructor; [|constructor]. apply pairs_pair; [|apply pairs_none].
      split; cbn [fst snd]; [apply (key_string "title"); reflexivity|apply source_value, value_bound; reflexivity].
    - discriminate.
    - apply same_first_and.
  Qed.
  Example C67_delete_narrows_met : forall d d', removal_delete (remove_news (Some (title_y, []))) = Ok d -> removal_delete (remove_news y_then_3) = Ok d' ->
    forall out db1 out' db2, removes (board []) d out db1 -> removes (board []) d' out' db2 ->
    part_of (snd (db1 ["news"])) (snd (db2 ["news"])).
  Proof.
    intros d d' E E'. refine (C67_delete_narrows (remove_news (Some (title_y, []))) news [] title_y [] (Some (f_y, [])) [] user_3 f_user_3 ByAnd d d'
      news_says (Forall2_nil _) eq_refl _ eq_refl user_3_says E E' bx (board [])).
    split; [exact title_y_says|constructor].
  Qed.
  Example C67_delete_narrows_ex :
    run_removal (remove_news (Some (title_y, []))) (board []) ["news"] ["user_id"] = Some ([], [[CInt 1]])
    /\ run_removal (remove_news y_then_3) (board []) ["news"] ["user_id"] = Some ([], [[CInt 1]; [CInt 1]]).
  Proof. split; vm_compute; reflexivity. Qed.
End Examples.
