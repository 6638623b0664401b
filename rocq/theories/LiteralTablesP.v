(* A statement with literals and the same statement with arguments mean the same, for a database with many
   tables, subqueries and WITH. *)
From Verif Require Export LiteralTables.
From Verif Require Import LiteralP AddRowsP.

(* ------------------------------------------------------------------------- *)
(* Relations grow with the relation of their subqueries                        *)
(* ------------------------------------------------------------------------- *)

Section Grow.
  Context (e : bool) (R S : squery -> squery -> Prop) (f : forall q q', R q q' -> S q q').

  Definition grow_each {A B} (P T : A -> B -> Prop) (h : forall a b, P a b -> T a b) : forall l l', Forall2 P l l' -> Forall2 T l l'.
  Proof. fix F 3. intros l l' H. destruct H as [|a b l l' H HF]; [constructor|]. constructor; [exact (h _ _ H)|exact (F _ _ HF)]. Defined.
  Definition grow_term : forall a a', term_rel e R a a' -> term_rel e S a a'.
  Proof. intros a a' H. destruct H; constructor; try assumption. apply f. assumption. Defined.
  Definition grow_formula : forall x x', formula_rel e R x x' -> formula_rel e S x x'.
  Proof.
    fix F 3. intros x x' H. destruct H as [a o b a' b' A B|n a l a' l' A B|n a q a' q' A B|n a x y a' x' y' A X Y|n q q' A|h k h' k' H K|h k h' k' H K].
    - constructor; apply grow_term; assumption.
    - constructor; [exact (grow_term _ _ A)|exact (grow_each _ _ grow_term _ _ B)].
    - constructor; [exact (grow_term _ _ A)|exact (f _ _ B)].
    - constructor; apply grow_term; assumption.
    - constructor. exact (f _ _ A).
    - constructor; [exact (F _ _ H)|exact (F _ _ K)].
    - constructor; [exact (F _ _ H)|exact (F _ _ K)].
  Defined.
  Definition grow_item : forall i i', item_rel R i i' -> item_rel S i i'.
  Proof. intros i i' H. destruct H; constructor. apply f. assumption. Defined.
  Definition grow_condition : forall w w', condition_rel e R w w' -> condition_rel e S w w'.
  Proof. intros w w' H. destruct H as [|x x' H]; constructor. exact (grow_formula _ _ H). Defined.
  Definition grow_join : forall j j', join_rel e R j j' -> join_rel e S j j'.
  Proof. intros j j' H. destruct H as [kw t x x' H]. constructor. exact (grow_formula _ _ H). Defined.
  Definition grow_with : forall w w', with_rel R w w' -> with_rel S w w'.
  Proof. intros w w' H. destruct H as [x q q' H]. constructor. exact (f _ _ H). Defined.
  Definition grow_body : forall b b', body_rel e R b b' -> body_rel e S b b'.
  Proof.
    intros b b' H. destruct H as [pre w w' don d i i' fr j j' wh wh' gb h h' ob n k suf W I J C H]. constructor.
    - exact (grow_each _ _ grow_with _ _ W).
    - exact (grow_each _ _ grow_item _ _ I).
    - exact (grow_each _ _ grow_join _ _ J).
    - exact (grow_condition _ _ C).
    - exact (grow_condition _ _ H).
  Defined.
End Grow.

(* ------------------------------------------------------------------------- *)
(* The same meaning                                                            *)
(* ------------------------------------------------------------------------- *)

Section Same.
  Context {g : basis} (e : bool) (L : tables_take_literals g e).
  (* Subqueries with the same answer. *)
  Definition alike_q (q q' : squery) : Prop := query_columns q = query_columns q' /\ forall db (v : bnaming g), means q db v = means q' db v.
  Notation R := alike_q.

  Lemma t_term (db : tabledb g) (v : bnaming g) : forall a a', term_rel e R a a' -> bterm g means db v a = bterm g means db v a'.
  Proof.
    destruct L as (L1 & L2 & _). intros a a' [|x u H|n|q q' H|f ts]; try reflexivity.
    - cbn [bterm]. assert (D : u = MNull \/ exists x, u = MVal x).
      { clear L1 L2. revert u H. induction x; cbn [literal_says]; intros u H; try discriminate H; try (injection H as <-; eauto).
        - destruct (_ && _); [|discriminate H]. injection H as <-. eauto.
        - apply IHx, H. }
      destruct D as [->|(y & ->)]; cbn [bterm]; [apply L2, H|symmetry; apply L1, H].
    - cbn [bterm]. rewrite (proj2 H). reflexivity.
  Qed.
  Lemma t_terms (db : tabledb g) (v : bnaming g) : forall l l', Forall2 (term_rel e R) l l' -> map (bterm g means db v) l = map (bterm g means db v) l'.
  Proof. induction 1 as [|a a' l l' H F IH]; [reflexivity|]. cbn [map]. rewrite (t_term db v _ _ H), IH. reflexivity. Qed.
  Lemma t_truth (db : tabledb g) (v : bnaming g) : forall f f', formula_rel e R f f' -> btruth means db v f = btruth means db v f'.
  Proof.
    induction 1 as [a o b a' b' A B|n a l a' l' A B|n a q a' q' A B|n a x y a' x' y' A X Y|n q q' A|f h f' h' _ F _ H|f h f' h' _ F _ H];
      cbn [btruth]; rewrite ?(t_term db v _ _ A).
    - rewrite (t_term db v _ _ B). reflexivity.
    - rewrite (t_terms db v _ _ B). reflexivity.
    - rewrite (proj2 B). reflexivity.
    - rewrite (t_term db v _ _ X), (t_term db v _ _ Y). reflexivity.
    - rewrite (proj2 A). reflexivity.
    - rewrite F, H. reflexivity.
    - rewrite F, H. reflexivity.
  Qed.
  Lemma t_chosen (db : tabledb g) : forall w w', condition_rel e R w w' -> forall v, bchosen g means db w v = bchosen g means db w' v.
  Proof. intros w w' [|f f' F] v; [reflexivity|]. cbn [bchosen]. rewrite (t_truth db v _ _ F). reflexivity. Qed.
  Lemma t_on (db : tabledb g) outer : forall f f', formula_rel e R f f' -> forall sc, on_true g means db outer f sc = on_true g means db outer f' sc.
  Proof. intros f f' F sc. unfold on_true. rewrite (t_truth db _ _ _ F). reflexivity. Qed.
  Lemma t_partners (db : tabledb g) outer t : forall f f', formula_rel e R f f' -> forall sc, bpartners g means db outer t f sc = bpartners g means db outer t f' sc.
  Proof. intros f f' F sc. unfold bpartners. apply filter_ext, t_on, F. Qed.
  Lemma flat_map_same {A B} (h k : A -> list B) : (forall a, h a = k a) -> forall l, flat_map h l = flat_map k l.
  Proof. intros H l. apply flat_map_ext, H. Qed.
  Lemma existsb_same {A} (h k : A -> bool) : (forall a, h a = k a) -> forall l, existsb h l = existsb k l.
  Proof. intros H l. induction l as [|a l IH]; [reflexivity|]. cbn [existsb]. rewrite H, IH. reflexivity. Qed.
  Lemma t_join (db : tabledb g) outer ts kw t : forall f f', formula_rel e R f f' -> forall left,
    bjoin g means db outer ts kw t f left = bjoin g means db outer ts kw t f' left.
  Proof.
    intros f f' F left.
    assert (P : flat_map (bpartners g means db outer t f) left = flat_map (bpartners g means db outer t f') left)
      by (apply flat_map_same, t_partners, F).
    assert (P' : flat_map (fun sc => match bpartners g means db outer t f sc with [] => [(sc ++ [with_row db t (no_values g)])%list] | l => l end) left
               = flat_map (fun sc => match bpartners g means db outer t f' sc with [] => [(sc ++ [with_row db t (no_values g)])%list] | l => l end) left)
      by (apply flat_map_same; intro sc; rewrite (t_partners db outer t f f' F); reflexivity).
    assert (P2 : forall h : brow g -> bscope g,
      map h (filter (fun r => negb (existsb (fun sc => on_true g means db outer f (sc ++ [with_row db t r])%list) left)) (snd (db (tb_name t))))
      = map h (filter (fun r => negb (existsb (fun sc => on_true g means db outer f' (sc ++ [with_row db t r])%list) left)) (snd (db (tb_name t))))).
    { intro h. f_equal. apply filter_ext. intro r. f_equal. apply existsb_same. intro sc. apply t_on, F. }
    unfold bjoin. rewrite P, P', P2. reflexivity.
  Qed.
  Lemma t_joins (db : tabledb g) outer : forall js js', Forall2 (join_rel e R) js js' -> forall ts left,
    bjoins g means db outer ts js left = bjoins g means db outer ts js' left.
  Proof.
    induction 1 as [|j j' js js' J F IH]; intros ts left; [reflexivity|]. destruct J as [kw t f f' H]. cbn [bjoins].
    rewrite (t_join db outer ts kw t f f' H). apply IH.
  Qed.
  Lemma t_from (db : tabledb g) outer : forall js js', Forall2 (join_rel e R) js js' -> forall ts, bfrom g means db outer js ts = bfrom g means db outer js' ts.
  Proof.
    intros js js' F ts. induction ts as [|t [|t' ts] IH]; [reflexivity|apply t_joins, F|].
    change (bfrom g means db outer js (t :: t' :: ts)) with (flat_map (fun r => map (cons (with_row db t r)) (bfrom g means db outer js (t' :: ts))) (snd (db (tb_name t)))).
    change (bfrom g means db outer js' (t :: t' :: ts)) with (flat_map (fun r => map (cons (with_row db t r)) (bfrom g means db outer js' (t' :: ts))) (snd (db (tb_name t)))).
    rewrite IH. reflexivity.
  Qed.
  Lemma t_item (db : tabledb g) gr : forall i i', item_rel R i i' -> bitem g means db gr i = bitem g means db gr i'.
  Proof. intros i i' [| |n q q' H]; try reflexivity. cbn [bitem]. rewrite (proj2 H). reflexivity. Qed.
  Lemma t_items (db : tabledb g) : forall l l', Forall2 (item_rel R) l l' -> forall gr, bitems g means db l gr = bitems g means db l' gr.
  Proof. intros l l' F gr. unfold bitems. induction F as [|i i' l l' H F IH]; [reflexivity|]. cbn [map]. rewrite IH, (t_item db gr _ _ H). reflexivity. Qed.
  Lemma t_columns : forall l l', Forall2 (item_rel R) l l' -> map item_column l = map item_column l'.
  Proof. induction 1 as [|i i' l l' H F IH]; [reflexivity|]. cbn [map]. rewrite IH. destruct H; reflexivity. Qed.
  Lemma t_aggregated : forall l l', Forall2 (item_rel R) l l' -> aggregated l = aggregated l'.
  Proof.
    induction 1 as [|i i' l l' H F IH]; [reflexivity|]. unfold aggregated in *. cbn [existsb]. rewrite IH. destruct H; reflexivity.
  Qed.
  Lemma t_grouped ns blank rows : forall l l', Forall2 (item_rel R) l l' -> grouped g ns l blank rows = grouped g ns l' blank rows.
  Proof. intros l l' F. unfold grouped. rewrite (t_aggregated _ _ F). reflexivity. Qed.
  Lemma t_withs outer : forall l l', Forall2 (with_rel R) l l' -> forall db,
    with_tables g means query_columns l db outer = with_tables g means query_columns l' db outer.
  Proof.
    induction 1 as [|w w' l l' H F IH]; intro db; [reflexivity|]. destruct H as [x q q' [C M]]. cbn [with_tables].
    rewrite C, M. apply IH.
  Qed.
  Lemma t_tables : forall js js', Forall2 (join_rel e R) js js' -> map (fun j => snd (fst j)) js = map (fun j => snd (fst j)) js'.
  Proof. induction 1 as [|j j' js js' J F IH]; [reflexivity|]. destruct J. cbn [map fst snd]. rewrite IH. reflexivity. Qed.

  Lemma t_body : forall b b', body_rel e R b b' -> forall db outer, body_rows g means query_columns b db outer = body_rows g means query_columns b' db outer.
  Proof.
    intros b b' [pre w w' don d i i' fr j j' wh wh' gb h h' ob n k suf W I J C H] db outer. unfold body_rows.
    cbn [q_prefix q_with q_distinct_on q_distinct q_items q_from q_joins q_where q_group_by q_having q_order_by q_limit q_offset q_suffix].
    cbv zeta. rewrite (t_withs outer _ _ W db). generalize (with_tables g means query_columns w' db outer). clear db. intro db.
    rewrite (filter_ext _ _ (t_chosen db _ _ C)), (t_from db outer _ _ J), (t_tables _ _ J), (t_grouped _ _ _ _ _ I), (t_columns _ _ I).
    match goal with |- context [filter ?p (grouped g ?ns ?l ?bl ?rows)] =>
      rewrite (filter_ext p (fun gr => bchosen g means db h' (fst gr)) (fun gr => t_chosen db _ _ H (fst gr)) (grouped g ns l bl rows)) end.
    match goal with |- context [map (fun gr => (over_items g ?cs (bitems g means db i gr) (fst gr), bitems g means db i gr)) ?rows] =>
      assert (EE : map (fun gr => (over_items g cs (bitems g means db i gr) (fst gr), bitems g means db i gr)) rows
                 = map (fun gr => (over_items g cs (bitems g means db i' gr) (fst gr), bitems g means db i' gr)) rows)
        by (apply map_ext; intro gr; rewrite (t_items db _ _ I gr); reflexivity);
      rewrite EE; clear EE end.
    reflexivity.
  Qed.

  Lemma rel_alike : forall q q', query_rel e q q' -> alike_q q q'.
  Proof.
    fix F 3. intros q q' H. pose proof (proj2 (proj2 L)) as L3. generalize (fun v => L3 q q' v H). clear L3. intro L3.
    destruct H as [b b' B]. pose proof (grow_body e (query_rel e) alike_q F b b' B) as A. clear F. split.
    - cbn [query_columns]. destruct A as [? ? ? ? ? i i' ? ? ? ? ? ? ? ? ? ? ? ? _ I _ _ _]. exact (t_columns _ _ I).
    - intros db v. cbn [means]. pose proof (t_body b b' A db v) as E.
      destruct A as [pre ? ? ? ? ? ? ? ? ? ? ? ? ? ? ? ? ? suf ? ? ? ? ?]. cbn [q_prefix q_suffix]. destruct pre, suf; [exact E|apply L3..].
  Qed.

  Lemma query_same : forall q q', query_rel e q q' -> forall db (v : bnaming g), means q db v = means q' db v.
  Proof. intros q q' H. exact (proj2 (rel_alike q q' H)). Qed.

  (* ----------------------------------------------------------------------- *)
  (* UPDATE, DELETE, INSERT                                                    *)
  (* ----------------------------------------------------------------------- *)

  Notation Q := (query_rel e).
  Lemma d_term (db : tabledb g) (v : bnaming g) a a' : term_rel e Q a a' -> bterm g means db v a = bterm g means db v a'.
  Proof. intro H. apply t_term, (grow_term e Q R rel_alike), H. Qed.
  Lemma d_terms (db : tabledb g) (v : bnaming g) l l' : Forall2 (term_rel e Q) l l' -> map (bterm g means db v) l = map (bterm g means db v) l'.
  Proof. intro H. apply t_terms. exact (grow_each _ _ (grow_term e Q R rel_alike) _ _ H). Qed.
  Lemma d_chosen (db : tabledb g) w w' : condition_rel e Q w w' -> forall v, bchosen g means db w v = bchosen g means db w' v.
  Proof. intro H. apply t_chosen, (grow_condition e Q R rel_alike), H. Qed.
  Lemma d_withs l l' : Forall2 (with_rel Q) l l' -> forall db,
    with_tables g means query_columns l db nothing = with_tables g means query_columns l' db nothing.
  Proof. intros H db. apply t_withs. exact (grow_each _ _ (grow_with Q R rel_alike) _ _ H). Qed.
  Lemma d_return_all (db : tabledb g) l l' : Forall2 (item_rel Q) l l' -> forall vs, return_all db l vs = return_all db l' vs.
  Proof.
    intros H vs. assert (E : map (returning db l) vs = map (returning db l') vs).
    { apply map_ext. intro v. unfold returning. apply t_items. exact (grow_each _ _ (grow_item Q R rel_alike) _ _ H). }
    destruct H; [reflexivity|exact E].
  Qed.
  Lemma d_may_return l l' : Forall2 (item_rel Q) l l' -> may_return l = may_return l'.
  Proof. intro H. unfold may_return. f_equal. apply t_aggregated. exact (grow_each _ _ (grow_item Q R rel_alike) _ _ H). Qed.
  Lemma find_same {A} (h k : A -> bool) : (forall a, h a = k a) -> forall l, find h l = find k l.
  Proof. intros H l. induction l as [|a l IH]; [reflexivity|]. cbn [find]. rewrite H, IH. reflexivity. Qed.
  Lemma d_partner (db : tabledb g) t ts w w' : condition_rel e Q w w' -> forall r, partner db t ts w r = partner db t ts w' r.
  Proof. intros H r. unfold partner. apply find_same. intro sc. apply d_chosen, H. Qed.
  Lemma d_assigns (db : tabledb g) (v : bnaming g) l l' : Forall2 (assign_rel e Q) l l' ->
    map (fun nt => (column_of (fst nt), bterm g means db v (snd nt))) l = map (fun nt => (column_of (fst nt), bterm g means db v (snd nt))) l'.
  Proof.
    induction 1 as [|x y l l' H F IH]; [reflexivity|]. destruct H as [n a a' H]. cbn [map fst snd].
    rewrite IH, (d_term db v _ _ H). reflexivity.
  Qed.
  Lemma each_length {A B} (P : A -> B -> Prop) : forall l l', Forall2 P l l' -> List.length l = List.length l'.
  Proof. induction 1; cbn; congruence. Qed.
  Lemma d_assigned (db : tabledb g) s s' : setting_rel e Q s s' -> forall v, bassigned db s v = bassigned db s' v.
  Proof.
    intros [l l' F|cols l l' F|cols q q' H] v; cbn [bassigned].
    - rewrite (same_names e _ _ F), (d_assigns db v _ _ F). reflexivity.
    - rewrite (d_terms db v _ _ F), (each_length _ _ _ F). reflexivity.
    - rewrite (query_same q q' H). reflexivity.
  Qed.
  Lemma with_names : forall l l', Forall2 (with_rel Q) l l' -> forall t, named_with l t = named_with l' t.
  Proof. induction 1 as [|w w' l l' H F IH]; intro t; [reflexivity|]. unfold named_with in *. cbn [existsb]. rewrite IH. destruct H. reflexivity. Qed.

  Lemma update_same : forall b b', update_with_literals e b b' -> forall db : tabledb g, bupdate db b = bupdate db b'.
  Proof.
    intros b b' [w w' t s s' fr wh wh' ret ret' W S C I] db. unfold bupdate. cbn [up_with up_table up_returning].
    rewrite (d_withs _ _ W db), (with_names _ _ W), (d_may_return _ _ I).
    generalize (with_tables g means query_columns w' db nothing). intro db1.
    destruct (_ || _); [reflexivity|].
    rewrite (map_ext (changed db1 {| up_with := w; up_table := t; up_set := s; up_from := fr; up_where := wh; up_returning := ret |})
                     (changed db1 {| up_with := w'; up_table := t; up_set := s'; up_from := fr; up_where := wh'; up_returning := ret' |})).
    - destruct (all_some _); [|reflexivity]. rewrite (d_return_all db1 _ _ I). reflexivity.
    - intro r. unfold changed. cbn [up_table up_from up_where up_set]. rewrite (d_partner db1 t fr _ _ C).
      destruct (partner _ _ _ _ _); [|reflexivity]. rewrite (d_assigned db1 _ _ S). reflexivity.
  Qed.
  Lemma delete_same : forall b b', delete_with_literals e b b' -> forall db : tabledb g, bdelete db b = bdelete db b'.
  Proof.
    intros b b' [fr us wh wh' ret ret' C I] db. unfold bdelete. cbn [de_from de_using de_where de_returning].
    destruct fr as [|t [|]]; try reflexivity. rewrite (d_may_return _ _ I). destruct (negb _); [reflexivity|].
    rewrite (d_return_all db _ _ I). do 2 f_equal.
    - f_equal. apply flat_map_same. intro r. rewrite (d_partner db t us _ _ C). reflexivity.
    - f_equal. apply filter_ext. intro r. unfold goes. cbn [de_using de_where]. rewrite (d_partner db t us _ _ C). reflexivity.
  Qed.
  Lemma new_same (k : rules g) db t cols : forall l l', Forall2 (Forall2 (term_rel e Q)) l l' -> map (bnew k db t cols) l = map (bnew k db t cols) l'.
  Proof.
    induction 1 as [|a a' l l' H F IH]; [reflexivity|]. cbn [map]. rewrite IH. f_equal. unfold bnew.
    rewrite (d_terms db _ _ _ H), (each_length _ _ _ H). reflexivity.
  Qed.
  Lemma insert_same (k : rules g) : forall b b', insert_with_literals e b b' -> forall db : tabledb g, binsert k db b = binsert k db b'.
  Proof.
    intros b b' [t cols rows rows' c c' ret ret' N C I] db. unfold binsert. cbn [in_table in_columns in_rows in_conflict in_returning].
    rewrite (new_same k db (tb_name t) cols _ _ N), (d_may_return _ _ I).
    destruct C as [|ks|ks l l' F]; cbn [bclash].
    - destruct (all_some _); [|reflexivity]. destruct (negb _); [reflexivity|]. destruct (add_to _ _ _ _) as [[? ?]|]; [|reflexivity].
      rewrite (d_return_all db _ _ I). reflexivity.
    - destruct (all_some _); [|reflexivity]. destruct (negb _); [reflexivity|]. destruct (add_to _ _ _ _) as [[? ?]|]; [|reflexivity].
      rewrite (d_return_all db _ _ I). reflexivity.
    - rewrite (same_names e _ _ F). destruct (settable _); [|reflexivity].
      destruct (all_some _) as [news|]; [|reflexivity]. destruct (negb _); [reflexivity|].
      match goal with |- match add_to ?h (Rewrites ?w1) _ ?d with _ => _ end = match add_to _ (Rewrites ?w2) _ _ with _ => _ end =>
        rewrite (add_to_ext h w1 w2) end.
      + destruct (add_to _ _ _ _) as [[? ?]|]; [|reflexivity]. rewrite (d_return_all db _ _ I). reflexivity.
      + intros new old. rewrite (d_assigns db _ _ _ F). reflexivity.
  Qed.
End Same.
