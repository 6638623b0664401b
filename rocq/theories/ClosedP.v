(* Proofs about Closed.v: the answer of a closed query does not depend on what is outside. *)
From Verif Require Import Closed MeaningP.

Section Agree.
  Context {g : basis}.

  Definition agree (known : name -> bool) (v v' : bnaming g) : Prop := forall n, known n = true -> v n = v' n.
  Definition shape (sc : bscope g) : list (tableref * list string) := map fst sc.

  Lemma find_knows {A B} (p : A -> bool) : forall sc : list (A * B), existsb p (map fst sc) = true ->
    exists x, find (fun y => p (fst y)) sc = Some x.
  Proof.
    induction sc as [|x sc IH]; intro H; [discriminate|]. cbn [map existsb] in H. cbn [find].
    destruct (p (fst x)); [exists x; reflexivity|]. apply IH, H.
  Qed.

  Lemma names_agree : forall known v v' sc n, agree known v v' -> known n || knows (shape sc) n = true ->
    names_in v sc n = names_in v' sc n.
  Proof.
    intros known v v' sc n A H. unfold names_in. apply orb_true_iff in H.
    destruct H as [H|H].
    - rewrite (A n H). reflexivity.
    - destruct n as [|c [|c' n]]; cbn [knows] in H.
      + destruct (find_knows (fun x => called_so (removelast []) (fst x)) sc H) as ((x & r) & E).
        rewrite E. reflexivity.
      + destruct (find_knows (fun x => has_col (snd x) c) sc H) as ((x & r) & E). rewrite E. reflexivity.
      + destruct (find_knows (fun x => called_so (removelast (c :: c' :: n)) (fst x)) sc H) as ((x & r) & E).
        rewrite E. reflexivity.
  Qed.

  (* ----------------------------------------------------------------------- *)
  (* Lists                                                                     *)
  (* ----------------------------------------------------------------------- *)

  Lemma filter_two {A B} (R : A -> B -> Prop) p p' : forall l l', Forall2 R l l' -> (forall x y, R x y -> p x = p' y) ->
    Forall2 R (filter p l) (filter p' l').
  Proof.
    intros l l' H E. induction H as [|x y l l' Hxy H IH]; [constructor|]. cbn [filter]. rewrite (E x y Hxy).
    destruct (p' y); [constructor; assumption|exact IH].
  Qed.
  Lemma map_two {A B C D} (R : A -> B -> Prop) (S : C -> D -> Prop) f f' : forall l l', Forall2 R l l' ->
    (forall x y, R x y -> S (f x) (f' y)) -> Forall2 S (map f l) (map f' l').
  Proof. intros l l' H E. induction H; constructor; auto. Qed.
  Lemma map_same {A B C} (R : A -> B -> Prop) (f : A -> C) f' : forall l l', Forall2 R l l' ->
    (forall x y, R x y -> f x = f' y) -> map f l = map f' l'.
  Proof. intros l l' H E. induction H as [|x y l l' Hxy H IH]; [reflexivity|]. cbn [map]. rewrite (E x y Hxy), IH. reflexivity. Qed.
  Lemma firsts_two {A B} (R : A -> B -> Prop) (key : A -> list (bdatum g)) key' : forall l l', Forall2 R l l' ->
    (forall x y, R x y -> key x = key' y) -> Forall2 R (firsts key l) (firsts key' l').
  Proof.
    intros l l' H E. induction H as [|x y l l' Hxy H IH]; [constructor|]. cbn [firsts]. constructor; [exact Hxy|].
    apply (filter_two R _ _ _ _ IH). intros u w Huw. rewrite (E x y Hxy), (E u w Huw). reflexivity.
  Qed.
  Lemma all_two {A} (R : A -> A -> Prop) : (forall x, R x x) -> forall l, Forall2 R l l.
  Proof. intros H l. induction l; constructor; auto. Qed.
  Lemma nth_two {A B} (R : A -> B -> Prop) : forall l l', Forall2 R l l' -> forall is,
    Forall2 R (flat_map (fun i => match nth_error l i with Some x => [x] | None => [] end) is)
              (flat_map (fun i => match nth_error l' i with Some x => [x] | None => [] end) is).
  Proof.
    intros l l' H is.
    assert (N : forall i, match nth_error l i, nth_error l' i with Some x, Some y => R x y | None, None => True | _, _ => False end).
    { induction H as [|x y l l' Hxy H IH]; intros [|i]; cbn; auto. apply IH. }
    induction is as [|i is IH]; [constructor|]. cbn [flat_map]. specialize (N i).
    destruct (nth_error l i), (nth_error l' i); try contradiction; cbn [app]; [constructor; assumption|exact IH].
  Qed.

  (* ----------------------------------------------------------------------- *)
  (* Nodes                                                                     *)
  (* ----------------------------------------------------------------------- *)

  Section Nodes.
    Context {Q : Type} (sub : Q -> tabledb g -> bnaming g -> list (list (bdatum g))) (columns : Q -> list string)
      (csub : (name -> list string) -> (name -> bool) -> Q -> bool).
    Context (Hsub : forall q (db : tabledb g) cols known v v', (forall t, fst (db t) = cols t) -> csub cols known q = true -> agree known v v' ->
      sub q db v = sub q db v').

    Section Tables.
    Context (db : tabledb g) (cols : name -> list string) (Hdb : forall t, fst (db t) = cols t).

    Lemma term_agree : forall known v v' a, agree known v v' -> term_closed csub cols known a = true ->
      bterm g sub db v a = bterm g sub db v' a.
    Proof.
      intros known v v' [|x|n|q|f ts] A H; cbn [bterm term_closed] in *; try reflexivity; try discriminate.
      - apply A, H.
      - rewrite (Hsub q db cols known v v' Hdb H A). reflexivity.
    Qed.
    Lemma truth_agree : forall known v v' f, agree known v v' -> formula_closed csub cols known f = true ->
      btruth sub db v f = btruth sub db v' f.
    Proof.
      intros known v v' f A. induction f as [a o b|n a vs|n a q|n a x y|n q|x IHx y IHy|x IHx y IHy]; intro H; cbn [btruth formula_closed] in *;
        repeat (apply andb_true_iff in H; destruct H as [H ?]).
      - rewrite (term_agree known v v' a A H), (term_agree known v v' b A H0). reflexivity.
      - rewrite (term_agree known v v' a A H). f_equal. f_equal. apply map_ext_in. intros t It. apply (term_agree known); [exact A|].
        rewrite forallb_forall in H0. apply H0, It.
      - rewrite (term_agree known v v' a A H), (Hsub q db cols known v v' Hdb H0 A). reflexivity.
      - rewrite (term_agree known v v' a A H), (term_agree known v v' x A H1), (term_agree known v v' y A H0). reflexivity.
      - rewrite (Hsub q db cols known v v' Hdb H A). reflexivity.
      - rewrite (IHx H), (IHy H0). reflexivity.
      - rewrite (IHx H), (IHy H0). reflexivity.
    Qed.
    Lemma chosen_agree : forall known v v' w, agree known v v' -> option_closed csub cols known w = true ->
      bchosen g sub db w v = bchosen g sub db w v'.
    Proof. intros known v v' [f|] A H; [|reflexivity]. cbn [bchosen]. rewrite (truth_agree known v v' f A H). reflexivity. Qed.

    Definition shape_of (ts : list tableref) (sc : bscope g) : Prop := shape sc = map (fun t => (t, cols (tb_name t))) ts.
    Lemma shape_row : forall ts t r sc, shape_of ts sc -> shape_of (ts ++ [t])%list (sc ++ [with_row db t r])%list.
    Proof. intros ts t r sc H. unfold shape_of, shape in *. rewrite !map_app, H. cbn [map]. unfold with_row. cbn [fst]. rewrite Hdb. reflexivity. Qed.
    Lemma shape_rows : forall ts, shape_of ts (map (fun t => with_row db t (no_values g)) ts).
    Proof. intros ts. unfold shape_of, shape. rewrite map_map. apply map_ext. intro t. unfold with_row. cbn [fst]. rewrite Hdb. reflexivity. Qed.

    Lemma inside_agree : forall known v v' ts sc, agree known v v' -> shape_of ts sc ->
      agree (known_in cols known ts) (names_in v sc) (names_in v' sc).
    Proof. intros known v v' ts sc A S n H. unfold known_in in H. rewrite <- S in H. exact (names_agree known v v' sc n A H). Qed.

    Lemma on_agree : forall known v v' ts f sc, agree known v v' -> shape_of ts sc ->
      formula_closed csub cols (known_in cols known ts) f = true -> on_true g sub db v f sc = on_true g sub db v' f sc.
    Proof.
      intros known v v' ts f sc A S H. unfold on_true.
      rewrite (truth_agree (known_in cols known ts) _ _ f (inside_agree known v v' ts sc A S) H). reflexivity.
    Qed.

    Lemma partners_agree : forall known v v' ts t f sc, agree known v v' -> shape_of ts sc ->
      formula_closed csub cols (known_in cols known (ts ++ [t])%list) f = true ->
      bpartners g sub db v t f sc = bpartners g sub db v' t f sc /\ Forall (shape_of (ts ++ [t])%list) (bpartners g sub db v t f sc).
    Proof.
      intros known v v' ts t f sc A S H. unfold bpartners.
      assert (F : Forall (shape_of (ts ++ [t])%list) (map (fun r => (sc ++ [with_row db t r])%list) (snd (db (tb_name t))))).
      { apply Forall_forall. intros x Ix. apply in_map_iff in Ix as (r & <- & _). apply shape_row, S. }
      split.
      - apply filter_ext_in. intros x Ix. rewrite Forall_forall in F. exact (on_agree known v v' _ f x A (F x Ix) H).
      - apply Forall_forall. intros x Ix. apply filter_In in Ix as [Ix _]. rewrite Forall_forall in F. apply F, Ix.
    Qed.

    Lemma join_agree : forall known v v' ts kw t f left, agree known v v' -> Forall (shape_of ts) left ->
      formula_closed csub cols (known_in cols known (ts ++ [t])%list) f = true ->
      bjoin g sub db v ts kw t f left = bjoin g sub db v' ts kw t f left
      /\ Forall (shape_of (ts ++ [t])%list) (bjoin g sub db v ts kw t f left).
    Proof.
      intros known v v' ts kw t f left A F H. rewrite Forall_forall in F.
      assert (P : forall sc, In sc left -> bpartners g sub db v t f sc = bpartners g sub db v' t f sc
                    /\ Forall (shape_of (ts ++ [t])%list) (bpartners g sub db v t f sc)).
      { intros sc Is. exact (partners_agree known v v' ts t f sc A (F sc Is) H). }
      assert (X : forall (k k' : bscope g -> list (bscope g)) (l : list (bscope g)), (forall sc, In sc l -> k sc = k' sc) -> flat_map k l = flat_map k' l).
      { intros k k' l E. induction l as [|x l IH]; [reflexivity|]. cbn [flat_map]. rewrite (E x (or_introl eq_refl)), IH; [reflexivity|].
        intros sc Is. apply E. right. exact Is. }
      assert (Y : forall (k : bscope g -> list (bscope g)), (forall sc, In sc left -> Forall (shape_of (ts ++ [t])%list) (k sc)) ->
                  Forall (shape_of (ts ++ [t])%list) (flat_map k left)).
      { intros k E. apply Forall_forall. intros x Ix. apply in_flat_map in Ix as (sc & Is & Ix). specialize (E sc Is).
        rewrite Forall_forall in E. apply E, Ix. }
      assert (Z : flat_map (bpartners g sub db v t f) left = flat_map (bpartners g sub db v' t f) left
                  /\ Forall (shape_of (ts ++ [t])%list) (flat_map (bpartners g sub db v t f) left)).
      { split; [apply X; intros sc Is; apply P, Is|apply Y; intros sc Is; apply P, Is]. }
      assert (L : let k o sc := match bpartners g sub db o t f sc with [] => [(sc ++ [with_row db t (no_values g)])%list] | l => l end in
                  flat_map (k v) left = flat_map (k v') left /\ Forall (shape_of (ts ++ [t])%list) (flat_map (k v) left)).
      { cbv zeta. split.
        - apply X. intros sc Is. rewrite (proj1 (P sc Is)). reflexivity.
        - apply Y. intros sc Is. destruct (bpartners g sub db v t f sc) eqn:E.
          + constructor; [apply shape_row, F, Is|constructor].
          + rewrite <- E. apply P, Is. }
      assert (R : let rest o := map (fun r => (map (fun t => with_row db t (no_values g)) ts ++ [with_row db t r])%list)
                     (filter (fun r => negb (existsb (fun sc => on_true g sub db o f (sc ++ [with_row db t r])%list) left)) (snd (db (tb_name t)))) in
                  rest v = rest v' /\ Forall (shape_of (ts ++ [t])%list) (rest v)).
      { cbv zeta. split.
        - f_equal. apply filter_ext. intro r. f_equal.
          assert (Y' : forall l : list (bscope g), (forall sc, In sc l -> shape_of ts sc) ->
            existsb (fun sc => on_true g sub db v f (sc ++ [with_row db t r])%list) l
            = existsb (fun sc => on_true g sub db v' f (sc ++ [with_row db t r])%list) l).
          { induction l as [|sc l IH]; intro Hl; [reflexivity|]. cbn [existsb].
            rewrite (on_agree known v v' _ f _ A (shape_row ts t r sc (Hl sc (or_introl eq_refl))) H), IH; [reflexivity|].
            intros sc' Is. apply Hl. right. exact Is. }
          apply Y', F.
        - apply Forall_forall. intros x Ix. apply in_map_iff in Ix as (r & <- & _). apply shape_row, shape_rows. }
      assert (RR : flat_map (bpartners g sub db v t f) left = flat_map (bpartners g sub db v' t f) left
                  /\ Forall (shape_of (ts ++ [t])%list) (flat_map (bpartners g sub db v t f) left)) by exact Z.
      destruct kw as [|x kw]; [exact Z|].
      unfold bjoin.
      destruct (string_dec x "LEFT") as [->|NL]; [exact L|]. destruct (string_dec x "RIGHT") as [->|NR].
      - cbv zeta in R. destruct Z as [Z1 Z2], R as [R1 R2]. split; [rewrite Z1, R1; reflexivity|apply Forall_app; split; assumption].
      - assert (D : forall o, (match x with
          | "LEFT" => flat_map (fun sc => match bpartners g sub db o t f sc with [] => [(sc ++ [with_row db t (no_values g)])%list] | l => l end) left
          | "RIGHT" => (flat_map (bpartners g sub db o t f) left
              ++ map (fun r => (map (fun t => with_row db t (no_values g)) ts ++ [with_row db t r])%list)
             (filter (fun r => negb (existsb (fun sc => on_true g sub db o f (sc ++ [with_row db t r])%list) left)) (snd (db (tb_name t)))))%list
          | _ => flat_map (bpartners g sub db o t f) left end) = flat_map (bpartners g sub db o t f) left).
        { intro o. clear - NL NR.
          repeat match goal with |- (match ?y with _ => _ end) = _ => destruct y as [|[[] [] [] [] [] [] [] []] ?]; try reflexivity; try congruence end. }
        rewrite !D. exact Z.
    Qed.

    Lemma joins_agree : forall known v v' js ts left, agree known v v' -> Forall (shape_of ts) left ->
      joins_closed csub cols known ts js = true ->
      bjoins g sub db v ts js left = bjoins g sub db v' ts js left
      /\ Forall (shape_of (ts ++ map (fun j => snd (fst j)) js)%list) (bjoins g sub db v ts js left).
    Proof.
      intros known v v' js. induction js as [|((kw & t) & f) js IH]; intros ts left A F H; cbn [bjoins joins_closed map fst snd] in *.
      - rewrite app_nil_r. split; [reflexivity|exact F].
      - apply andb_true_iff in H as [H H']. destruct (join_agree known v v' ts kw t f left A F H) as [E F'].
        rewrite <- E. destruct (IH (ts ++ [t])%list _ A F' H') as [E2 F2]. split; [exact E2|].
        replace (ts ++ t :: map (fun j => snd (fst j)) js)%list with ((ts ++ [t]) ++ map (fun j => snd (fst j)) js)%list; [exact F2|].
        rewrite <- app_assoc. reflexivity.
    Qed.

    Lemma from_agree : forall known v v' js ts, agree known v v' -> from_closed csub cols known js ts = true ->
      bfrom g sub db v js ts = bfrom g sub db v' js ts
      /\ Forall (shape_of (ts ++ match ts with [] => [] | _ => map (fun j => snd (fst j)) js end)%list) (bfrom g sub db v js ts).
    Proof.
      intros known v v' js ts A. induction ts as [|t ts IH]; intro H.
      - split; [reflexivity|]. constructor; [reflexivity|constructor].
      - destruct ts as [|t' ts].
        + cbn [bfrom from_closed app] in *. apply (joins_agree known v v' js [t] _ A); [|exact H].
          apply Forall_forall. intros x Ix. apply in_map_iff in Ix as (r & <- & _). exact (shape_row [] t r [] eq_refl).
        + specialize (IH H). destruct IH as [E F]. set (ts' := t' :: ts) in *.
          change (bfrom g sub db v js (t :: ts')) with (flat_map (fun r => map (cons (with_row db t r)) (bfrom g sub db v js ts')) (snd (db (tb_name t)))).
          change (bfrom g sub db v' js (t :: ts')) with (flat_map (fun r => map (cons (with_row db t r)) (bfrom g sub db v' js ts')) (snd (db (tb_name t)))).
          split; [rewrite E; reflexivity|]. apply Forall_forall. intros x Ix. apply in_flat_map in Ix as (r & _ & Ix).
          apply in_map_iff in Ix as (sc & <- & Isc). rewrite Forall_forall in F. specialize (F sc Isc).
          unfold shape_of, shape in *. cbn [map app]. rewrite F. unfold with_row. cbn [fst]. rewrite Hdb. reflexivity.
    Qed.

    Definition agree_groups (known : name -> bool) (x y : bnaming g * list (bnaming g)) : Prop :=
      agree known (fst x) (fst y) /\ Forall2 (agree known) (snd x) (snd y).

    Lemma items_agree : forall known l x y, agree_groups known x y -> forallb (item_closed csub cols known) l = true ->
      bitems g sub db l x = bitems g sub db l y.
    Proof.
      intros known l x y [A F] H. apply map_ext_in. intros i Ii. rewrite forallb_forall in H. specialize (H i Ii).
      destruct i as [n al|f d a al|n q]; cbn [bitem item_closed] in *.
      - apply A, H.
      - unfold aggregate. apply orb_true_iff in H as [H|H].
        + apply andb_true_iff in H as [H1 H2]. rewrite H1, H2. f_equal.
          clear - F. induction F as [|v w l l' H F IH]; [reflexivity|]. cbn [List.length]. rewrite IH. reflexivity.
        + cbv zeta. match goal with |- context [map ?f (snd x)] => assert (E : map f (snd x) = map f (snd y)) end.
          { apply (map_same (agree known)); [exact F|]. intros v w Av. apply Av, H. }
          rewrite E. replace (List.length (snd x)) with (List.length (snd y)); [reflexivity|].
          clear - F. induction F as [|v w l l' H F IH]; [reflexivity|]. cbn [List.length]. rewrite IH. reflexivity.
      - rewrite (Hsub q db cols known _ _ Hdb H A). reflexivity.
    Qed.

    Lemma over_agree : forall known (l : list (item_ Q)) ds v v', agree known v v' -> List.length ds = List.length l ->
      agree (or_item l known) (over_items g (map item_column l) ds v) (over_items g (map item_column l) ds v').
    Proof.
      intros known l ds v v' A L [|c [|c' n]] H; cbn [or_item over_items] in *; try (apply A, H).
      apply orb_true_iff in H as [H|H].
      - assert (E : exists d, column_value (map item_column l) ds c = Some d).
        { clear - H L. revert ds L. induction l as [|i l IH]; intros ds L; [discriminate|]. destruct ds as [|d ds]; [discriminate|].
          cbn [map column_value]. cbn [map has_col existsb] in H. destruct (String.eqb c (item_column i)); [eauto|].
          apply IH; [exact H|]. cbn in L. congruence. }
        destruct E as (d & ->). reflexivity.
      - rewrite (A [c] H). reflexivity.
    Qed.
    End Tables.

    Lemma with_agree : forall known v v' l (db : tabledb g) cols, (forall t, fst (db t) = cols t) -> agree known v v' ->
      with_closed csub columns l cols known = true ->
      with_tables g sub columns l db v = with_tables g sub columns l db v'
      /\ forall t, fst (with_tables g sub columns l db v t) = with_cols columns l cols t.
    Proof.
      intros known v v' l. induction l as [|(x & q) l IH]; intros db cols Hdb A H; cbn [with_tables with_cols with_closed] in *.
      - split; [reflexivity|exact Hdb].
      - apply andb_true_iff in H as [H H']. rewrite (Hsub q db cols known v v' Hdb H A). apply IH; [|exact A|exact H'].
        intro t. destruct (name_eqb [x] t); [reflexivity|apply Hdb].
    Qed.

    Lemma body_agree : forall known v v' b (db : tabledb g) cols, (forall t, fst (db t) = cols t) -> agree known v v' ->
      body_closed csub columns cols known b = true ->
      body_rows g sub columns b db v = body_rows g sub columns b db v'.
    Proof.
      intros known v v' b db0 cols0 Hdb A H. unfold body_closed in H. cbv zeta in H.
      repeat (apply andb_true_iff in H; destruct H as [H ?]).
      rename H into Hw, H6 into Hf, H5 into Hwh, H4 into Hg, H3 into Hh, H2 into Hi, H1 into Ho, H0 into Hd.
      destruct (with_agree known v v' (q_with b) db0 cols0 Hdb A Hw) as [Ew Hdb']. unfold body_rows. rewrite <- Ew. clear Ew.
      set (db := with_tables g sub columns (q_with b) db0 v) in *. clearbody db.
      set (cols := with_cols columns (q_with b) cols0) in *. clearbody cols.
      destruct (from_agree db cols Hdb' known v v' (q_joins b) (q_from b) A Hf) as [Ef Ff].
      set (inside := known_in cols known _) in *.
      assert (R0 : Forall2 (agree inside) (map (names_in v) (bfrom g sub db v (q_joins b) (q_from b)))
                                          (map (names_in v') (bfrom g sub db v' (q_joins b) (q_from b)))).
      { rewrite <- Ef. clear Ef. revert Ff. generalize (bfrom g sub db v (q_joins b) (q_from b)). intros l F.
        induction F as [|sc l S F IH]; [constructor|]. cbn [map]. constructor; [|exact IH].
        exact (inside_agree cols known v v' _ sc A S). }
      assert (R1 := filter_two _ _ _ _ _ R0 (fun x y Hxy => chosen_agree db cols Hdb' inside x y (q_where b) Hxy Hwh)).
      set (rows := filter _ (map (names_in v) _)) in *. set (rows' := filter _ (map (names_in v') _)) in *.
      clearbody rows rows'. clear R0 Ef Ff.
      set (ts := (q_from b ++ map (fun j => snd (fst j)) (q_joins b))%list).
      assert (B : agree inside (no_row g db v ts) (no_row g db v' ts)).
      { intros n Hn. unfold no_row. unfold inside in Hn. unfold known_in in Hn.
        apply (names_agree known v v' _ n A). apply orb_true_iff in Hn as [Hn|Hn]; [rewrite Hn; reflexivity|].
        apply orb_true_iff. right. rewrite (shape_rows db cols Hdb' ts).
        unfold ts. clear - Hn. destruct (q_from b); [cbn [app map knows] in Hn; destruct n as [|? [|? ?]]; discriminate|exact Hn]. }
      assert (R2 : Forall2 (agree_groups inside) (grouped g (q_group_by b) (q_items b) (no_row g db v ts) rows)
                                                 (grouped g (q_group_by b) (q_items b) (no_row g db v' ts) rows')).
      { unfold grouped. destruct (q_group_by b) as [|n ns] eqn:Eg.
        - destruct (aggregated (q_items b)).
          + constructor; [|constructor]. split; [|exact R1]. cbn [fst]. destruct R1; [exact B|assumption].
          + apply (map_two (agree inside) _ _ _ _ _ R1). intros x y Hxy. split; [exact Hxy|]. constructor; [exact Hxy|constructor].
        - unfold groups. assert (K : forall x y, agree inside x y -> map x (n :: ns) = map y (n :: ns)).
          { intros x y Hxy. apply map_ext_in. intros m Im. apply Hxy. rewrite forallb_forall in Hg. apply Hg, Im. }
          apply (map_two (agree inside) _ _ _ _ _ (firsts_two _ _ _ _ _ R1 K)). intros x y Hxy. split; [exact Hxy|]. cbn [snd].
          apply (filter_two _ _ _ _ _ R1). intros u w Huw. rewrite (K x y Hxy), (K u w Huw). reflexivity. }
      set (gs := grouped g _ _ (no_row g db v ts) rows) in *. set (gs' := grouped g _ _ (no_row g db v' ts) rows') in *. clearbody gs gs'.
      assert (R3 := filter_two _ _ _ _ _ R2 (fun x y Hxy => chosen_agree db cols Hdb' inside _ _ (q_having b) (proj1 Hxy) Hh)).
      set (kept := filter _ gs) in *. set (kept' := filter _ gs') in *. clearbody kept kept'.
      set (R := fun x y : bnaming g * list (bdatum g) => agree (or_item (q_items b) inside) (fst x) (fst y) /\ snd x = snd y).
      assert (R4 : Forall2 R
        (map (fun gr => let ds := bitems g sub db (q_items b) gr in (over_items g (map item_column (q_items b)) ds (fst gr), ds)) kept)
        (map (fun gr => let ds := bitems g sub db (q_items b) gr in (over_items g (map item_column (q_items b)) ds (fst gr), ds)) kept')).
      { apply (map_two _ _ _ _ _ _ R3). intros x y Hxy. cbv zeta. rewrite (items_agree db cols Hdb' inside _ x y Hxy Hi).
        split; [|reflexivity]. cbn [fst]. apply over_agree; [exact (proj1 Hxy)|]. unfold bitems. apply map_length. }
      set (shown := map _ kept) in *. set (shown' := map _ kept') in *. clearbody shown shown'.
      assert (R5 : Forall2 R (bsorted g (q_order_by b) shown) (bsorted g (q_order_by b) shown')).
      { unfold bsorted. destruct (q_order_by b) as [|o os]; [exact R4|].
        match goal with |- Forall2 _ (flat_map _ (bsort _ _ (map ?f _))) _ => assert (E : map f shown = map f shown') end.
        { apply (map_same R); [exact R4|]. intros x y [Hxy _]. apply map_ext_in. intros c Ic. apply Hxy.
          rewrite forallb_forall in Ho. exact (Ho c Ic). }
        rewrite E. apply nth_two, R4. }
      set (so := bsorted g _ shown) in *. set (so' := bsorted g _ shown') in *. clearbody so so'.
      assert (R6 : Forall2 R (match q_distinct_on b with [] => so | ns => firsts (fun x => map (fst x) ns) so end)
                             (match q_distinct_on b with [] => so' | ns => firsts (fun x => map (fst x) ns) so' end)).
      { destruct (q_distinct_on b) as [|n ns]; [exact R5|]. apply (firsts_two _ _ _ _ _ R5). intros x y [Hxy _].
        apply map_ext_in. intros m Im. apply Hxy. rewrite forallb_forall in Hd. exact (Hd m Im). }
      set (don := match q_distinct_on b with [] => so | ns => firsts (fun x => map (fst x) ns) so end) in *.
      set (don' := match q_distinct_on b with [] => so' | ns => firsts (fun x => map (fst x) ns) so' end) in *. clearbody don don'.
      replace (map snd don) with (map snd don'); [reflexivity|]. symmetry. apply (map_same R); [exact R6|]. intros x y [_ E]. exact E.
    Qed.
  End Nodes.

  Lemma closed_agree : forall n q (db : tabledb g) cols known v v', (forall t, fst (db t) = cols t) -> closed n cols known q = true ->
    agree known v v' -> means q db v = means q db v'.
  Proof.
    induction n as [|n IH]; intros [b] db cols known v v' Hdb H A; [discriminate|]. cbn [closed] in H.
    destruct (q_prefix b) eqn:E1; [|discriminate]. destruct (q_suffix b) eqn:E2; [|discriminate].
    rewrite !(means_body b db _ E1 E2). exact (body_agree means query_columns (closed n) IH known v v' b db cols Hdb A H).
  Qed.
End Agree.
