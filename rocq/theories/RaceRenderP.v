(* The rendering programs of Race.v compute the renderings of the statements they find. *)
From Coq Require Import String List Arith ZArith Lia Permutation Bool.
From Verif Require Import Ast Write Api Build Sort Mem Forks MemP WhereP Race RaceP.
Import ListNotations.
Local Open Scope list_scope.
Local Open Scope nat_scope.

Lemma cat_panic : forall e b, Panic e +++ b = Panic e.
Proof. reflexivity. Qed.

Lemma cat_snd : forall a b m, quiet m a -> snd (solo m (a >>> b)) = snd (solo m a) +++ snd (solo m b).
Proof.
  intros a b m Q. unfold p_cat. rewrite solo_bind, (quiet_solo a m Q).
  destruct (snd (solo m a)) as [t|e]; [|reflexivity]. rewrite solo_bind. reflexivity.
Qed.

Lemma cat_snd_ret : forall a y m, snd (solo m (a >>> Ret y)) = snd (solo m a) +++ y.
Proof. intros a y m. unfold p_cat. rewrite solo_bind. destruct (snd (solo m a)) as [t|e]; reflexivity. Qed.

(* -- Loops ------------------------------------------------------------------ *)

Fixpoint spec_loop (pre : nat -> tr) (f : cell -> tr) (i : nat) (l : list cell) : tr :=
  match l with
  | [] => eps
  | c :: l' => pre i +++ f c +++ spec_loop pre f (S i) l'
  end.

Lemma loop_reads : forall pre f locs n i, reads_only (p_loop pre f locs i n).
Proof.
  induction n as [|n IH]; intro i; cbn [p_loop]; [exact I|]. intro c. apply reads_only_cat; [exact I|apply IH].
Qed.

Lemma loop_snd : forall pre f locs n i m,
  snd (solo m (p_loop pre f locs i n)) = spec_loop pre f i (map (fun j => m (locs j)) (seq i n)).
Proof.
  induction n as [|n IH]; intros i m; cbn [p_loop seq map spec_loop]; [reflexivity|].
  cbn [solo]. rewrite cat_snd by exact I. rewrite IH. reflexivity.
Qed.

Lemma spec_commas_more : forall f l i, spec_loop comma f (S i) l
  = match l with [] => eps | _ => w ", " +++ sep_by ", " (map f l) end.
Proof.
  induction l as [|c l IH]; intro i; [reflexivity|]. cbn [spec_loop comma]. rewrite IH.
  destruct l; cbn [map sep_by]; rewrite !cat_assoc; [|reflexivity].
  rewrite cat_eps_r. reflexivity.
Qed.
Lemma spec_commas : forall f l, spec_loop comma f 0 l = sep_by ", " (map f l).
Proof.
  intros f [|c l]; [reflexivity|]. cbn [spec_loop comma]. rewrite spec_commas_more, cat_eps_l.
  destruct l; cbn [map sep_by]; [apply cat_eps_r|]. rewrite !cat_assoc. reflexivity.
Qed.

Lemma list_snd : forall f r s m, snd (solo m (p_list f r s)) = sep_by ", " (map f (cells m r s)).
Proof. intros f r s m. unfold p_list. rewrite loop_snd, spec_commas. reflexivity. Qed.
Lemma list_reads : forall f r s, reads_only (p_list f r s).
Proof. intros f r s. apply loop_reads. Qed.

Lemma cells_length : forall m r s, length (cells m r s) = sl_len s.
Proof. intros m r s. unfold cells. rewrite map_length, seq_length. reflexivity. Qed.

Lemma nonempty_cells {A} : forall (f : cell -> A) m r s, nonempty (map f (cells m r s)) = negb (sl_len s =? 0).
Proof.
  intros f m r s. rewrite <- (cells_length m r s). destruct (cells m r s); reflexivity.
Qed.

Section Programs.
  Context {O : Oracle}.

  Lemma with_reads : forall s, reads_only (p_with s).
  Proof.
    intro s. unfold p_with. destruct (sl_len s); [exact I|].
    apply reads_only_cat; [exact I|]. apply reads_only_cat; [apply list_reads|exact I].
  Qed.

  Lemma with_snd : forall s m, snd (solo m (p_with s))
    = when (nonempty (map as_with (cells m RWiths s))) (write_with write_expr (map as_with (cells m RWiths s)) +++ w " ").
  Proof.
    intros s m. rewrite nonempty_cells. unfold p_with. destruct (sl_len s) as [|n] eqn:E; cbn [Nat.eqb negb when]; [reflexivity|].
    rewrite cat_snd by exact I. rewrite cat_snd_ret, list_snd. unfold write_with.
    rewrite nonempty_cells, E. cbn [Nat.eqb negb when]. rewrite map_map. rewrite cat_assoc. reflexivity.
  Qed.

  (* -- SELECT --------------------------------------------------------------- *)

  Lemma joins_spec : forall l i, spec_loop (fun _ => w " ") (fun c => write_join write_expr (as_join c)) i l
    = write_joins write_expr (map as_join l).
  Proof. induction l as [|c l IH]; intro i; cbn [spec_loop map write_joins]; [reflexivity|]. rewrite IH. reflexivity. Qed.

  Lemma select_reads : forall b, reads_only (p_select b).
  Proof.
    intro b. unfold p_select. destruct (nonempty (s_exprs (sr_rest b))); [|exact I].
    apply reads_only_cat; [exact I|]. apply reads_only_cat; [apply with_reads|]. apply reads_only_cat; [exact I|].
    apply reads_only_cat; [apply loop_reads|]. apply reads_only_cat; [exact I|]. apply reads_only_cat; [|exact I].
    destruct (sl_len (sr_orders b)); [exact I|]. apply reads_only_cat; [exact I|apply list_reads].
  Qed.

  Lemma select_snd : forall b m, snd (solo m (p_select b)) = write_select (m_select m b).
  Proof.
    intros b m. unfold p_select, write_select, write_select_with, m_select.
    cbn [with_shared with_with with_order_by with_joins s_exprs].
    destruct (nonempty (s_exprs (sr_rest b))) eqn:N; [|reflexivity].
    rewrite cat_snd by exact I.
    rewrite cat_snd by (apply reads_only_quiet, with_reads).
    rewrite cat_snd by exact I.
    rewrite cat_snd by (apply reads_only_quiet, loop_reads).
    rewrite cat_snd by exact I.
    rewrite cat_snd_ret, with_snd, loop_snd, joins_spec.
    assert (Ord : snd (solo m match sl_len (sr_orders b) with
                        | 0 => Ret eps
                        | S _ => Ret (w " " +++ w "ORDER BY ") >>> p_list (fun c => write_order (as_order c)) ROrders (sr_orders b)
                        end)
      = when (nonempty (map as_order (cells m ROrders (sr_orders b)))) (w " " +++ write_order_by (map as_order (cells m ROrders (sr_orders b))))).
    { unfold write_order_by. rewrite nonempty_cells. destruct (sl_len (sr_orders b)); cbn [Nat.eqb negb when]; [reflexivity|].
      rewrite cat_snd by exact I. rewrite list_snd, map_map. cbn [solo snd]. rewrite cat_assoc. reflexivity. }
    rewrite Ord. unfold write_head, write_middle, write_tail, with_shared, with_with, with_order_by, with_joins.
    cbn [s_prefix s_with s_distinct_on s_distinct s_exprs s_from s_joins s_where s_group_by s_having s_order_by s_limit s_offset s_suffix s_comment].
    rewrite N. unfold cells. cbn [snd solo]. rewrite !cat_assoc. reflexivity.
  Qed.

  (* -- The in-place sort ---------------------------------------------------- *)

  Definition arr (m : memory) (s : slice) (n : nat) : list column := map (fun i => as_col (m (at_ RCols s i))) (seq 0 n).

  Lemma arr_S : forall m s n, arr m s (S n) = arr m s n ++ [as_col (m (at_ RCols s n))].
  Proof. intros m s n. unfold arr. rewrite seq_S, map_app. reflexivity. Qed.
  Lemma arr_length : forall m s n, length (arr m s n) = n.
  Proof. intros m s n. unfold arr. rewrite map_length, seq_length. reflexivity. Qed.
  Lemma arr_ext : forall m m' s n, (forall i, i < n -> m (at_ RCols s i) = m' (at_ RCols s i)) -> arr m s n = arr m' s n.
  Proof.
    intros m m' s n H. unfold arr. apply map_ext_in. intros i Hi. apply in_seq in Hi. rewrite H by lia. reflexivity.
  Qed.

  Lemma at_inj : forall r s i j, at_ r s i = at_ r s j -> i = j.
  Proof. intros r s i j E. injection E as E. exact E. Qed.

  Lemma sift_solo : forall P s m x, arr m s (length P) = rev P -> as_col (m (at_ RCols s (length P))) = x ->
    exists m', (forall R (k : prog R), solo m (p_sift s (length P) k) = solo m' k)
      /\ arr m' s (S (length P)) = rev (insert_left x P)
      /\ (forall l, (forall i, i <= length P -> l <> at_ RCols s i) -> m' l = m l).
  Proof.
    induction P as [|y r IH]; intros s m x A X.
    - exists m. split; [reflexivity|]. split; [|reflexivity]. rewrite arr_S. cbn in *. rewrite X. reflexivity.
    - cbn [length] in *. cbn [p_sift insert_left]. rewrite arr_S in A. cbn [rev] in A.
      apply app_inj_tail in A. destruct A as [A Y].
      destruct (col_less x y) eqn:L.
      + set (m1 := write (write m (at_ RCols s (S (length r))) (m (at_ RCols s (length r)))) (at_ RCols s (length r)) (m (at_ RCols s (S (length r))))).
        assert (J : m1 (at_ RCols s (length r)) = m (at_ RCols s (S (length r)))) by apply write_eq.
        assert (J' : m1 (at_ RCols s (S (length r))) = m (at_ RCols s (length r))).
        { unfold m1. rewrite write_ne by (intro E; apply at_inj in E; lia). apply write_eq. }
        assert (J'' : forall l, l <> at_ RCols s (length r) -> l <> at_ RCols s (S (length r)) -> m1 l = m l).
        { intros l N1 N2. unfold m1. rewrite !write_ne by assumption. reflexivity. }
        destruct (IH s m1 x) as (m' & E & A' & F).
        { rewrite <- A. apply arr_ext. intros i Hi. apply J''; intro E; apply at_inj in E; lia. }
        { rewrite J. exact X. }
        exists m'. split; [|split].
        * intros R k. cbn [solo]. rewrite X, Y, L. cbn [solo]. fold m1. apply E.
        * rewrite arr_S, A'. cbn [rev]. f_equal. f_equal. rewrite F.
          -- rewrite J'. exact Y.
          -- intros i Hi E'. apply at_inj in E'. lia.
        * intros l Hl. rewrite F; [apply J''; apply Hl; lia|]. intros i Hi. apply Hl. lia.
      + exists m. split; [|split; [|reflexivity]].
        * intros R k. cbn [solo]. rewrite X, Y, L. reflexivity.
        * rewrite arr_S, X, arr_S, Y, A. cbn [rev]. reflexivity.
  Qed.

  Lemma insert_left_length : forall x P, length (insert_left x P) = S (length P).
  Proof. intros x P. induction P as [|y r IH]; cbn; [reflexivity|]. destruct (col_less x y); cbn; [rewrite IH|]; reflexivity. Qed.

  Lemma sort_solo : forall todo s m P, arr m s (length P) = rev P ->
    exists m', (forall R (k : prog R), solo m (p_sort s (length P) todo k) = solo m' k)
      /\ arr m' s (length P + todo)
         = rev (fold_left (fun p x => insert_left x p) (map (fun i => as_col (m (at_ RCols s i))) (seq (length P) todo)) P)
      /\ (forall l, (forall i, i < length P + todo -> l <> at_ RCols s i) -> m' l = m l).
  Proof.
    induction todo as [|n IH]; intros s m P A.
    - exists m. split; [reflexivity|]. split; [|reflexivity]. rewrite Nat.add_0_r. exact A.
    - destruct (sift_solo P s m _ A eq_refl) as (m1 & E1 & A1 & F1).
      rewrite <- (insert_left_length (as_col (m (at_ RCols s (length P)))) P) in A1.
      destruct (IH s m1 _ A1) as (m' & E & A' & F). rewrite insert_left_length in *.
      exists m'. split; [|split].
      + intros R k. cbn [p_sort]. rewrite E1. apply E.
      + rewrite Nat.add_succ_r. cbn [seq map fold_left]. rewrite <- Nat.add_succ_l. rewrite A'. f_equal. f_equal.
        apply map_ext_in. intros i Hi. apply in_seq in Hi. rewrite F1; [reflexivity|]. intros j Hj E'. apply at_inj in E'. lia.
      + intros l Hl. rewrite F; [|intros i Hi; apply Hl; lia]. apply F1. intros i Hi. apply Hl. lia.
  Qed.

  (* The whole sort. *)
  Lemma sort_refines : forall s m, exists m',
    (forall R (k : prog R), solo m (p_sort s 1 (sl_len s - 1) k) = solo m' k)
    /\ arr m' s (sl_len s) = insertion_sort (arr m s (sl_len s))
    /\ (forall l, (forall i, i < sl_len s -> l <> at_ RCols s i) -> m' l = m l).
  Proof.
    intros s m. destruct (sl_len s) as [|n] eqn:E.
    - exists m. split; [reflexivity|]. split; [reflexivity|]. reflexivity.
    - replace (S n - 1) with n by lia.
      destruct (sort_solo n s m [as_col (m (at_ RCols s 0))] eq_refl) as (m' & Em & A & F).
      exists m'. split; [exact Em|]. split; [|exact F].
      cbn [length Nat.add] in A. rewrite A. unfold insertion_sort, arr. cbn [seq map fold_left insert_left]. reflexivity.
  Qed.

  (* -- SET ------------------------------------------------------------------ *)

  Definition small_sort : Prop := forall l, length l <= 12 -> o_sort l = insertion_sort l.

  Lemma values_snd : forall p todo i m done,
    snd (solo m (p_values p i todo done))
    = do es <- map_res (fun c => match pm_get c (as_map (m (map_loc p))) with
                                 | Some e => Ok e
                                 | None => Panic (PMsg "loukoum: invalid state for stmt.PairContainer")
                                 end) (map (fun j => as_col (m (at_ RCols (pr_cols p) j))) (seq i todo));
      sep_by ", " (map write_pair (done ++ combine (map (fun j => as_col (m (at_ RCols (pr_cols p) j))) (seq i todo)) es)).
  Proof.
    intros p. induction todo as [|n IH]; intros i m done; cbn [p_values seq map map_res bind combine].
    - rewrite app_nil_r. reflexivity.
    - cbn [solo]. destruct (pm_get (as_col (m (at_ RCols (pr_cols p) i))) (as_map (m (map_loc p)))) as [e|]; [|reflexivity].
      cbn [bind]. rewrite IH. match goal with |- context [map_res ?f ?l] => destruct (map_res f l) as [es|]; [|reflexivity] end.
      cbn [bind combine]. rewrite <- app_assoc. reflexivity.
  Qed.

  Lemma values_reads : forall p todo i done, reads_only (p_values p i todo done).
  Proof.
    intros p. induction todo as [|n IH]; intros i done; cbn [p_values]; [exact I|]. intros c m.
    destruct (pm_get (as_col c) (as_map m)); [apply IH|exact I].
  Qed.

  Definition assoc_small (p : pairs_ref) : Prop := pr_mode p = PAssoc -> small_sort /\ sl_len (pr_cols p) <= 12.

  Lemma empty_spec : forall p m,
    match pr_mode p with
    | PUnknown => true
    | _ => negb (nonempty (as_map (m (map_loc p)))) && (sl_len (pr_exprs p) =? 0)
    end = pairs_empty (m_pairs m p).
  Proof.
    intros p m. unfold pairs_empty, m_pairs. cbn [p_mode p_map p_exprs]. rewrite nonempty_cells, negb_involutive. reflexivity.
  Qed.

  Lemma set_snd : forall p m, assoc_small p -> snd (solo m (p_set p)) = write_set (m_pairs m p).
  Proof.
    intros p m A. unfold p_set, write_set, write_pairs. rewrite cat_snd by exact I. f_equal. unfold p_empty. cbn [solo].
    rewrite empty_spec. destruct (pairs_empty (m_pairs m p)); [reflexivity|]. cbn [m_pairs p_mode].
    destruct (pr_mode p) eqn:M; [reflexivity| |].
    - destruct (sort_refines (pr_cols p) m) as (m' & E & Ar & F). rewrite E, values_snd. cbn [List.app].
      unfold pairs_values. cbn [p_mode m_pairs p_map p_cols]. rewrite M.
      assert (Em : m' (map_loc p) = m (map_loc p)) by (apply F; intros i _ H; discriminate H).
      rewrite Em. unfold cells. rewrite map_map. change (map (fun x => as_col (m (at_ RCols (pr_cols p) x))) (seq 0 (sl_len (pr_cols p)))) with (arr m (pr_cols p) (sl_len (pr_cols p))).
      change (map (fun x => as_col (m' (at_ RCols (pr_cols p) x))) (seq 0 (sl_len (pr_cols p)))) with (arr m' (pr_cols p) (sl_len (pr_cols p))).
      destruct (A M) as [S L]. rewrite Ar, S by (rewrite arr_length; exact L).
      match goal with |- context [map_res ?f ?l] => destruct (map_res f l) as [es|]; reflexivity end.
    - rewrite cat_snd by exact I. rewrite cat_snd by (apply reads_only_quiet, list_reads). rewrite cat_snd by exact I.
      rewrite cat_snd_ret, !list_snd. unfold write_columns. cbn [p_cols p_exprs m_pairs]. rewrite !map_map. cbn [solo snd]. rewrite !cat_assoc. reflexivity.
  Qed.

  (* -- UPDATE, INSERT ------------------------------------------------------- *)

  Lemma update_snd : forall b m, assoc_small (ur_set b) -> snd (solo m (p_update b)) = write_update (m_update m b).
  Proof.
    intros b m A. unfold p_update, write_update, p_empty. cbn [solo]. rewrite empty_spec.
    unfold m_update. cbn [upd_with_with upd_with_set u_table u_set].
    destruct (no_str (t_name (u_table (ur_rest b))) || pairs_empty (m_pairs m (ur_set b))); [reflexivity|].
    rewrite cat_snd by (apply reads_only_quiet, with_reads). rewrite cat_snd by exact I. rewrite cat_snd_ret, with_snd, set_snd by assumption.
    cbn [solo snd u_with u_only u_from u_where u_returning u_comment]. rewrite !cat_assoc. reflexivity.
  Qed.

  Lemma conflict_snd : forall b m, assoc_small (ir_set b) ->
    snd (solo m (p_conflict b)) = when (negb (conflict_empty (i_conflict_action (m_insert m b))))
      (w " " +++ write_conflict (i_conflict_target (ir_rest b)) (i_conflict_action (m_insert m b))).
  Proof.
    intros b m A. unfold p_conflict, m_insert. cbn [i_conflict_action].
    destruct (i_conflict_action (ir_rest b)) as [[|p]|]; [reflexivity| |reflexivity].
    unfold p_empty. cbn [solo]. rewrite empty_spec. cbn [conflict_empty action_empty write_conflict write_action].
    destruct (pairs_empty (m_pairs m (ir_set b))); [reflexivity|]. cbn [negb when].
    rewrite cat_snd by exact I. rewrite set_snd by assumption. cbn [solo snd]. rewrite !cat_assoc. reflexivity.
  Qed.

  Lemma insert_snd : forall b m, assoc_small (ir_set b) -> snd (solo m (p_insert b)) = write_insert (m_insert m b).
  Proof.
    intros b m A. unfold p_insert, write_insert.
    change (i_into (m_insert m b)) with (i_into (ir_rest b)). destruct (no_str (t_name (i_into (ir_rest b)))); [reflexivity|].
    rewrite cat_snd by exact I. rewrite cat_snd_ret, conflict_snd by assumption. cbn [solo snd].
    rewrite !cat_assoc. reflexivity.
  Qed.

  (* -- All builders --------------------------------------------------------- *)

  Definition small (b : builder) : Prop := match sorts b with Some s => small_sort /\ sl_len s <= 12 | None => True end.

  Lemma write_snd : forall b m, small b -> snd (solo m (p_write b)) = write_stmt (m_stmt m b).
  Proof.
    intros [b|b|b|d] m A; cbn [p_write m_stmt write_stmt].
    - apply select_snd.
    - destruct (i_conflict_action (ir_rest b)) as [[|p]|] eqn:E.
      2: { apply insert_snd. unfold small, sorts, set_of in A. rewrite E in A. intro M. rewrite M in A. exact A. }
      all: unfold p_insert, write_insert; change (i_into (m_insert m b)) with (i_into (ir_rest b));
        destruct (no_str (t_name (i_into (ir_rest b)))); [reflexivity|];
        rewrite cat_snd by exact I; rewrite cat_snd_ret; unfold p_conflict, m_insert; rewrite E; cbn [solo snd i_conflict_action];
        rewrite !cat_assoc; reflexivity.
    - apply update_snd. unfold small, sorts, set_of in A. intro M. rewrite M in A. exact A.
    - reflexivity.
  Qed.

  Lemma render_snd : forall b f m, small b -> snd (solo m (render b f)) = answers (m_stmt m b) f.
  Proof.
    intros b f m A. unfold render. rewrite solo_bind. cbn [solo snd]. rewrite write_snd by assumption.
    destruct f; reflexivity.
  Qed.

  (* -- Footprints ----------------------------------------------------------- *)

  (* The cells of a slice. *)
  Definition in_slice (r : region) (s : slice) (l : loc) : Prop := exists i, i < sl_len s /\ l = at_ r s i.

  Lemma within_cat : forall a b (U W : loc -> Prop), within U W a -> within U W b -> within U W (a >>> b).
  Proof.
    intros a b U W A B. apply within_bind; [exact A|]. intros [t|e]; [|exact I]. apply within_bind; [exact B|]. intro y. exact I.
  Qed.
  Lemma within_loop : forall pre f r s (U W : loc -> Prop) n i, i + n <= sl_len s -> (forall l, in_slice r s l -> U l) ->
    within U W (p_loop pre f (at_ r s) i n).
  Proof.
    intros pre f r s U W. induction n as [|n IH]; intros i L H; cbn [p_loop within]; [exact I|].
    split; [apply H; exists i; split; [lia|reflexivity]|]. intro c. apply within_cat; [exact I|]. apply IH; [lia|exact H].
  Qed.
  Lemma within_list : forall f r s (U W : loc -> Prop), (forall l, in_slice r s l -> U l) -> within U W (p_list f r s).
  Proof. intros f r s U W H. apply within_loop; [lia|exact H]. Qed.

  (* What a rendering uses and what it writes. *)
  Definition uses_set (p : pairs_ref) (l : loc) : Prop := l = map_loc p \/ in_slice RCols (pr_cols p) l \/ in_slice RExprs (pr_exprs p) l.
  Definition uses (b : builder) (l : loc) : Prop :=
    match b with
    | BSelect b => in_slice RJoins (sr_joins b) l \/ in_slice ROrders (sr_orders b) l \/ in_slice RWiths (sr_withs b) l
    | BInsert b => uses_set (ir_set b) l
    | BUpdate b => uses_set (ur_set b) l \/ in_slice RWiths (ur_withs b) l
    | BDelete _ => False
    end.
  Definition writes (b : builder) (l : loc) : Prop :=
    match sorts b with Some s => in_slice RCols s l | None => False end.

  Lemma within_weaken {R} : forall (p : prog R) (U W U' W' : loc -> Prop), within U W p ->
    (forall l, U l -> U' l) -> (forall l, W l -> W' l) -> within U' W' p.
  Proof.
    induction p as [r|l k IH|l c k IH]; intros U W U' W' H HU HW; cbn in *; [exact I| |].
    - destruct H as [Ul H]. split; [apply HU, Ul|]. intro c. apply (IH c U W); [apply H|exact HU|exact HW].
    - destruct H as (Ul & Wl & H). split; [apply HU, Ul|]. split; [apply HW, Wl|]. apply (IH U W); assumption.
  Qed.

  Lemma within_with : forall s (U W : loc -> Prop), (forall l, in_slice RWiths s l -> U l) -> within U W (p_with s).
  Proof.
    intros s U W H. unfold p_with. destruct (sl_len s) eqn:E; [exact I|].
    apply within_cat; [exact I|]. apply within_cat; [|exact I]. apply within_list. exact H.
  Qed.

  Lemma within_select : forall b W, within (uses (BSelect b)) W (p_select b).
  Proof.
    intros b W. unfold p_select. destruct (nonempty (s_exprs (sr_rest b))); [|exact I].
    apply within_cat; [exact I|]. apply within_cat; [apply within_with; cbn [uses]; intros l H; tauto|]. apply within_cat; [exact I|].
    apply within_cat; [apply within_loop; [lia|cbn [uses]; intros l H; tauto]|]. apply within_cat; [exact I|]. apply within_cat; [|exact I].
    destruct (sl_len (sr_orders b)); [exact I|]. apply within_cat; [exact I|apply within_list; cbn [uses]; intros l H; tauto].
  Qed.

  Lemma within_sift {R} : forall s (U W : loc -> Prop) j (k : prog R), j < sl_len s -> (forall l, in_slice RCols s l -> U l) ->
    (forall l, in_slice RCols s l -> W l) -> within U W k -> within U W (p_sift s j k).
  Proof.
    intros s U W. induction j as [|i IH]; intros k L HU HW K; cbn [p_sift within]; [exact K|].
    assert (I1 : in_slice RCols s (at_ RCols s (S i))) by (exists (S i); split; [exact L|reflexivity]).
    assert (I2 : in_slice RCols s (at_ RCols s i)) by (exists i; split; [lia|reflexivity]).
    split; [apply HU, I1|]. intro a. split; [apply HU, I2|]. intro b. destruct (col_less (as_col a) (as_col b)); [|exact K].
    cbn [within]. repeat (split; [first [apply HU, I1|apply HU, I2]|intro]).
    split; [apply HU, I1|]. split; [apply HW, I1|]. split; [apply HU, I2|]. split; [apply HW, I2|]. apply IH; [lia|exact HU|exact HW|exact K].
  Qed.
  Lemma within_sort {R} : forall s (U W : loc -> Prop) todo i (k : prog R), i + todo <= sl_len s -> (forall l, in_slice RCols s l -> U l) ->
    (forall l, in_slice RCols s l -> W l) -> within U W k -> within U W (p_sort s i todo k).
  Proof.
    intros s U W. induction todo as [|n IH]; intros i k L HU HW K; cbn [p_sort]; [exact K|].
    apply within_sift; [lia|exact HU|exact HW|]. apply IH; [lia|exact HU|exact HW|exact K].
  Qed.
  Lemma within_values : forall p W todo i done, i + todo <= sl_len (pr_cols p) -> within (uses_set p) W (p_values p i todo done).
  Proof.
    intros p W. induction todo as [|n IH]; intros i done L; cbn [p_values within]; [exact I|].
    split; [right; left; exists i; split; [lia|reflexivity]|]. intro c. split; [left; reflexivity|]. intro m.
    destruct (pm_get (as_col c) (as_map m)); [apply IH; lia|exact I].
  Qed.

  Lemma within_set : forall p (W : loc -> Prop), (pr_mode p = PAssoc -> forall l, in_slice RCols (pr_cols p) l -> W l) ->
    within (uses_set p) W (p_set p).
  Proof.
    intros p W H. unfold p_set, p_empty. apply within_cat; [exact I|]. cbn [within]. split; [left; reflexivity|]. intro c.
    match goal with |- within _ _ (if ?b then _ else _) => destruct b; [exact I|] end.
    destruct (pr_mode p) eqn:M; [exact I| |].
    - destruct (sl_len (pr_cols p)) as [|n] eqn:E; [cbn; exact I|]. apply within_sort.
      + lia.
      + intros l Hl. right. left. exact Hl.
      + exact (H eq_refl).
      + apply within_values. lia.
    - apply within_cat; [exact I|]. apply within_cat; [apply within_list; unfold uses_set; intros l Hl; tauto|]. apply within_cat; [exact I|].
      apply within_cat; [apply within_list; unfold uses_set; intros l Hl; tauto|exact I].
  Qed.

  Lemma within_write : forall b, within (uses b) (writes b) (p_write b).
  Proof.
    intros [b|b|b|d]; cbn [p_write].
    - apply within_select.
    - unfold p_insert. destruct (no_str (t_name (i_into (ir_rest b)))); [exact I|]. apply within_cat; [exact I|]. apply within_cat; [|exact I].
      unfold p_conflict, writes, sorts, set_of. destruct (i_conflict_action (ir_rest b)) as [[|p]|]; [exact I| |exact I].
      unfold p_empty. cbn [within uses]. split; [left; reflexivity|]. intro c.
      match goal with |- within _ _ (if ?b then _ else _) => destruct b; [exact I|] end.
      apply within_cat; [exact I|]. apply within_set. intros M. rewrite M. intros l Hl. exact Hl.
    - unfold p_update, p_empty. cbn [within uses]. split; [left; left; reflexivity|]. intro c.
      match goal with |- within _ _ (if ?b then _ else _) => destruct b; [exact I|] end.
      apply within_cat; [apply within_with; intros l Hl; right; exact Hl|]. apply within_cat; [exact I|]. apply within_cat; [|exact I].
      apply (within_weaken _ (uses_set (ur_set b)) (writes (BUpdate b))); [|intros l Hl; left; exact Hl|intros l Hl; exact Hl].
      apply within_set. unfold writes, sorts, set_of. intros M. rewrite M. intros l Hl. exact Hl.
    - exact I.
  Qed.

  Lemma within_render : forall b f, within (uses b) (writes b) (render b f).
  Proof. intros b f. apply within_bind; [apply within_write|]. intro t. exact I. Qed.

  (* A rendering that finds its columns sorted writes nothing. *)
  Definition in_order (m : memory) (b : builder) : Prop :=
    match sorts b with
    | Some s => forall i, S i < sl_len s -> col_less (as_col (m (at_ RCols s (S i)))) (as_col (m (at_ RCols s i))) = false
    | None => True
    end.

  Lemma quiet_sort {R} : forall s m todo i (k : prog R),
    (forall i, S i < sl_len s -> col_less (as_col (m (at_ RCols s (S i)))) (as_col (m (at_ RCols s i))) = false) ->
    i + todo <= sl_len s -> quiet m k -> quiet m (p_sort s i todo k).
  Proof.
    intros s m. induction todo as [|n IH]; intros i k H L K; cbn [p_sort]; [exact K|].
    destruct i as [|i]; cbn [p_sift]; [apply IH; [exact H|lia|exact K]|]. cbn [quiet]. rewrite H by lia.
    apply IH; [exact H|lia|exact K].
  Qed.

  Lemma quiet_cat : forall a b m, quiet m a -> quiet m b -> quiet m (a >>> b).
  Proof.
    intros a b m A B. apply quiet_bind; [exact A|]. destruct (snd (solo m a)); [|exact I].
    apply quiet_bind; [exact B|exact I].
  Qed.

  Lemma quiet_set : forall p m,
    (pr_mode p = PAssoc -> forall i, S i < sl_len (pr_cols p) ->
       col_less (as_col (m (at_ RCols (pr_cols p) (S i)))) (as_col (m (at_ RCols (pr_cols p) i))) = false) ->
    quiet m (p_set p).
  Proof.
    intros p m H. unfold p_set, p_empty. apply quiet_cat; [exact I|]. cbn [quiet].
    match goal with |- quiet _ (if ?b then _ else _) => destruct b; [exact I|] end.
    destruct (pr_mode p) eqn:M; [exact I| |].
    - destruct (sl_len (pr_cols p)) as [|n] eqn:E; [exact I|]. apply quiet_sort; [rewrite E; exact (H eq_refl)|lia|].
      apply reads_only_quiet, values_reads.
    - apply reads_only_quiet. apply reads_only_cat; [exact I|]. apply reads_only_cat; [apply list_reads|]. apply reads_only_cat; [exact I|].
      apply reads_only_cat; [apply list_reads|exact I].
  Qed.

  Lemma quiet_render : forall b f m, in_order m b -> quiet m (render b f).
  Proof.
    intros b f m H. unfold render. apply quiet_bind; [|exact I]. unfold in_order, sorts, set_of in H.
    destruct b as [b|b|b|d]; cbn [p_write].
    - apply reads_only_quiet, select_reads.
    - unfold p_insert. destruct (no_str (t_name (i_into (ir_rest b)))); [exact I|]. apply quiet_cat; [exact I|]. apply quiet_cat; [|exact I].
      unfold p_conflict. destruct (i_conflict_action (ir_rest b)) as [[|p]|]; [exact I| |exact I].
      unfold p_empty. cbn [quiet].
      match goal with |- quiet _ (if ?b then _ else _) => destruct b; [exact I|] end.
      apply quiet_cat; [exact I|]. apply quiet_set. intro M. rewrite M in H. exact H.
    - unfold p_update, p_empty. cbn [quiet].
      match goal with |- quiet _ (if ?b then _ else _) => destruct b; [exact I|] end.
      apply quiet_cat; [apply reads_only_quiet, with_reads|]. apply quiet_cat; [exact I|]. apply quiet_cat; [|exact I].
      apply quiet_set. intro M. rewrite M in H. exact H.
    - exact I.
  Qed.
End Programs.

(* The memories of Forks.v hold the same statements. *)
Lemma cells_view {A} : forall (m : memory) (r : region) (s : slice) (f : cell -> A) (h : list (list A)) (zero : A),
  (forall i, f (m (at_ r s i)) = nth i (nth (sl_ptr s) h []) zero) -> valid h s ->
  map f (cells m r s) = view h s.
Proof.
  intros m r s f h zero H V. unfold cells, view. rewrite map_map. rewrite (map_ext _ _ H).
  assert (G : forall (l : list A) n, n <= length l -> map (fun i => nth i l zero) (seq 0 n) = firstn n l).
  { clear. intros l n. induction n as [|n IH]; intro L; [reflexivity|]. rewrite seq_S, map_app, IH by lia. cbn [map Nat.add].
    clear IH. revert n L. induction l as [|x l IH]; intros n L; [cbn in L; lia|]. destruct n; [reflexivity|]. cbn [firstn nth List.app].
    f_equal. apply IH. cbn in L. lia. }
  apply G. destruct V as [[_ L] | (P & Ln & L)]; lia.
Qed.

Lemma sel_mem_view : forall h b, valid (sh_joins h) (sr_joins b) -> valid (sh_orders h) (sr_orders b) ->
  valid (sh_withs h) (sr_withs b) -> m_select (sel_mem h) b = sel_view h b.
Proof.
  intros h b V1 V2 V3. unfold m_select, sel_view.
  rewrite (cells_view (sel_mem h) RJoins (sr_joins b) as_join (sh_joins h) zero_join (fun _ => eq_refl) V1).
  rewrite (cells_view (sel_mem h) ROrders (sr_orders b) as_order (sh_orders h) zero_order (fun _ => eq_refl) V2).
  rewrite (cells_view (sel_mem h) RWiths (sr_withs b) as_with (sh_withs h) zero_withq (fun _ => eq_refl) V3).
  reflexivity.
Qed.

Lemma upd_mem_view : forall h b, valid (uh_cols h) (pr_cols (ur_set b)) -> valid (uh_exprs h) (pr_exprs (ur_set b)) ->
  valid (uh_withs h) (ur_withs b) -> m_update (upd_mem h) b = upd_view h b.
Proof.
  intros h b V1 V2 V3. unfold m_update, upd_view, m_pairs, pairs_view.
  rewrite (cells_view (upd_mem h) RCols _ as_col (uh_cols h) zero_column (fun _ => eq_refl) V1).
  rewrite (cells_view (upd_mem h) RExprs _ as_expr (uh_exprs h) ENil (fun _ => eq_refl) V2).
  rewrite (cells_view (upd_mem h) RWiths _ as_with (uh_withs h) zero_withq (fun _ => eq_refl) V3).
  reflexivity.
Qed.
