(* Deriving Select builders in goroutines: what each access is, and what a goroutine computes alone. *)
From Coq Require Import List Arith ZArith Lia.
From Verif Require Import Ast Write Api Build Sort Mem Forks Race MemP ForksP RaceP RaceRenderP RaceBuild.
Import ListNotations.
Local Open Scope nat_scope.
Local Open Scope list_scope.

Definition cell_at (r : region) (array i : nat) : loc := {| l_region := r; l_array := array; l_index := i |}.

Lemma cell_at_inj : forall r a i r' a' i', cell_at r a i = cell_at r' a' i' -> r = r' /\ a = a' /\ i = i'.
Proof. intros r a i r' a' i' E. injection E as -> -> ->. repeat split. Qed.

(* ------------------------------------------------------------------------- *)
(* Accesses                                                                    *)
(* ------------------------------------------------------------------------- *)

Section Within.
  Context (U W : loc -> Prop).

  Lemma within_writes {R} : forall r array cs i (k : prog R),
    (forall x, i <= x < i + length cs -> U (cell_at r array x) /\ W (cell_at r array x)) ->
    within U W k -> within U W (p_writes r array i cs k).
  Proof.
    intros r array. induction cs as [|c cs IH]; intros i k H K; cbn [p_writes within]; [exact K|]. cbn [length] in H.
    destruct (H i ltac:(lia)) as [A B]. split; [exact A|]. split; [exact B|]. apply IH; [|exact K]. intros x Hx. apply H. lia.
  Qed.

  Lemma within_move {R} : forall r s array todo i (k : prog R), i + todo <= sl_len s ->
    (forall l, in_slice r s l -> U l) -> (forall x, U (cell_at r array x) /\ W (cell_at r array x)) ->
    within U W k -> within U W (p_move r s array i todo k).
  Proof.
    intros r s array. induction todo as [|n IH]; intros i k L HU HN K; cbn [p_move within]; [exact K|].
    split; [apply HU; exists i; split; [lia|reflexivity]|]. intro c. destruct (HN i) as [A B].
    split; [exact A|]. split; [exact B|]. apply IH; [lia|exact HU|exact HN|exact K].
  Qed.
End Within.

Section Accesses.
  Context {O : Oracle} (g : growth) (x : worker).
  Notation own := (w_own x).
  Notation base := (w_base x).

  (* The cells a goroutine writes: its own arrays, and what lies behind the elements of the base when
     it appends in place. *)
  Definition w_writes (l : loc) : Prop :=
    (exists n, l_array l = own n)
    \/ exists f i, in_place f x /\ sl_len (part_slice f base) <= i /\ l = cell_at (part_region f) (sl_ptr (part_slice f base)) i.
  Definition w_uses (l : loc) : Prop := uses (BSelect base) l \/ w_writes l.

  (* Where a part of the builder is while the calls [cs] remain. *)
  Definition place (f : part) (cs : list sel_call) (s : slice) : Prop :=
    let s0 := part_slice f base in
    (s = s0 /\ (0 < first_added f cs -> sl_len s0 + first_added f cs <= sl_cap s0 ->
                match f with Withs => 0 < sl_len s0 | _ => True end -> in_place f x))
    \/ (exists n, sl_ptr s = own n)
    \/ (in_place f x /\ sl_ptr s = sl_ptr s0 /\ sl_len s0 <= sl_len s).

  Lemma place_reads : forall f cs s l, place f cs s -> in_slice (part_region f) s l -> w_uses l.
  Proof.
    intros f cs s l P (i & L & ->). destruct P as [[-> _]|[(n & E)|(I & E & Ls)]].
    - left. cbn [uses]. destruct f; [left|right; left|right; right]; exists i; (split; [exact L|reflexivity]).
    - right. left. exists n. exact E.
    - unfold at_. rewrite E. destruct (Nat.lt_ge_cases i (sl_len (part_slice f base))) as [A|A].
      + left. cbn [uses]. destruct f; [left|right; left|right; right]; exists i; (split; [exact A|reflexivity]).
      + right. right. exists f, i. split; [exact I|]. split; [exact A|reflexivity].
  Qed.

  Lemma place_skip : forall f c cs s, added f c = 0 -> place f (c :: cs) s -> place f cs s.
  Proof. intros f c cs s A P. unfold place in *. cbn [first_added] in P. rewrite A in P. exact P. Qed.

  (* An append: the accesses are allowed and the result is in place again. *)
  Lemma within_append {R} : forall f c cs s xs n grow (k : slice -> nat -> prog R),
    place f (c :: cs) s -> length xs = added f c -> (f = Withs -> 0 < sl_len s) ->
    (forall s' n', place f cs s' -> within w_uses w_writes (k s' n')) ->
    within w_uses w_writes (p_append own grow (part_region f) s xs n k).
  Proof.
    intros f c cs s xs n grow k P L N K. unfold p_append. destruct (sl_len s + length xs <=? sl_cap s) eqn:E.
    - apply Nat.leb_le in E. destruct xs as [|y xs].
      { cbn [p_writes length]. apply K. rewrite Nat.add_0_r. apply place_skip with c; [symmetry; exact L|]. destruct s; exact P. }
      assert (A : (exists n, sl_ptr s = own n) \/ (in_place f x /\ sl_ptr s = sl_ptr (part_slice f base) /\ sl_len (part_slice f base) <= sl_len s)).
      { destruct P as [[-> H]|[H|H]]; [|left; exact H|right; exact H]. right. cbn [first_added] in H. rewrite <- L in H. cbn [length] in H, E.
        split; [|split; [reflexivity|lia]]. apply H; [lia|exact E|]. destruct f; try exact I. apply N. reflexivity. }
      apply within_writes.
      + intros i Hi. assert (W : w_writes (cell_at (part_region f) (sl_ptr s) i)).
        { destruct A as [(m & A)|(A1 & A2 & A3)]; [left; exists m; exact A|]. right. exists f, i. split; [exact A1|]. split; [lia|]. rewrite A2. reflexivity. }
        split; [right; exact W|exact W].
      + apply K. right. destruct A as [(m & A)|(A1 & A2 & A3)]; [left; exists m; exact A|]. right. cbn [sl_ptr sl_len]. split; [exact A1|]. split; [exact A2|lia].
    - assert (W : forall i, w_writes (cell_at (part_region f) (own n) i)) by (intro i; left; exists n; reflexivity).
      apply within_move; [lia| | |].
      + intros l H. apply place_reads with f (c :: cs) s; assumption.
      + intro i. split; [right; apply W|apply W].
      + apply within_writes; [intros i _; split; [right; apply W|apply W]|]. apply K. right. left. exists n. reflexivity.
  Qed.

  Definition placed (cs : list sel_call) (b : sel_ref) : Prop := forall f, place f cs (part_slice f b).

  Lemma within_call {R} : forall b n c cs (k : res sel_ref -> nat -> prog R), placed (c :: cs) b ->
    (forall b' n', placed cs b' -> within w_uses w_writes (k (Ok b') n')) ->
    (forall e n', within w_uses w_writes (k (Panic e) n')) ->
    within w_uses w_writes (p_call own g b n c k).
  Proof.
    intros b n c cs k P K Ke.
    assert (Pure : (forall f, added f c = 0) -> within w_uses w_writes (k (do q <- sel_step (sr_rest b) c;
       Ok {| sr_rest := q; sr_joins := sr_joins b; sr_orders := sr_orders b; sr_withs := sr_withs b |}) n)).
    { intro A. destruct (sel_step (sr_rest b) c) as [q|e]; cbn [bind]; [|apply Ke]. apply K.
      intro f. specialize (P f). apply (place_skip f c) in P; [|apply A]. destruct f; exact P. }
    destruct c; try (apply Pure; intros []; reflexivity); clear Pure; cbn [p_call].
    - destruct (join_value args) as [j|e]; [|apply Ke].
      apply (within_append Joins (SelJoin args) cs (sr_joins b) [CJoin j]); [exact (P Joins)|reflexivity|discriminate|].
      intros s' n' Ps. apply K. intros []; [exact Ps|apply (place_skip Orders (SelJoin args)), (P Orders)|apply (place_skip Withs (SelJoin args)), (P Withs)]; reflexivity.
    - destruct (sl_len (sr_withs b) =? 0) eqn:Z.
      + unfold p_args. assert (W : forall i, w_writes (cell_at RWiths (own n) i)) by (intro i; left; exists n; reflexivity).
        apply within_writes; [intros i _; split; [right; apply W|apply W]|]. apply K.
        intros []; [apply (place_skip Joins (SelWith args)), (P Joins); reflexivity|apply (place_skip Orders (SelWith args)), (P Orders); reflexivity|].
        right. left. exists n. reflexivity.
      + apply (within_append Withs (SelWith args) cs (sr_withs b) (map CWith args));
          [exact (P Withs)|apply map_length|intros _; apply Nat.eqb_neq in Z; lia|].
        intros s' n' Ps. apply K. intros []; [apply (place_skip Joins (SelWith args)), (P Joins)|apply (place_skip Orders (SelWith args)), (P Orders)|exact Ps]; reflexivity.
    - apply (within_append Orders (SelOrderBy orders) cs (sr_orders b) (map COrder orders)); [exact (P Orders)|apply map_length|discriminate|].
      intros s' n' Ps. apply K. intros []; [apply (place_skip Joins (SelOrderBy orders)), (P Joins)|exact Ps|apply (place_skip Withs (SelOrderBy orders)), (P Withs)]; reflexivity.
  Qed.

  Lemma within_calls {R} : forall cs b n (k : res sel_ref -> prog R), placed cs b ->
    (forall b', placed [] b' -> within w_uses w_writes (k (Ok b'))) -> (forall e, within w_uses w_writes (k (Panic e))) ->
    within w_uses w_writes (p_calls own g b n cs k).
  Proof.
    induction cs as [|c cs IH]; intros b n k P K Ke; cbn [p_calls]; [apply K; exact P|].
    apply within_call with cs; [exact P| |intros e n'; apply Ke].
    intros b' n' P'. apply IH; assumption.
  Qed.

  Lemma within_work : within w_uses w_writes (work g x).
  Proof.
    unfold work. apply within_calls.
    - intro f. left. split; [reflexivity|]. intros A B C. split; [exact A|]. split; [exact B|exact C].
    - intros b' P. apply (within_weaken _ _ _ _ _ (within_render (BSelect b') (w_method x))); [|intros l []].
      intros l [H|[H|H]]; [exact (place_reads Joins _ _ l (P Joins) H)|exact (place_reads Orders _ _ l (P Orders) H)|exact (place_reads Withs _ _ l (P Withs) H)].
    - intro e. exact I.
  Qed.
End Accesses.

(* ------------------------------------------------------------------------- *)
(* Alone                                                                       *)
(* ------------------------------------------------------------------------- *)

Lemma writes_solo {R} : forall r array cs i m (k : prog R), exists m',
  solo m (p_writes r array i cs k) = solo m' k
  /\ (forall x c, nth_error cs x = Some c -> m' (cell_at r array (i + x)) = c)
  /\ (forall l, (forall x, i <= x < i + length cs -> l <> cell_at r array x) -> m' l = m l).
Proof.
  intros r array. induction cs as [|c cs IH]; intros i m k.
  - exists m. split; [reflexivity|]. split; [intros [|x] c H; discriminate H|reflexivity].
  - destruct (IH (S i) (write m (cell_at r array i) c) k) as (m' & E & F & G). exists m'. split; [exact E|]. split.
    + intros [|y] c0 H; cbn [nth_error] in H.
      * injection H as <-. rewrite Nat.add_0_r. rewrite G; [apply write_eq|]. intros y Hy D. injection D as D. lia.
      * rewrite Nat.add_succ_r. apply F. exact H.
    + intros l Hl. rewrite G; [apply write_ne; apply Hl; cbn; lia|]. intros y Hy. apply Hl. cbn [length]. lia.
Qed.

Lemma move_solo {R} : forall r s array todo i m (k : prog R), sl_ptr s <> array -> exists m',
  solo m (p_move r s array i todo k) = solo m' k
  /\ (forall x, i <= x < i + todo -> m' (cell_at r array x) = m (at_ r s x))
  /\ (forall l, (forall x, i <= x < i + todo -> l <> cell_at r array x) -> m' l = m l).
Proof.
  intros r s array. induction todo as [|n IH]; intros i m k N.
  - exists m. split; [reflexivity|]. split; [intros x Hx; lia|reflexivity].
  - destruct (IH (S i) (write m (cell_at r array i) (m (at_ r s i))) k N) as (m' & E & F & G).
    exists m'. split; [exact E|]. split.
    + intros x Hx. destruct (Nat.eq_dec x i) as [->|D].
      * rewrite G; [apply write_eq|]. intros y Hy D. injection D as D. lia.
      * rewrite F by lia. apply write_ne. intro D'. injection D' as D' _. congruence.
    + intros l Hl. rewrite G; [apply write_ne; apply Hl; lia|]. intros x Hx. apply Hl. lia.
Qed.

Lemma cells_split : forall m r s xs n, sl_len s = n + length xs ->
  (forall x c, nth_error xs x = Some c -> m (at_ r s (n + x)) = c) ->
  cells m r s = map (fun i => m (at_ r s i)) (seq 0 n) ++ xs.
Proof.
  intros m r s xs n L H. unfold cells. rewrite L, seq_app, map_app. f_equal. cbn [Nat.add].
  clear L. revert n H. induction xs as [|c xs IH]; intros n H; [reflexivity|]. cbn [length seq map]. f_equal.
  - rewrite <- (Nat.add_0_r n). apply H. reflexivity.
  - apply IH. intros x d Hx. rewrite Nat.add_succ_comm. apply H. exact Hx.
Qed.

(* What an append does: the result has the elements and xs, other regions and arrays and what lies
   before are as they were. *)
Lemma append_solo {R} : forall own grow r s xs n m (k : slice -> nat -> prog R), sl_ptr s <> own n ->
  exists m' s' n', solo m (p_append own grow r s xs n k) = solo m' (k s' n')
  /\ cells m' r s' = cells m r s ++ xs /\ n <= n' /\ (sl_ptr s' = sl_ptr s \/ sl_ptr s' = own n /\ n < n')
  /\ (forall l, l_region l <> r -> m' l = m l).
Proof.
  intros own grow r s xs n m k N. unfold p_append. destruct (sl_len s + length xs <=? sl_cap s) eqn:E.
  - destruct (writes_solo r (sl_ptr s) xs (sl_len s) m (k {| sl_ptr := sl_ptr s; sl_len := sl_len s + length xs; sl_cap := sl_cap s |} n)) as (m' & S & F & G).
    exists m'. eexists. exists n. split; [exact S|]. split; [|split; [lia|split; [left; reflexivity|]]].
    + rewrite (cells_split m' r _ xs (sl_len s)); [|reflexivity|exact F]. f_equal. unfold cells. apply map_ext_in. intros i Hi. apply in_seq in Hi.
      apply G. intros y Hy D. injection D as D. lia.
    + intros l Hl. apply G. intros y Hy ->. apply Hl. reflexivity.
  - destruct (move_solo r s (own n) (sl_len s) 0 m (p_writes r (own n) (sl_len s) xs (k {| sl_ptr := own n; sl_len := sl_len s + length xs; sl_cap := Nat.max (sl_len s + length xs) (grow (sl_cap s) (sl_len s + length xs)) |} (S n))) N) as (m1 & S1 & F1 & G1).
    destruct (writes_solo r (own n) xs (sl_len s) m1 (k {| sl_ptr := own n; sl_len := sl_len s + length xs; sl_cap := Nat.max (sl_len s + length xs) (grow (sl_cap s) (sl_len s + length xs)) |} (S n))) as (m2 & S2 & F2 & G2).
    exists m2. eexists. exists (S n). split; [rewrite S1; exact S2|]. split; [|split; [lia|split; [right; split; [reflexivity|lia]|]]].
    + rewrite (cells_split m2 r _ xs (sl_len s)); [|reflexivity|exact F2]. f_equal. unfold cells. apply map_ext_in. intros i Hi. apply in_seq in Hi.
      unfold at_ at 1. cbn [sl_ptr]. change {| l_region := r; l_array := own n; l_index := i |} with (cell_at r (own n) i).
      rewrite G2; [apply F1; lia|]. intros y Hy D. apply cell_at_inj in D. lia.
    + intros l Hl. rewrite G2; [apply G1; intros y Hy ->; apply Hl; reflexivity|]. intros y Hy ->. apply Hl. reflexivity.
Qed.

Lemma cells_region : forall m m' r s, (forall l, l_region l = r -> m' l = m l) -> cells m' r s = cells m r s.
Proof. intros m m' r s H. unfold cells. apply map_ext. intro i. apply H. reflexivity. Qed.

Section Alone.
  Context {O : Oracle} (g : growth) (own : nat -> nat).
  Hypothesis own_inj : forall i j, own i = own j -> i = j.

  (* No part is in an array that is still to be allocated. *)
  Definition unused (b : sel_ref) (n : nat) : Prop := forall f i, n <= i -> sl_ptr (part_slice f b) <> own i.

  Lemma call_solo {R} : forall b n c m (k : res sel_ref -> nat -> prog R), unused b n ->
    match sel_step (m_select m b) c with
    | Ok q => exists m' b' n', solo m (p_call own g b n c k) = solo m' (k (Ok b') n') /\ m_select m' b' = q /\ unused b' n'
    | Panic e => exists m' n', solo m (p_call own g b n c k) = solo m' (k (Panic e) n')
    end.
  Proof.
    intros b n c m k Un.
    assert (Pl : plain_call c = true -> match sel_step (m_select m b) c with
      | Ok q => exists m' b' n', solo m (k (do q <- sel_step (sr_rest b) c;
         Ok {| sr_rest := q; sr_joins := sr_joins b; sr_orders := sr_orders b; sr_withs := sr_withs b |}) n) = solo m' (k (Ok b') n') /\ m_select m' b' = q /\ unused b' n'
      | Panic e => exists m' n', solo m (k (do q <- sel_step (sr_rest b) c;
         Ok {| sr_rest := q; sr_joins := sr_joins b; sr_orders := sr_orders b; sr_withs := sr_withs b |}) n) = solo m' (k (Panic e) n')
      end).
    { intro P. unfold m_select at 1. rewrite (sel_step_shared (sr_rest b) _ _ _ c P).
      destruct (sel_step (sr_rest b) c) as [q|e]; cbn [map_ok bind].
      - exists m, {| sr_rest := q; sr_joins := sr_joins b; sr_orders := sr_orders b; sr_withs := sr_withs b |}, n. split; [reflexivity|]. split; [reflexivity|].
        intros f i L. specialize (Un f i L). destruct f; exact Un.
      - exists m, n. reflexivity. }
    destruct c; try (apply Pl; reflexivity); clear Pl; cbn [sel_step p_call].
    - rewrite sel_join_value. destruct (join_value args) as [j|e]; cbn [map_ok]; [|exists m, n; reflexivity].
      destruct (append_solo own (g_joins g) RJoins (sr_joins b) [CJoin j] n m
        (fun s n' => k (Ok {| sr_rest := sr_rest b; sr_joins := s; sr_orders := sr_orders b; sr_withs := sr_withs b |}) n') (Un Joins n (le_n n)))
        as (m' & s' & n' & E & C & L & Ps & D).
      exists m', {| sr_rest := sr_rest b; sr_joins := s'; sr_orders := sr_orders b; sr_withs := sr_withs b |}, n'. split; [exact E|]. split.
      + unfold m_select. cbn [sr_rest sr_joins sr_orders sr_withs]. rewrite C, map_app.
        rewrite (cells_region m m' ROrders), (cells_region m m' RWiths) by (intros l Hl; apply D; rewrite Hl; discriminate). reflexivity.
      + intros f i Li. destruct f; [|apply (Un Orders); lia|apply (Un Withs); lia]. cbn [part_slice sr_joins].
        destruct Ps as [->|[-> Ln]]; [apply (Un Joins); lia|]. intro X. apply own_inj in X. lia.
    - unfold p_args. destruct (sl_len (sr_withs b) =? 0) eqn:Z.
      + apply Nat.eqb_eq in Z.
        assert (Em : nonempty (s_with (m_select m b)) = false) by (cbn [m_select with_shared with_with s_with]; rewrite nonempty_cells, Z; reflexivity).
        rewrite Em.
        destruct (writes_solo RWiths (own n) (map CWith args) 0 m
          (k (Ok {| sr_rest := sr_rest b; sr_joins := sr_joins b; sr_orders := sr_orders b;
                    sr_withs := {| sl_ptr := own n; sl_len := length (map CWith args); sl_cap := length (map CWith args) |} |}) (S n))) as (m' & E & F & G).
        eexists. eexists. eexists. split; [exact E|]. split.
        * unfold m_select. cbn [sr_rest sr_joins sr_orders sr_withs].
          rewrite (cells_split m' RWiths _ (map CWith args) 0); [|reflexivity|exact F]. cbn [seq map app].
          rewrite (cells_region m m' ROrders), (cells_region m m' RJoins) by (intros l Hl; apply G; intros y Hy ->; discriminate Hl).
          rewrite map_map. cbn [as_with]. rewrite map_id. reflexivity.
        * intros f i Li. destruct f; [apply (Un Joins); lia|apply (Un Orders); lia|]. cbn [part_slice sr_withs sl_ptr]. intro X. apply own_inj in X. lia.
      + assert (Em : nonempty (s_with (m_select m b)) = true) by (cbn [m_select with_shared with_with s_with]; rewrite nonempty_cells, Z; reflexivity).
        rewrite Em.
        destruct (append_solo own (g_withs g) RWiths (sr_withs b) (map CWith args) n m
          (fun s n' => k (Ok {| sr_rest := sr_rest b; sr_joins := sr_joins b; sr_orders := sr_orders b; sr_withs := s |}) n') (Un Withs n (le_n n)))
          as (m' & s' & n' & E & C & L & Ps & D).
        exists m', {| sr_rest := sr_rest b; sr_joins := sr_joins b; sr_orders := sr_orders b; sr_withs := s' |}, n'. split; [exact E|]. split.
        * unfold m_select. cbn [sr_rest sr_joins sr_orders sr_withs]. rewrite C, map_app, map_map. cbn [as_with]. rewrite map_id.
          rewrite (cells_region m m' ROrders), (cells_region m m' RJoins) by (intros l Hl; apply D; rewrite Hl; discriminate). reflexivity.
        * intros f i Li. destruct f; [apply (Un Joins); lia|apply (Un Orders); lia|]. cbn [part_slice sr_withs].
          destruct Ps as [->|[-> Ln]]; [apply (Un Withs); lia|]. intro X. apply own_inj in X. lia.
    - destruct (append_solo own (g_orders g) ROrders (sr_orders b) (map COrder orders) n m
        (fun s n' => k (Ok {| sr_rest := sr_rest b; sr_joins := sr_joins b; sr_orders := s; sr_withs := sr_withs b |}) n') (Un Orders n (le_n n)))
        as (m' & s' & n' & E & C & L & Ps & D).
      exists m', {| sr_rest := sr_rest b; sr_joins := sr_joins b; sr_orders := s'; sr_withs := sr_withs b |}, n'. split; [exact E|]. split.
      + unfold m_select. cbn [sr_rest sr_joins sr_orders sr_withs]. rewrite C, map_app, map_map. cbn [as_order]. rewrite map_id.
        rewrite (cells_region m m' RJoins), (cells_region m m' RWiths) by (intros l Hl; apply D; rewrite Hl; discriminate). reflexivity.
      + intros f i Li. destruct f; [apply (Un Joins); lia| |apply (Un Withs); lia]. cbn [part_slice sr_orders].
        destruct Ps as [->|[-> Ln]]; [apply (Un Orders); lia|]. intro X. apply own_inj in X. lia.
  Qed.

  Lemma calls_solo {R} : forall cs b n m (k : res sel_ref -> prog R), unused b n ->
    match sel_run (m_select m b) cs with
    | Ok q => exists m' b', solo m (p_calls own g b n cs k) = solo m' (k (Ok b')) /\ m_select m' b' = q
    | Panic e => exists m', solo m (p_calls own g b n cs k) = solo m' (k (Panic e))
    end.
  Proof.
    unfold sel_run. induction cs as [|c cs IH]; intros b n m k Un; cbn [fold_res p_calls].
    - exists m, b. split; reflexivity.
    - pose proof (call_solo b n c m (fun r n' => match r with Ok b' => p_calls own g b' n' cs k | Panic e => k (Panic e) end) Un) as H.
      destruct (sel_step (m_select m b) c) as [q|e]; cbn [bind].
      + destruct H as (m1 & b1 & n1 & E & <- & U1). specialize (IH b1 n1 m1 k U1).
        destruct (fold_res sel_step cs (m_select m1 b1)) as [q|e].
        * destruct IH as (m' & b' & E' & Q). exists m', b'. split; [rewrite E; exact E'|exact Q].
        * destruct IH as (m' & E'). exists m'. rewrite E. exact E'.
      + destruct H as (m1 & n1 & E). exists m1. exact E.
  Qed.
End Alone.

Lemma work_solo {O : Oracle} : forall g m x, (forall i j, w_own x i = w_own x j -> i = j) ->
  (forall f i, sl_ptr (part_slice f (w_base x)) <> w_own x i) ->
  snd (solo m (work g x)) = work_answer m x.
Proof.
  intros g m x Inj Un. unfold work, work_answer.
  pose proof (calls_solo g (w_own x) Inj (w_calls x) (w_base x) 0 m
    (fun r => match r with Ok b => render (BSelect b) (w_method x) | Panic e => Ret (panicked (w_method x) e) end) (fun f i _ => Un f i)) as H.
  destruct (sel_run (m_select m (w_base x)) (w_calls x)) as [q|e].
  - destruct H as (m' & b' & -> & <-). apply (render_snd (BSelect b')). exact I.
  - destruct H as (m' & ->). reflexivity.
Qed.
