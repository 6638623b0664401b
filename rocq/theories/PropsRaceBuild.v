(* C60: goroutines that derive from shared Select builders. *)
From Coq Require Import String List Arith ZArith Lia.
From Verif Require Import Ast Write Api Build Sort Mem Forks MemP ForksP Race RaceP RaceRenderP RaceBuild RaceBuildP AssignP PropsRace PropsForksExact.
Import ListNotations.
Local Open Scope nat_scope.
Local Open Scope list_scope.

(* ------------------------------------------------------------------------- *)
(* Specification                                                               *)
(* ------------------------------------------------------------------------- *)

(* The allocator gives every goroutine arrays that nobody else has. *)
Definition new_arrays (ws : list worker) : Prop :=
  (forall t t' x y i j, nth_error ws t = Some x -> nth_error ws t' = Some y -> w_own x i = w_own y j -> t = t' /\ i = j)
  /\ (forall x y f i, In x ws -> In y ws -> sl_ptr (part_slice f (w_base x)) <> w_own y i).

(* Whoever appends in place to an array is the only one to do so, and nobody started from a builder
   with more elements in that array. *)
Definition one_extends (ws : list worker) : Prop :=
  forall t t' x y f, nth_error ws t = Some x -> nth_error ws t' = Some y -> t <> t' -> in_place f x ->
    sl_ptr (part_slice f (w_base y)) = sl_ptr (part_slice f (w_base x)) ->
    sl_len (part_slice f (w_base y)) <= sl_len (part_slice f (w_base x)) /\ ~ in_place f y.

Definition running {O : Oracle} (g : growth) (m : memory) (ws : list worker) (sched : list nat) : memory * list (prog answer) :=
  interleave sched (m, map (work g) ws).

(* ------------------------------------------------------------------------- *)
(* Any number of goroutines                                                    *)
(* ------------------------------------------------------------------------- *)

Definition no_worker : worker := {| w_base := {| sr_rest := new_select; sr_joins := nil_slice; sr_orders := nil_slice; sr_withs := nil_slice |};
  w_calls := []; w_method := MString; w_own := fun n => n |}.

Lemma part_region_inj : forall f f', part_region f = part_region f' -> f = f'.
Proof. intros [] [] H; try reflexivity; discriminate H. Qed.

Lemma uses_part : forall b l, uses (BSelect b) l -> exists f i, i < sl_len (part_slice f b) /\ l = cell_at (part_region f) (sl_ptr (part_slice f b)) i.
Proof.
  intros b l [(i & L & E)|[(i & L & E)|(i & L & E)]]; [exists Joins, i|exists Orders, i|exists Withs, i]; (split; [exact L|exact E]).
Qed.

Section Apart.
  Context (ws : list worker).
  Hypothesis (A : new_arrays ws) (One : one_extends ws).

  Lemma writes_apart : forall t t' x y l, nth_error ws t = Some x -> nth_error ws t' = Some y -> t <> t' ->
    w_writes x l -> w_uses y l -> False.
  Proof.
    intros t t' x y l X Y N Wl Ul. destruct A as [A1 A2].
    pose proof (nth_error_In _ _ X) as Ix. pose proof (nth_error_In _ _ Y) as Iy.
    destruct Wl as [(n & E)|(f & i & P & L & ->)].
    - destruct Ul as [Ul|[(n' & E')|(f & i & P & L & ->)]].
      + destruct (uses_part _ _ Ul) as (f & i & _ & ->). exact (A2 y x f n Iy Ix E).
      + destruct (A1 t t' x y n n' X Y); [congruence|contradiction].
      + exact (A2 y x f n Iy Ix E).
    - destruct Ul as [Ul|[(n' & E')|(f' & i' & P' & L' & E)]].
      + destruct (uses_part _ _ Ul) as (f' & i' & L' & E). apply cell_at_inj in E. destruct E as (E1 & E2 & <-).
        apply part_region_inj in E1. subst f'. destruct (One t t' x y f X Y N P (eq_sym E2)). lia.
      + exact (A2 x y f n' Ix Iy E').
      + apply cell_at_inj in E. destruct E as (E1 & E2 & <-). apply part_region_inj in E1. subst f'.
        destruct (One t t' x y f X Y N P (eq_sym E2)) as [_ H]. exact (H P').
  Qed.

  Lemma writes_base : forall t x y l, nth_error ws t = Some x -> In y ws -> w_writes x l -> uses (BSelect (w_base y)) l -> False.
  Proof.
    intros t x y l X Y Wl Ul. apply In_nth_error in Y. destruct Y as [t' Y]. destruct (Nat.eq_dec t t') as [<-|N].
    - rewrite X in Y. injection Y as <-. destruct A as [_ A2]. pose proof (nth_error_In _ _ X) as Ix.
      destruct (uses_part _ _ Ul) as (f & i & L & ->). destruct Wl as [(n & E)|(f' & i' & P & L' & E)]; [exact (A2 x x f n Ix Ix E)|].
      apply cell_at_inj in E. destruct E as (E1 & _ & <-). apply part_region_inj in E1. subst f'. lia.
    - exact (writes_apart t t' x y l X Y N Wl (or_introl Ul)).
  Qed.

  Context {O : Oracle} (g : growth) (m : memory).

  Lemma workers_inv : forall sched,
    inv (fun t => w_uses (nth t ws no_worker)) (fun t => w_writes (nth t ws no_worker)) m (map (work g) ws) (running g m ws sched).
  Proof.
    intro sched. apply inv_run.
    - intros i j l Li Lj N Wl Ul. rewrite map_length in Li, Lj.
      apply (writes_apart j i (nth j ws no_worker) (nth i ws no_worker) l); [apply nth_error_nth'; exact Lj|apply nth_error_nth'; exact Li|lia|exact Wl|exact Ul].
    - apply inv_start. intros i p Hp. rewrite nth_error_map in Hp. destruct (nth_error ws i) as [x|] eqn:X; [|discriminate Hp].
      injection Hp as <-. rewrite (nth_error_nth _ _ _ X). apply within_work.
  Qed.
End Apart.

(* At every moment of every schedule, a goroutine that has returned has answered as if builders were
   values, and the builders they started from hold what they held. *)
Theorem C60_derive {O : Oracle} : forall g m ws sched, new_arrays ws -> one_extends ws ->
  let s := running g m ws sched in
  (forall t x a, nth_error ws t = Some x -> nth_error (snd s) t = Some (Ret a) -> a = work_answer m x)
  /\ (forall x, In x ws -> m_select (fst s) (w_base x) = m_select m (w_base x)).
Proof.
  intros g m ws sched A One s. pose proof (workers_inv ws A One g m sched) as [L1 H1 H2 H3]. split.
  - intros t x a X Ea. destruct (H2 t (Ret a) (work g x) Ea) as [E _]; [rewrite nth_error_map, X; reflexivity|].
    cbn [solo snd] in E. rewrite E. destruct A as [A1 A2]. apply work_solo.
    + intros i j Hij. exact (proj2 (A1 t t x x i j X X Hij)).
    + intros f i. apply A2; exact (nth_error_In _ _ X).
  - intros x Ix.
    assert (K : forall f i, i < sl_len (part_slice f (w_base x)) ->
      fst s (at_ (part_region f) (part_slice f (w_base x)) i) = m (at_ (part_region f) (part_slice f (w_base x)) i)).
    { intros f i L. apply H3. intros t Lt Wl. rewrite map_length in Lt.
      apply (writes_base ws A One t (nth t ws no_worker) x (at_ (part_region f) (part_slice f (w_base x)) i)); [apply nth_error_nth'; exact Lt|exact Ix|exact Wl|].
      destruct f; [left|right; left|right; right]; exists i; (split; [exact L|reflexivity]). }
    unfold m_select, cells. f_equal; f_equal; apply map_ext_in; intros i Hi; apply in_seq in Hi; [apply (K Joins)|apply (K Orders)|apply (K Withs)]; apply Hi.
Qed.
Print Assumptions C60_derive.

(* A goroutine whose chain panics answers the panic of its own method. *)
Example C60_panicked : forall e,
  panicked MQuery e = AQuery (Panic e) /\ panicked MNamedQuery e = ANamed (Panic e) /\ panicked MString e = AString (Panic e).
Proof. intro e. repeat split. Qed.

(* From every moment, they can all return. *)
Theorem C60_return {O : Oracle} : forall g m ws sched, exists more m' rs, running g m ws (sched ++ more) = (m', map Ret rs).
Proof.
  intros g m ws sched. destruct (can_finish (running g m ws sched)) as (more & m' & rs & E).
  exists more, m', rs. unfold running, interleave in *. rewrite fold_left_app. exact E.
Qed.
Print Assumptions C60_return.

(* ------------------------------------------------------------------------- *)
(* One builder that any program has made                                       *)
(* ------------------------------------------------------------------------- *)

(* The call leaves the joins, the order and the WITH clause alone. *)
Definition changes_no_part (c : sel_call) : Prop := match c with SelJoin _ | SelOrderBy _ | SelWith _ => False | _ => True end.

Lemma first_added_plain : forall f cs, (forall c, In c cs -> changes_no_part c) -> first_added f cs = 0.
Proof.
  intros f. induction cs as [|c cs IH]; intro H; [reflexivity|]. cbn [first_added].
  assert (E : added f c = 0) by (specialize (H c (or_introl eq_refl)); destruct f, c; try reflexivity; contradiction H).
  rewrite E. apply IH. intros c' Hc. apply H. right. exact Hc.
Qed.

(* The goroutines derive from the builder number i of any program, with any chains of calls that
   leave these three parts alone. *)
Theorem C60_plain_calls {O : Oracle} : forall g p i b ws sched,
  nth i (snd (sel_after g p)) None = Some b ->
  new_arrays ws -> (forall x, In x ws -> w_base x = b /\ forall c, In c (w_calls x) -> changes_no_part c) ->
  forall t x a, nth_error ws t = Some x -> nth_error (snd (running g (sel_mem (fst (sel_after g p))) ws sched)) t = Some (Ret a) ->
  a = match sel_run (sel_view (fst (sel_after g p)) b) (w_calls x) with
      | Ok q => answers (StSelect q) (w_method x)
      | Panic e => panicked (w_method x) e
      end.
Proof.
  intros g p i b ws sched B A H t x a X Ea.
  assert (V : sel_valid (fst (sel_after g p)) b) by (apply sel_reachable with i; exact B).
  rewrite <- (sel_mem_view _ b (proj1 V) (proj1 (proj2 V)) (proj2 (proj2 V))).
  rewrite <- (proj1 (H x (nth_error_In _ _ X))).
  refine (proj1 (C60_derive g _ ws sched A _) t x a X Ea).
  intros t1 t2 y z f Y Z N (P & _) _. exfalso. rewrite first_added_plain in P; [lia|]. apply (H y (nth_error_In _ _ Y)).
Qed.
Print Assumptions C60_plain_calls.

(* With any calls, if the builder has no room: no joins and no orders, or full arrays. *)
Definition no_room (b : sel_ref) : Prop :=
  sl_len (sr_joins b) = sl_cap (sr_joins b) /\ sl_len (sr_orders b) = sl_cap (sr_orders b)
  /\ (sl_len (sr_withs b) = 0 \/ sl_len (sr_withs b) = sl_cap (sr_withs b)).

Theorem C60_no_room {O : Oracle} : forall g p i b ws sched,
  nth i (snd (sel_after g p)) None = Some b -> no_room b ->
  new_arrays ws -> (forall x, In x ws -> w_base x = b) ->
  forall t x a, nth_error ws t = Some x -> nth_error (snd (running g (sel_mem (fst (sel_after g p))) ws sched)) t = Some (Ret a) ->
  a = match sel_run (sel_view (fst (sel_after g p)) b) (w_calls x) with
      | Ok q => answers (StSelect q) (w_method x)
      | Panic e => panicked (w_method x) e
      end.
Proof.
  intros g p i b ws sched B (F1 & F2 & F3) A H t x a X Ea.
  assert (V : sel_valid (fst (sel_after g p)) b) by (apply sel_reachable with i; exact B).
  rewrite <- (sel_mem_view _ b (proj1 V) (proj1 (proj2 V)) (proj2 (proj2 V))).
  rewrite <- (H x (nth_error_In _ _ X)).
  refine (proj1 (C60_derive g _ ws sched A _) t x a X Ea).
  intros t1 t2 y z f Y Z N (P & R & Q) _. exfalso. rewrite (H y (nth_error_In _ _ Y)) in R, Q.
  destruct f; cbn [part_slice] in *; [lia|lia|]. destruct F3; lia.
Qed.
Print Assumptions C60_no_room.

(* A builder on which only calls that leave the three parts alone were made since Select. *)
Theorem C60_fresh_base {O : Oracle} : forall g args cs q ws sched m,
  (do q <- lk_select args; sel_run q cs) = Ok q -> (forall c, In c cs -> changes_no_part c) ->
  new_arrays ws ->
  (forall x, In x ws -> w_base x = {| sr_rest := q; sr_joins := nil_slice; sr_orders := nil_slice; sr_withs := nil_slice |}) ->
  forall t x a, nth_error ws t = Some x -> nth_error (snd (running g m ws sched)) t = Some (Ret a) ->
  a = match (do q <- lk_select args; sel_run q (cs ++ w_calls x)) with
      | Ok q => answers (StSelect q) (w_method x)
      | Panic e => panicked (w_method x) e
      end.
Proof.
  intros g args cs q ws sched m E P A H t x a X Ea.
  assert (R : a = work_answer m x).
  { refine (proj1 (C60_derive g m ws sched A _) t x a X Ea).
    intros t1 t2 y z f Y Z N (Q & R & _) _. exfalso. rewrite (H y (nth_error_In _ _ Y)) in R. destruct f; cbn in R, Q; lia. }
  rewrite R. unfold work_answer. rewrite (H x (nth_error_In _ _ X)).
  assert (S : s_joins q = [] /\ s_order_by q = [] /\ s_with q = []).
  { destruct (lk_select args) as [q0|e] eqn:E0; [|discriminate E]. cbn [bind] in E.
    assert (S0 : s_joins q0 = [] /\ s_order_by q0 = [] /\ s_with q0 = []).
    { pose proof (sel_step_shared new_select [] [] [] (SelColumns args) eq_refl) as Sh.
      change (with_shared new_select [] [] []) with new_select in Sh. unfold lk_select in E0. rewrite E0 in Sh. injection Sh as Sh. rewrite Sh. repeat split. }
    clear E0 A H R Ea X. revert q0 S0 E. unfold sel_run. induction cs as [|c cs IH]; intros q0 S0 E; cbn [fold_res] in E.
    - injection E as <-. exact S0.
    - destruct (sel_step q0 c) as [q1|e] eqn:E1; [|discriminate E]. cbn [bind] in E. apply (IH (fun c' Hc => P c' (or_intror Hc)) q1); [|exact E].
      assert (Pc : plain_call c = true) by (specialize (P c (or_introl eq_refl)); destruct c; try reflexivity; contradiction P).
      pose proof (sel_step_shared q0 [] [] [] c Pc) as Sh.
      replace (with_shared q0 [] [] []) with q0 in Sh by (destruct q0; cbn in *; destruct S0 as (-> & -> & ->); reflexivity).
      rewrite E1 in Sh. cbn [map_ok] in Sh. injection Sh as Sh. rewrite Sh. repeat split. }
  replace (m_select m {| sr_rest := q; sr_joins := nil_slice; sr_orders := nil_slice; sr_withs := nil_slice |}) with q
    by (destruct q; cbn in *; destruct S as (-> & -> & ->); reflexivity).
  destruct (lk_select args) as [q0|e]; [|discriminate E]. cbn [bind] in E |- *. unfold sel_run in *. rewrite fold_res_app, E. reflexivity.
Qed.
Print Assumptions C60_fresh_base.

(* ------------------------------------------------------------------------- *)
(* With room, two goroutines disturb each other                                *)
(* ------------------------------------------------------------------------- *)

Lemma run_alone {R} : forall (p : prog R) m ts i, nth_error ts i = Some p ->
  exists sched, interleave sched (m, ts) = (fst (solo m p), store ts i (Ret (snd (solo m p)))).
Proof.
  assert (S2 : forall (ts : list (prog R)) i p q, store (store ts i p) i q = store ts i q).
  { induction ts as [|t ts IH]; intros [|i] p q; cbn; try reflexivity. rewrite IH. reflexivity. }
  assert (S1 : forall (ts : list (prog R)) i p, nth_error ts i = Some p -> store ts i p = ts).
  { induction ts as [|t ts IH]; intros [|i] p E; cbn in *; try discriminate E; [injection E as ->; reflexivity|]. rewrite IH by exact E. reflexivity. }
  induction p as [r|l k IH|l c k IH]; intros m ts i E;
    assert (Li : i < length ts) by (apply nth_error_Some; rewrite E; discriminate).
  - exists []. cbn. rewrite (S1 ts i _ E). reflexivity.
  - destruct (IH (m l) m (store ts i (k (m l))) i) as (sched & H); [apply nth_error_store_eq; exact Li|].
    exists (i :: sched). cbn. unfold advance at 2. cbn [fst snd]. rewrite E. unfold interleave in H. rewrite H, S2. reflexivity.
  - destruct (IH (write m l c) (store ts i k) i) as (sched & H); [apply nth_error_store_eq; exact Li|].
    exists (i :: sched). cbn. unfold advance at 2. cbn [fst snd]. rewrite E. unfold interleave in H. rewrite H, S2. reflexivity.
Qed.

(* Two goroutines call Join on a builder whose array of joins has room: some schedule makes the first
   answer with the join of the second. *)
Theorem C60_room_refuted {O : Oracle} : forall g m b f args1 args2 j1 j2 own1 own2,
  join_value args1 = Ok j1 -> join_value args2 = Ok j2 -> sl_len (sr_joins b) < sl_cap (sr_joins b) ->
  let x := {| w_base := b; w_calls := [SelJoin args1]; w_method := f; w_own := own1 |} in
  let y := {| w_base := b; w_calls := [SelJoin args2]; w_method := f; w_own := own2 |} in
  exists sched m', running g m [x; y] sched = (m', [Ret (work_answer m y); Ret (work_answer m y)]).
Proof.
  intros g m b f args1 args2 j1 j2 own1 own2 J1 J2 Rm x y.
  set (s' := {| sl_ptr := sl_ptr (sr_joins b); sl_len := sl_len (sr_joins b) + 1; sl_cap := sl_cap (sr_joins b) |}).
  set (b' := {| sr_rest := sr_rest b; sr_joins := s'; sr_orders := sr_orders b; sr_withs := sr_withs b |}).
  set (l := cell_at RJoins (sl_ptr (sr_joins b)) (sl_len (sr_joins b))).
  assert (W : forall args j own, join_value args = Ok j ->
    work g {| w_base := b; w_calls := [SelJoin args]; w_method := f; w_own := own |} = Wr l (CJoin j) (render (BSelect b') f)).
  { intros args j own J. unfold work. cbn [w_own w_base w_calls w_method p_calls p_call]. rewrite J. unfold p_append. cbn [length].
    rewrite (proj2 (Nat.leb_le _ _)) by lia. reflexivity. }
  set (m2 := write (write m l (CJoin j1)) l (CJoin j2)).
  assert (Eq : m_select m2 b' = with_joins (m_select m b) (s_joins (m_select m b) ++ [j2])).
  { unfold m_select. cbn [b' sr_rest sr_joins sr_orders sr_withs].
    assert (Cj : cells m2 RJoins s' = cells m RJoins (sr_joins b) ++ [CJoin j2]).
    { rewrite (cells_split m2 RJoins s' [CJoin j2] (sl_len (sr_joins b))); [|reflexivity|].
      - f_equal. unfold cells. apply map_ext_in. intros i Hi. apply in_seq in Hi. unfold m2.
        rewrite !write_ne by (intro D; injection D as D; lia). reflexivity.
      - intros [|z] c Hz; cbn in Hz; [|destruct z; discriminate Hz]. injection Hz as <-. rewrite Nat.add_0_r. apply write_eq. }
    rewrite Cj, map_app. rewrite (cells_region m m2 ROrders), (cells_region m m2 RWiths); [reflexivity|..];
      intros l' Hl; unfold m2; rewrite !write_ne by (intros ->; discriminate Hl); reflexivity. }
  assert (Ans : forall m', (forall l', m' l' = m2 l') -> snd (solo m' (render (BSelect b') f)) = work_answer m y).
  { intros m' Hm. rewrite render_snd by exact I. unfold work_answer. cbn [w_base w_calls w_method y].
    unfold sel_run. cbn [fold_res sel_step]. rewrite sel_join_value, J2. cbn [map_ok bind]. f_equal. cbn [m_stmt]. f_equal.
    rewrite <- Eq. unfold m_select, cells. f_equal; f_equal; apply map_ext; intro i; apply Hm. }
  assert (Qu : forall m', fst (solo m' (render (BSelect b') f)) = m') by (intro m'; apply quiet_solo, quiet_render; exact I).
  destruct (run_alone (render (BSelect b') f) m2 [render (BSelect b') f; render (BSelect b') f] 0 eq_refl) as (sc1 & E1).
  destruct (run_alone (render (BSelect b') f) m2 [Ret (work_answer m y); render (BSelect b') f] 1 eq_refl) as (sc2 & E2).
  exists (0 :: 1 :: sc1 ++ sc2), m2. unfold running. cbn [map]. subst x y. rewrite (W args1 j1 own1 J1), (W args2 j2 own2 J2) in *.
  unfold interleave in *. cbn [fold_left]. unfold advance at 2 3. cbn [nth_error snd fst store]. fold m2.
  rewrite fold_left_app, E1, Qu, (Ans m2 (fun _ => eq_refl)). cbn [store]. rewrite E2, Qu, (Ans m2 (fun _ => eq_refl)). reflexivity.
Qed.
Print Assumptions C60_room_refuted.

(* ------------------------------------------------------------------------- *)
(* Examples: the hypotheses are met                                            *)
(* ------------------------------------------------------------------------- *)

Lemma new_arrays_stride : forall k ws d, 0 < k -> length ws <= k ->
  (forall t x, nth_error ws t = Some x -> w_own x = fun n => d + t + k * n) ->
  (forall x f, In x ws -> sl_ptr (part_slice f (w_base x)) < d) -> new_arrays ws.
Proof.
  intros k ws d K L H P. split.
  - intros t t' x y i j X Y E. rewrite (H t x X), (H t' y Y) in E. cbv beta in E.
    assert (Lt : t < length ws) by (apply nth_error_Some; rewrite X; discriminate).
    assert (Lt' : t' < length ws) by (apply nth_error_Some; rewrite Y; discriminate).
    assert (i = j).
    { destruct (Nat.lt_trichotomy i j) as [D|[D|D]]; [|exact D|]; exfalso.
      - assert (k * S i <= k * j) by (apply Nat.mul_le_mono_l; lia). rewrite Nat.mul_succ_r in *. lia.
      - assert (k * S j <= k * i) by (apply Nat.mul_le_mono_l; lia). rewrite Nat.mul_succ_r in *. lia. }
    subst j. split; [lia|reflexivity].
  - intros x y f i Ix Iy E. specialize (P x f Ix). apply In_nth_error in Iy. destruct Iy as [t Y]. rewrite (H t y Y) in E. cbv beta in E. lia.
Qed.

(* base.Join("d"), base.OrderBy(...).With(...), base: one appends in place, two allocate. *)
Definition example_join : list gval := [GStr "d"; GStr "c.id = d.id"].
Definition example_workers (b : sel_ref) : list worker :=
  [{| w_base := b; w_calls := [SelJoin example_join; SelLimit (GInt KInt 3)]; w_method := MQuery; w_own := fun n => 1 + 0 + 3 * n |};
   {| w_base := b; w_calls := [SelOrderBy [{| o_expr := "a"; o_type := "ASC" |}]; SelWith [{| wq_name := "w"; wq_sub := ERaw "SELECT 1" |}]];
      w_method := MNamedQuery; w_own := fun n => 1 + 1 + 3 * n |};
   {| w_base := b; w_calls := []; w_method := MString; w_own := fun n => 1 + 2 + 3 * n |}].

Example C60_derive_example : exists b, base_select = Ok b
  /\ new_arrays (example_workers b) /\ one_extends (example_workers b) /\ in_place Joins (nth 0 (example_workers b) no_worker)
  /\ map (work_answer (O := go_oracle) (sel_mem base_heap)) (example_workers b)
     = [AQuery (Ok ("SELECT ""x"" FROM ""t"" INNER JOIN ""a"" ON c INNER JOIN ""b"" ON c INNER JOIN ""c"" ON c INNER JOIN ""d"" ON ""c"".""id"" = ""d"".""id"" LIMIT 3", []));
        ANamed (Ok ("WITH w AS (SELECT 1) SELECT ""x"" FROM ""t"" INNER JOIN ""a"" ON c INNER JOIN ""b"" ON c INNER JOIN ""c"" ON c ORDER BY a ASC", []));
        AString (Ok "SELECT ""x"" FROM ""t"" INNER JOIN ""a"" ON c INNER JOIN ""b"" ON c INNER JOIN ""c"" ON c")]%string.
Proof.
  eexists. split; [vm_compute; reflexivity|]. split; [|split; [|split; [|lazy; reflexivity]]].
  - apply (new_arrays_stride 3 _ 1); [lia|cbn; lia| |].
    + intros [|[|[|t]]] x X; cbn in X; [injection X as <-; reflexivity..|destruct t; discriminate X].
    + intros x f [<-|[<-|[<-|[]]]]; destruct f; cbn; lia.
  - intros [|[|[|t]]] [|[|[|t']]] x y f X Y N (P & Q & R) E; cbn in X, Y;
      try (destruct t; discriminate X); try (destruct t'; discriminate Y); try (exfalso; apply N; reflexivity);
      injection X as <-; injection Y as <-; destruct f; cbn in P, Q, R |- *; try lia;
      (split; [lia|]; intros (P' & Q' & R'); cbn in P', Q', R'; lia).
  - split; [cbn; lia|]. split; [cbn; lia|exact I].
Qed.

(* A builder with two joins is full; two goroutines call Join on it. *)
Definition example_two_joins : list sel_cmd :=
  [New [GStr "x"]; Call 0 (SelFrom [GStr "t"]); Call 1 (SelJoin example_join); Call 2 (SelJoin example_join)].
Example C60_no_room_example : exists b,
  nth 3 (snd (sel_after go_growth example_two_joins)) None = Some b /\ no_room b /\ sl_len (sr_joins b) = 2
  /\ new_arrays [{| w_base := b; w_calls := [SelJoin example_join]; w_method := MQuery; w_own := fun n => 2 + 0 + 2 * n |};
                 {| w_base := b; w_calls := [SelJoin example_join; SelJoin example_join]; w_method := MString; w_own := fun n => 2 + 1 + 2 * n |}].
Proof.
  eexists. split; [vm_compute; reflexivity|]. split; [repeat split; left; reflexivity|]. split; [reflexivity|].
  apply (new_arrays_stride 2 _ 2); [lia|cbn; lia| |].
  - intros [|[|t]] x X; cbn in X; [injection X as <-; reflexivity..|destruct t; discriminate X].
  - intros x f [<-|[<-|[]]]; destruct f; cbn; lia.
Qed.

Example C60_fresh_base_example : exists q,
  (do q <- lk_select [GStr "x"]; sel_run q [SelFrom [GStr "t"]; SelLimit (GInt KInt 3)]) = Ok q
  /\ (forall c, In c [SelFrom [GStr "t"]; SelLimit (GInt KInt 3)] -> changes_no_part c).
Proof. eexists. split; [vm_compute; reflexivity|]. intros c [<-|[<-|[]]]; exact I. Qed.

(* The schedule of the refutation changes an answer. *)
Example C60_room_refuted_example : exists b, base_select = Ok b /\ sl_len (sr_joins b) < sl_cap (sr_joins b)
  /\ exists j1 j2, join_value example_join = Ok j1 /\ join_value [GStr "e"; GStr "c.id = e.id"] = Ok j2 /\ j1 <> j2.
Proof.
  eexists. split; [vm_compute; reflexivity|]. split; [cbn; lia|]. eexists. eexists. split; [vm_compute; reflexivity|].
  split; [vm_compute; reflexivity|]. discriminate.
Qed.
