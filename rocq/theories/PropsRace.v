(* C38: rendering builders concurrently. *)
From Coq Require Import String List Arith ZArith Lia Permutation Bool.
From Verif Require Import Ast Write Api Build Sort Mem Forks MemP WhereP AssignP Race RaceP RaceRenderP.
Import ListNotations.
Local Open Scope list_scope.
Local Open Scope nat_scope.

Definition goroutines {O : Oracle} (bs : list (builder * method)) : list (prog answer) :=
  map (fun bf => render (fst bf) (snd bf)) bs.
(* What the calls answer one after the other, if nothing changes in between. *)
Definition expected {O : Oracle} (m : memory) (bs : list (builder * method)) : list answer :=
  map (fun bf => answers (m_stmt m (fst bf)) (snd bf)) bs.

Lemma nth_goroutines {O : Oracle} : forall bs i p, nth_error (goroutines bs) i = Some p ->
  exists b f, nth_error bs i = Some (b, f) /\ p = render b f.
Proof.
  intros bs i p H. unfold goroutines in H. rewrite nth_error_map in H.
  destruct (nth_error bs i) as [[b f]|]; [|discriminate H]. injection H as <-. exists b, f. split; reflexivity.
Qed.

Lemma solo_expected {O : Oracle} : forall m bs, (forall b f, In (b, f) bs -> small b) ->
  map (fun p => snd (solo m p)) (goroutines bs) = expected m bs.
Proof.
  intros m bs H. unfold goroutines, expected. rewrite map_map. apply map_ext_in. intros [b f] Hb.
  apply render_snd. exact (H b f Hb).
Qed.

(* ------------------------------------------------------------------------- *)
(* Select and Delete                                                           *)
(* ------------------------------------------------------------------------- *)

Definition is_read_only (b : builder) : Prop := match b with BSelect _ | BDelete _ => True | _ => False end.

(* Any number of goroutines that render Select and Delete builders, in any interleaving: at every
   moment the memory is what it was, and the calls answer what they answer one at a time. *)
Theorem C38_select_delete {O : Oracle} : forall m bs sched,
  (forall b f, In (b, f) bs -> is_read_only b) ->
  fst (interleave sched (m, goroutines bs)) = m
  /\ forall rs, snd (interleave sched (m, goroutines bs)) = map Ret rs -> rs = expected m bs.
Proof.
  intros m bs sched H.
  destruct (quiet_run sched m (goroutines bs)) as [E F].
  - intros i p Hp. destruct (nth_goroutines bs i p Hp) as (b & f & Hb & ->). apply quiet_render.
    specialize (H b f (nth_error_In _ _ Hb)). destruct b; try exact I; contradiction H.
  - split; [exact E|]. intros rs Hr. rewrite (F rs Hr). apply solo_expected. intros b f Hb.
    specialize (H b f Hb). destruct b; try exact I; contradiction H.
Qed.
Print Assumptions C38_select_delete.

(* From every point of every interleaving, the calls can return. *)
Theorem C38_return {O : Oracle} : forall m bs sched, exists more m' rs,
  interleave (sched ++ more) (m, goroutines bs) = (m', map Ret rs).
Proof.
  intros m bs sched. destruct (can_finish (interleave sched (m, goroutines bs))) as (more & m' & rs & E).
  exists more, m', rs. unfold interleave in *. rewrite fold_left_app. exact E.
Qed.
Print Assumptions C38_return.

(* ------------------------------------------------------------------------- *)
(* Update and Insert                                                           *)
(* ------------------------------------------------------------------------- *)

(* sort.Slice of Go 1.19 sorts slices of at most 12 elements by insertion. *)
Definition sorts_by_insertion {O : Oracle} : Prop := forall l, length l <= 12 -> o_sort l = insertion_sort l.
Definition at_most_12 (b : builder) : Prop := match sorts b with Some s => sl_len s <= 12 | None => True end.

(* A builder with an UPDATE SET in key-value syntax is sorted while it is rendered. When these
   builders have an array of columns each, the calls answer what they answer one at a time,
   whatever builders the other goroutines render. *)
Theorem C38_separate {O : Oracle} : forall m bs sched m' rs, sorts_by_insertion ->
  (forall b f, In (b, f) bs -> at_most_12 b) ->
  (forall i j bi fi bj fj s p, i <> j -> nth_error bs i = Some (bi, fi) -> nth_error bs j = Some (bj, fj) ->
     sorts bi = Some s -> set_of bj = Some p -> sl_ptr s <> sl_ptr (pr_cols p)) ->
  interleave sched (m, goroutines bs) = (m', map Ret rs) ->
  rs = expected m bs.
Proof.
  intros m bs sched m' rs S L A E.
  set (none := fun l : loc => False).
  set (U := fun i => match nth_error bs i with Some (b, _) => match set_of b, b with None, BInsert _ => none | _, _ => uses b end | None => none end).
  set (W := fun i => match nth_error bs i with Some (b, _) => writes b | None => none end).
  destruct (separated_run U W m (goroutines bs) sched m' rs) as (R & _ & _); [| |exact E|].
  - intros i j l Li Lj N Wl Ul. unfold goroutines in Li, Lj. rewrite map_length in Li, Lj. subst U W. cbv beta in *.
    destruct (nth_error bs i) as [[bi fi]|] eqn:Ei; [|exact Ul]. destruct (nth_error bs j) as [[bj fj]|] eqn:Ej; [|exact Wl].
    unfold writes in Wl. destruct (sorts bj) as [s|] eqn:Sj; [|exact Wl]. destruct Wl as (k & Lk & ->).
    assert (P : forall p, set_of bi = Some p -> ~ uses_set p (at_ RCols s k)).
    { intros p Hp [D|[(k' & _ & D)|(k' & _ & D)]]; try discriminate D. injection D as D _.
      exact (A j i bj fj bi fi s p (not_eq_sym N) Ej Ei Sj Hp D). }
    destruct bi as [b|b|b|d]; cbn [set_of uses] in *.
    + destruct Ul as [(k' & _ & D)|[(k' & _ & D)|(k' & _ & D)]]; discriminate D.
    + destruct (i_conflict_action (ir_rest b)) as [[|q]|]; try exact Ul. exact (P _ eq_refl Ul).
    + destruct Ul as [Ul|(k' & _ & D)]; [exact (P _ eq_refl Ul)|discriminate D].
    + exact Ul.
  - intros i p Hp. destruct (nth_goroutines bs i p Hp) as (b & f & Hb & ->). subst U W. cbv beta. rewrite Hb.
    destruct b as [b|b|b|d]; try apply within_render. cbn [set_of].
    destruct (i_conflict_action (ir_rest b)) as [[|q]|] eqn:Ea; try apply within_render.
    all: unfold render; apply within_bind; [|intro; exact I]; cbn [p_write]; unfold p_insert;
      destruct (no_str (t_name (i_into (ir_rest b)))); [exact I|]; apply within_cat; [exact I|]; apply within_cat; [|exact I];
      unfold p_conflict; rewrite Ea; exact I.
  - rewrite R. apply solo_expected. intros b f Hb. specialize (L b f Hb). unfold at_most_12 in L. unfold small.
    destruct (sorts b); [split; [exact S|exact L]|exact I].
Qed.
Print Assumptions C38_separate.

(* Any number of goroutines may render the same Update when its columns are already in order. *)
Theorem C38_in_order {O : Oracle} : forall m bs sched, sorts_by_insertion ->
  (forall b f, In (b, f) bs -> at_most_12 b) -> (forall b f, In (b, f) bs -> in_order m b) ->
  fst (interleave sched (m, goroutines bs)) = m
  /\ forall rs, snd (interleave sched (m, goroutines bs)) = map Ret rs -> rs = expected m bs.
Proof.
  intros m bs sched S L H. destruct (quiet_run sched m (goroutines bs)) as [E F].
  - intros i p Hp. destruct (nth_goroutines bs i p Hp) as (b & f & Hb & ->). apply quiet_render.
    exact (H b f (nth_error_In _ _ Hb)).
  - split; [exact E|]. intros rs Hr. rewrite (F rs Hr). apply solo_expected. intros b f Hb. specialize (L b f Hb).
    unfold at_most_12 in L. unfold small. destruct (sorts b); [split; [exact S|exact L]|exact I].
Qed.
Print Assumptions C38_in_order.

(* The columns are in order once the builder has been rendered. *)
Lemma pairwise_nth : forall (l : list column) d i, StronglySorted (fun a b => col_less b a = false) l -> S i < length l ->
  col_less (nth (S i) l d) (nth i l d) = false.
Proof.
  induction l as [|a l IH]; intros d i H L; [cbn in L; lia|]. inversion H as [|? ? Hl Ha]; subst.
  destruct i as [|i]; cbn [nth] in *.
  - rewrite Forall_forall in Ha. apply Ha. apply nth_In. cbn in L. lia.
  - apply IH; [exact Hl|cbn in L; lia].
Qed.

Lemma cat_ok : forall a b t, a +++ b = Ok t -> (exists x, a = Ok x) /\ (exists y, b = Ok y).
Proof.
  intros [x|e] b t H; [|discriminate H]. split; [exists x; reflexivity|]. destruct b as [y|e]; [exists y; reflexivity|discriminate H].
Qed.

Lemma after_update {O : Oracle} : forall m b f t, let p := ur_set b in
  pr_mode p = PAssoc -> write_update (m_update m b) = Ok t ->
  arr (fst (solo m (render (BUpdate b) f))) (pr_cols p) (sl_len (pr_cols p)) = insertion_sort (arr m (pr_cols p) (sl_len (pr_cols p)))
  /\ (forall l, (forall i, i < sl_len (pr_cols p) -> l <> at_ RCols (pr_cols p) i) -> fst (solo m (render (BUpdate b) f)) l = m l).
Proof.
  intros m b f t p M Wr.
  assert (G : exists m', arr m' (pr_cols p) (sl_len (pr_cols p)) = insertion_sort (arr m (pr_cols p) (sl_len (pr_cols p)))
     /\ (forall l, (forall i, i < sl_len (pr_cols p) -> l <> at_ RCols (pr_cols p) i) -> m' l = m l)
     /\ fst (solo m (render (BUpdate b) f)) = m').
  { destruct (sort_refines (pr_cols p) m) as (m' & Em & Ar & F). exists m'. split; [exact Ar|]. split; [exact F|].
    unfold render. rewrite solo_bind. cbn [solo fst p_write]. unfold p_update, p_empty. cbn [solo].
    rewrite (empty_spec (ur_set b) m).
    unfold write_update, m_update in Wr. cbn [upd_with_with upd_with_set u_table u_set u_with u_only] in Wr. fold p in Wr |- *.
    destruct (no_str (t_name (u_table (ur_rest b))) || pairs_empty (m_pairs m p)) eqn:T; [discriminate Wr|].
    apply orb_false_iff in T. destruct T as [T E].
    do 4 (apply cat_ok in Wr; destruct Wr as [(? & Wr) _]). apply cat_ok in Wr. destruct Wr as [(? & Wr) _].
    do 5 (apply cat_ok in Wr; destruct Wr as [(? & Wr) _]).
    assert (C : forall a c, quiet m a -> (exists t, snd (solo m a) = Ok t) -> fst (solo m (a >>> c)) = fst (solo m c)).
    { intros a c Q (t' & H). unfold p_cat. rewrite solo_bind, (quiet_solo a m Q), H. rewrite solo_bind. reflexivity. }
    assert (C' : forall a y, fst (solo m (a >>> Ret y)) = fst (solo m a)).
    { intros a y. unfold p_cat. rewrite solo_bind. destruct (snd (solo m a)); reflexivity. }
    rewrite C; [|apply reads_only_quiet, with_reads|].
    2: { rewrite with_snd. eexists. exact Wr. }
    rewrite C; [|exact I|].
    2: { cbn [solo snd]. unfold write_table, when. destruct (u_only (ur_rest b)), (t_only (u_table (ur_rest b))), (no_str (t_alias (u_table (ur_rest b)))); eexists; reflexivity. }
    rewrite C'. unfold p_set. rewrite C; [|exact I|eexists; reflexivity].
    unfold p_empty. cbn [solo]. rewrite (empty_spec p m), E, M, Em.
    rewrite quiet_solo by (apply reads_only_quiet, values_reads). reflexivity. }
  destruct G as (m' & Ar & F & Em). rewrite Em. split; [exact Ar|exact F].
Qed.

Lemma insertion_in_order : forall l P, (forall i, S i < length l -> col_less (nth (S i) l zero_column) (nth i l zero_column) = false) ->
  match P, l with y :: _, x :: _ => col_less x y = false | _, _ => True end ->
  fold_left (fun p x => insert_left x p) l P = rev l ++ P.
Proof.
  induction l as [|x l IH]; intros P H B; [reflexivity|]. cbn [fold_left rev].
  assert (E : insert_left x P = x :: P) by (destruct P as [|y P]; [reflexivity|]; cbn; rewrite B; reflexivity).
  rewrite E, IH.
  - rewrite <- app_assoc. reflexivity.
  - intros i L. apply (H (S i)). cbn. lia.
  - destruct l as [|z l]; [exact I|]. apply (H 0). cbn. lia.
Qed.
Lemma insertion_fixed : forall l, (forall i, S i < length l -> col_less (nth (S i) l zero_column) (nth i l zero_column) = false) ->
  insertion_sort l = l.
Proof.
  intros l H. unfold insertion_sort. rewrite insertion_in_order by (exact H || (destruct l; exact I)).
  rewrite app_nil_r. apply rev_involutive.
Qed.

Lemma arr_nth : forall m s n i, i < n -> nth i (arr m s n) zero_column = as_col (m (at_ RCols s i)).
Proof.
  intros m s n i L. unfold arr. rewrite (nth_indep _ zero_column (as_col (m (at_ RCols s 0)))) by (rewrite map_length, seq_length; exact L).
  rewrite (map_nth (fun i => as_col (m (at_ RCols s i)))), seq_nth by exact L. reflexivity.
Qed.

Lemma cells_ext : forall m m' r s, (forall i, m (at_ r s i) = m' (at_ r s i)) -> cells m r s = cells m' r s.
Proof. intros m m' r s H. unfold cells. apply map_ext. exact H. Qed.

(* An Update that has been rendered once, without aliases in its columns, may be rendered by any
   number of goroutines: the memory does not change any more, and all answer what the first one
   did. *)
Theorem C38_update_after_first {O : Oracle} : forall m b f bs sched r, sorts_by_insertion ->
  pr_mode (ur_set b) = PAssoc -> sl_len (pr_cols (ur_set b)) <= 12 -> unaliased (p_cols (u_set (m_update m b))) ->
  query (StUpdate (m_update m b)) = Ok r ->
  (forall b' f', In (b', f') bs -> b' = BUpdate b) ->
  let m1 := fst (solo m (render (BUpdate b) f)) in
  fst (interleave sched (m1, goroutines bs)) = m1
  /\ forall rs, snd (interleave sched (m1, goroutines bs)) = map Ret rs -> rs = expected m bs.
Proof.
  intros m b f bs sched r S M L U Q B m1.
  unfold query in Q. destruct (write_stmt (StUpdate (m_update m b))) as [t|] eqn:Wt; [|discriminate Q]. cbn [write_stmt] in Wt.
  destruct (after_update m b f t M Wt) as [Ar F]. fold m1 in Ar, F.
  set (s := pr_cols (ur_set b)) in *.
  assert (Ua : unaliased (arr m s (sl_len s))).
  { unfold m_update, m_pairs in U. cbn [upd_with_with upd_with_set u_set p_cols] in U. unfold cells in U. rewrite map_map in U. exact U. }
  assert (Ord : forall i, Datatypes.S i < sl_len s -> col_less (as_col (m1 (at_ RCols s (Datatypes.S i)))) (as_col (m1 (at_ RCols s i))) = false).
  { intros i Li. rewrite <- (arr_nth m1 s (sl_len s) (Datatypes.S i)) by lia. rewrite <- (arr_nth m1 s (sl_len s) i) by lia.
    rewrite Ar. apply pairwise_nth; [|rewrite <- Ar, arr_length; exact Li].
    apply (proj2 (insertion_contract (arr m s (sl_len s)))). apply unaliased_swo. exact Ua. }
  assert (IO : forall b' f', In (b', f') bs -> in_order m1 b').
  { intros b' f' Hb. rewrite (B b' f' Hb). unfold in_order, sorts, set_of. rewrite M. exact Ord. }
  assert (L12 : forall b' f', In (b', f') bs -> at_most_12 b').
  { intros b' f' Hb. rewrite (B b' f' Hb). unfold at_most_12, sorts, set_of. rewrite M. exact L. }
  destruct (C38_in_order m1 bs sched S L12 IO) as [E1 E2]. split; [exact E1|]. intros rs Hr. rewrite (E2 rs Hr).
  unfold expected. apply map_ext_in. intros [b' f'] Hb. rewrite (B b' f' Hb). cbn [fst snd m_stmt].
  assert (Same : write_stmt (StUpdate (m_update m1 b)) = write_stmt (StUpdate (m_update m b))).
  { cbn [write_stmt]. unfold m_update.
    assert (Cw : cells m1 RWiths (ur_withs b) = cells m RWiths (ur_withs b)) by (apply cells_ext; intro i; apply F; intros k _ D; discriminate D).
    rewrite Cw. unfold write_update. cbn [upd_with_with upd_with_set u_table u_set u_with u_only u_from u_where u_returning u_comment].
    assert (Em : m1 (map_loc (ur_set b)) = m (map_loc (ur_set b))) by (apply F; intros k _ D; discriminate D).
    assert (Ce : cells m1 RExprs (pr_exprs (ur_set b)) = cells m RExprs (pr_exprs (ur_set b))) by (apply cells_ext; intro i; apply F; intros k _ D; discriminate D).
    assert (Pe : pairs_empty (m_pairs m1 (ur_set b)) = pairs_empty (m_pairs m (ur_set b))).
    { unfold pairs_empty, m_pairs. cbn [p_mode p_map p_exprs]. rewrite Em, Ce. reflexivity. }
    assert (Ps : write_set (m_pairs m1 (ur_set b)) = write_set (m_pairs m (ur_set b))).
    { unfold write_set, write_pairs. rewrite Pe. destruct (pairs_empty (m_pairs m (ur_set b))); [reflexivity|].
      unfold pairs_values. cbn [p_mode p_map p_cols m_pairs]. rewrite M. unfold cells. rewrite !map_map.
      change (map (fun x => as_col (m (at_ RCols (pr_cols (ur_set b)) x))) (seq 0 (sl_len (pr_cols (ur_set b))))) with (arr m s (sl_len s)).
      change (map (fun x => as_col (m1 (at_ RCols (pr_cols (ur_set b)) x))) (seq 0 (sl_len (pr_cols (ur_set b))))) with (arr m1 s (sl_len s)).
      assert (Eo : o_sort (arr m1 s (sl_len s)) = o_sort (arr m s (sl_len s))).
      { rewrite !S by (rewrite arr_length; exact L). rewrite <- Ar. apply insertion_fixed. intros i Li. rewrite arr_length in Li.
        rewrite !arr_nth by lia. apply Ord. exact Li. }
      rewrite Eo, Em. reflexivity. }
    rewrite Pe, Ps. reflexivity. }
  destruct f'; unfold answers, query, named_query, to_string; rewrite Same; reflexivity.
Qed.
Print Assumptions C38_update_after_first.

(* Two goroutines that render the same Update for the first time: one reads the columns while the
   other swaps them, and its statement assigns b twice and a never. *)
Definition fresh_set : pairs_ref :=
  {| pr_mode := PAssoc; pr_map := 0; pr_cols := {| sl_ptr := 0; sl_len := 2; sl_cap := 2 |}; pr_exprs := nil_slice |}.
Definition two_columns : upd_heap :=
  {| uh_maps := [[(lk_column "b", EValue (GInt KInt 1)); (lk_column "a", EValue (GInt KInt 2))]];
     uh_cols := [[lk_column "b"; lk_column "a"]]; uh_exprs := []; uh_withs := [] |}.
Definition an_update : res upd_ref :=
  do u <- lk_update (GStr "t"); Ok {| ur_rest := u; ur_set := fresh_set; ur_withs := nil_slice |}.

Theorem C38_update_refuted : exists b sched m',
  an_update = Ok b
  (* the builder comes from Update(t).Set(b = 1).Set(a = 2) *)
  /\ map (option_map (fun u => query (O := go_oracle) (StUpdate u)))
       (upd_memory (O := go_oracle) go_growth [New (GStr "t"); Call 0 (UpdSet [GPair (GStr "b") (GInt KInt 1)]);
                                               Call 1 (UpdSet [GPair (GStr "a") (GInt KInt 2)]); Show 2])
     = [Some (query (O := go_oracle) (StUpdate (m_update (upd_mem two_columns) b)))]
  /\ query (O := go_oracle) (StUpdate (m_update (upd_mem two_columns) b))
     = Ok ("UPDATE ""t"" SET ""a"" = $1, ""b"" = $2", [GInt KInt 2; GInt KInt 1])%string
  /\ interleave sched (upd_mem two_columns, goroutines (O := go_oracle) [(BUpdate b, MQuery); (BUpdate b, MQuery)])
     = (m', [Ret (AQuery (Ok ("UPDATE ""t"" SET ""a"" = $1, ""b"" = $2", [GInt KInt 2; GInt KInt 1])));
             Ret (AQuery (Ok ("UPDATE ""t"" SET ""b"" = $1, ""b"" = $2", [GInt KInt 1; GInt KInt 1])))])%string.
Proof.
  eexists. exists (repeat 0 7 ++ repeat 1 8 ++ repeat 0 5). eexists.
  split; [vm_compute; reflexivity|]. split; [vm_compute; reflexivity|]. split; [vm_compute; reflexivity|].
  lazy. reflexivity.
Qed.
Print Assumptions C38_update_refuted.

(* ------------------------------------------------------------------------- *)
(* Deriving builders concurrently                                              *)
(* ------------------------------------------------------------------------- *)

Definition new_array (array n : nat) (l : loc) : Prop :=
  exists i, i <= n /\ l = {| l_region := RJoins; l_array := array; l_index := i |}.
Definition fork_writes (array : nat) (b : sel_ref) (l : loc) : Prop :=
  if sl_len (sr_joins b) <? sl_cap (sr_joins b) then l = at_ RJoins (sr_joins b) (sl_len (sr_joins b))
  else new_array array (sl_len (sr_joins b)) l.
Definition fork_uses (array : nat) (b : sel_ref) (l : loc) : Prop := uses (BSelect b) l \/ fork_writes array b l.

Lemma within_copy {R} : forall s array (U W : loc -> Prop) todo i (k : prog R), i + todo <= sl_len s ->
  (forall l, in_slice RJoins s l -> U l) -> (forall l, new_array array (sl_len s) l -> U l /\ W l) ->
  within U W k -> within U W (p_copy s array i todo k).
Proof.
  intros s array U W. induction todo as [|n IH]; intros i k L HU HN K; cbn [p_copy within]; [exact K|].
  split; [apply HU; exists i; split; [lia|reflexivity]|]. intro c.
  destruct (HN {| l_region := RJoins; l_array := array; l_index := i |}) as [A B]; [exists i; split; [lia|reflexivity]|].
  split; [exact A|]. split; [exact B|]. apply IH; [lia|exact HU|exact HN|exact K].
Qed.

Lemma within_derive {O : Oracle} : forall array cap b j f, within (fork_uses array b) (fork_writes array b) (derive array cap b j f).
Proof.
  intros array cap b j f. unfold derive, fork_uses, fork_writes.
  destruct (sl_len (sr_joins b) <? sl_cap (sr_joins b)) eqn:E.
  - cbn [within]. split; [right; reflexivity|]. split; [reflexivity|].
    apply (within_weaken _ _ _ _ _ (within_render _ f)); [|intros l []].
    intros l H. cbn [uses with_sr_joins sr_joins sr_orders sr_withs] in *. destruct H as [(i & Li & ->)|H]; [|tauto].
    cbn [sl_len] in Li. destruct (Nat.eq_dec i (sl_len (sr_joins b))) as [->|N]; [right; reflexivity|].
    left. left. exists i. split; [lia|reflexivity].
  - apply within_copy; [lia| | |].
    + intros l H. left. left. exact H.
    + intros l H. split; [right; exact H|exact H].
    + cbn [within].
      assert (N : new_array array (sl_len (sr_joins b)) {| l_region := RJoins; l_array := array; l_index := sl_len (sr_joins b) |})
        by (exists (sl_len (sr_joins b)); split; [lia|reflexivity]).
      split; [right; exact N|]. split; [exact N|].
      apply (within_weaken _ _ _ _ _ (within_render _ f)); [|intros l []].
      intros l H. cbn [uses with_sr_joins sr_joins sr_orders sr_withs] in *. destruct H as [(i & Li & ->)|H]; [|tauto].
      cbn [sl_len] in Li. right. exists i. split; [lia|reflexivity].
Qed.

Lemma copy_solo : forall s array todo i m, sl_ptr s <> array -> i + todo <= sl_len s ->
  exists m', (forall R (k : prog R), solo m (p_copy s array i todo k) = solo m' k)
   /\ (forall x, i <= x < i + todo -> m' {| l_region := RJoins; l_array := array; l_index := x |} = m (at_ RJoins s x))
   /\ (forall l, (forall x, i <= x < i + todo -> l <> {| l_region := RJoins; l_array := array; l_index := x |}) -> m' l = m l).
Proof.
  intros s array. induction todo as [|n IH]; intros i m N L.
  - exists m. split; [reflexivity|]. split; [intros x Hx; lia|reflexivity].
  - destruct (IH (S i) (write m {| l_region := RJoins; l_array := array; l_index := i |} (m (at_ RJoins s i))) N ltac:(lia)) as (m' & E & F & G).
    exists m'. split; [|split].
    + intros R k. cbn [p_copy solo]. apply E.
    + intros x Hx. destruct (Nat.eq_dec x i) as [->|D].
      * rewrite G; [apply write_eq|]. intros x Hx' D. injection D as D. lia.
      * rewrite F by lia. apply write_ne. intro D'. injection D' as D' _. congruence.
    + intros l Hl. rewrite G; [apply write_ne; apply Hl; lia|]. intros x Hx. apply Hl. lia.
Qed.

Lemma derive_solo {O : Oracle} : forall m array cap b j f, sl_ptr (sr_joins b) <> array ->
  snd (solo m (derive array cap b j f)) = job_answer m (Derive array cap b j f).
Proof.
  intros m array cap b j f N. unfold derive. cbn [job_answer].
  assert (K : forall m' s', sl_len s' = S (sl_len (sr_joins b)) ->
     map (fun i => m' (at_ RJoins s' i)) (seq 0 (S (sl_len (sr_joins b)))) = cells m RJoins (sr_joins b) ++ [CJoin j] ->
     (forall l, l_region l <> RJoins -> m' l = m l) ->
     snd (solo m' (render (BSelect (with_sr_joins b s')) f)) = answers (StSelect (with_joins (m_select m b) (s_joins (m_select m b) ++ [j]))) f).
  { intros m' s' L C D. rewrite render_snd by exact I. f_equal. cbn [m_stmt]. f_equal. unfold m_select.
    cbn [with_sr_joins sr_rest sr_joins sr_orders sr_withs].
    assert (Cj : cells m' RJoins s' = cells m RJoins (sr_joins b) ++ [CJoin j]) by (unfold cells at 1; rewrite L; exact C).
    assert (Co : cells m' ROrders (sr_orders b) = cells m ROrders (sr_orders b)) by (apply cells_ext; intro i; apply D; discriminate).
    assert (Cw : cells m' RWiths (sr_withs b) = cells m RWiths (sr_withs b)) by (apply cells_ext; intro i; apply D; discriminate).
    rewrite Cj, Co, Cw, map_app. reflexivity. }
  destruct (sl_len (sr_joins b) <? sl_cap (sr_joins b)) eqn:E.
  - cbn [solo]. apply K; [reflexivity| |].
    + rewrite seq_S, map_app. cbn [map Nat.add]. f_equal.
      * apply map_ext_in. intros i Hi. apply in_seq in Hi. apply write_ne. intro D. injection D as D. lia.
      * f_equal. apply write_eq.
    + intros l Hl. apply write_ne. intros ->. apply Hl. reflexivity.
  - destruct (copy_solo (sr_joins b) array (sl_len (sr_joins b)) 0 m N ltac:(lia)) as (m' & Em & F & G). rewrite Em. cbn [solo].
    apply K; [reflexivity| |].
    + rewrite seq_S, map_app. cbn [map Nat.add]. f_equal.
      * apply map_ext_in. intros i Hi. apply in_seq in Hi. rewrite write_ne by (intro D; injection D as D; lia). apply F. lia.
      * f_equal. apply write_eq.
    + intros l Hl. rewrite write_ne by (intros ->; apply Hl; reflexivity). apply G. intros x _ ->. apply Hl. reflexivity.
Qed.

(* Goroutines that render Select builders, while one of them first calls Join on a builder: all
   answer as if builders were values, if no builder has a longer view of the same array of joins
   than the one that is derived from, and a new array is new. *)
Theorem C38_one_derivation {O : Oracle} : forall m array cap b j f bs sched m' rs,
  sl_ptr (sr_joins b) <> array ->
  (forall b' f', In (b', f') bs -> sl_ptr (sr_joins b') <> array) ->
  (forall b' f', In (b', f') bs -> sl_ptr (sr_joins b') = sl_ptr (sr_joins b) -> sl_len (sr_joins b') <= sl_len (sr_joins b)) ->
  let ts := Derive array cap b j f :: map (fun bf => Render (BSelect (fst bf)) (snd bf)) bs in
  interleave sched (m, map run_job ts) = (m', map Ret rs) ->
  rs = map (job_answer m) ts.
Proof.
  intros m array cap b j f bs sched m' rs N A L ts E.
  set (none := fun l : loc => False).
  set (U := fun i => match i with 0 => fork_uses array b | S i => match nth_error bs i with Some (b', _) => uses (BSelect b') | None => none end end).
  set (W := fun i => match i with 0 => fork_writes array b | S _ => none end).
  destruct (separated_run U W m (map run_job ts) sched m' rs) as (R & _ & _); [| |exact E|].
  - intros [|i] [|k] l Li Lk D Wl Ul; subst U W; cbv beta iota in *; try (contradiction Wl). { exact (D eq_refl). }
    destruct (nth_error bs i) as [[b' f']|] eqn:Ei; [|exact Ul]. pose proof (nth_error_In _ _ Ei) as Hi.
    cbn [uses] in Ul. unfold fork_writes in Wl. destruct (sl_len (sr_joins b) <? sl_cap (sr_joins b)).
    + subst l. destruct Ul as [(x & Lx & H)|[(x & _ & H)|(x & _ & H)]]; try discriminate H. injection H as H1 H2.
      specialize (L b' f' Hi (eq_sym H1)). lia.
    + destruct Wl as (y & _ & ->). destruct Ul as [(x & Lx & H)|[(x & _ & H)|(x & _ & H)]]; try discriminate H. injection H as H1 _.
      exact (A b' f' Hi (eq_sym H1)).
  - intros [|i] p Hp; subst U W ts; cbn [map nth_error] in Hp; cbv beta iota.
    + injection Hp as <-. apply within_derive.
    + rewrite map_map, nth_error_map in Hp. destruct (nth_error bs i) as [[b' f']|]; [|discriminate Hp]. injection Hp as <-. cbn [fst snd run_job].
      apply (within_weaken _ _ _ _ _ (within_render (BSelect b') f')); [intros l H; exact H|intros l []].
  - rewrite R, map_map. apply map_ext_in. intros [b' f'|a' c' b' j' f'] Ht; cbn [run_job].
    + assert (Hs : is_read_only b').
      { destruct Ht as [Ht|Ht]; [discriminate Ht|]. apply in_map_iff in Ht. destruct Ht as ([x y] & Ht & _). injection Ht as <- <-. exact I. }
      apply render_snd. destruct b'; try exact I; contradiction Hs.
    + destruct Ht as [Ht|Ht]; [injection Ht as <- <- <- <- <-; apply derive_solo; exact N|].
      apply in_map_iff in Ht. destruct Ht as ([x y] & Ht & _). discriminate Ht.
Qed.
Print Assumptions C38_one_derivation.

(* Two goroutines that derive from the same builder: with room in the array, one may print the
   join of the other. *)
Definition base_heap : sel_heap :=
  {| sh_joins := [map (fun n => {| j_type := "INNER JOIN"; j_table := lk_table n; j_cond := ERaw "c" |}) ["a"; "b"; "c"; ""]%string];
     sh_orders := []; sh_withs := [] |}.
Definition base_select : res sel_ref :=
  do q <- lk_select [GStr "x"]; do q <- sel_step q (SelFrom [GStr "t"]);
  Ok {| sr_rest := q; sr_joins := {| sl_ptr := 0; sl_len := 3; sl_cap := 4 |}; sr_orders := nil_slice; sr_withs := nil_slice |}.

Theorem C37_concurrent_refuted : exists b sched m' q1 q2,
  let jn := fun n => {| j_type := "INNER JOIN"%string; j_table := lk_table n; j_cond := ERaw "c" |} in
  let ts := [Derive 1 8 b (jn "d"%string) MQuery; Derive 2 8 b (jn "e"%string) MQuery] in
  base_select = Ok b
  /\ map (job_answer (O := go_oracle) (sel_mem base_heap)) ts = [q1; q2] /\ q1 <> q2
  /\ interleave sched (sel_mem base_heap, map (run_job (O := go_oracle)) ts) = (m', [Ret q2; Ret q2]).
Proof.
  eexists. exists (0 :: 1 :: repeat 0 4 ++ repeat 1 4). eexists. eexists. eexists. cbv zeta.
  split; [vm_compute; reflexivity|]. split; [lazy; reflexivity|]. split; [discriminate|]. lazy. reflexivity.
Qed.
Print Assumptions C37_concurrent_refuted.

(* Examples: the hypotheses are met. *)
Example C38_select_delete_example : exists b d sched m' r1 r2 r3, base_select = Ok b
  /\ lk_delete (GStr "t") = Ok d
  /\ interleave sched (sel_mem base_heap, goroutines (O := go_oracle) [(BSelect b, MQuery); (BSelect b, MString); (BDelete d, MNamedQuery)])
     = (m', [Ret r1; Ret r2; Ret r3])
  /\ r1 = AQuery (Ok ("SELECT ""x"" FROM ""t"" INNER JOIN ""a"" ON c INNER JOIN ""b"" ON c INNER JOIN ""c"" ON c", []))%string.
Proof.
  eexists. eexists. exists [0; 1; 0; 1; 1; 0]. eexists. eexists. eexists. eexists. split; [vm_compute; reflexivity|]. split; [vm_compute; reflexivity|].
  split; [lazy; reflexivity|]. lazy. reflexivity.
Qed.
Example C38_small : sorts_by_insertion (O := go_oracle).
Proof. intros l _. reflexivity. Qed.
Example C38_update_example : exists b, an_update = Ok b /\ pr_mode (ur_set b) = PAssoc /\ sl_len (pr_cols (ur_set b)) <= 12
  /\ unaliased (p_cols (u_set (m_update (upd_mem two_columns) b)))
  /\ (exists r, query (O := go_oracle) (StUpdate (m_update (upd_mem two_columns) b)) = Ok r)
  /\ ~ in_order (upd_mem two_columns) (BUpdate b).
Proof.
  eexists. split; [vm_compute; reflexivity|]. split; [reflexivity|]. split; [cbn; lia|].
  split; [repeat constructor|]. split; [eexists; vm_compute; reflexivity|].
  intro H. specialize (H 0). cbn in H. specialize (H ltac:(lia)). discriminate H.
Qed.
Example C38_separate_example : exists b, an_update = Ok b
  /\ let b' := {| ur_rest := ur_rest b; ur_withs := ur_withs b;
                  ur_set := {| pr_mode := PAssoc; pr_map := 0; pr_cols := {| sl_ptr := 1; sl_len := 2; sl_cap := 2 |}; pr_exprs := nil_slice |} |} in
     let bs := [(BUpdate b, MQuery); (BUpdate b', MQuery)] in
     (forall x f, In (x, f) bs -> at_most_12 x)
     /\ (forall i j bi fi bj fj s p, i <> j -> nth_error bs i = Some (bi, fi) -> nth_error bs j = Some (bj, fj) ->
           sorts bi = Some s -> set_of bj = Some p -> sl_ptr s <> sl_ptr (pr_cols p)).
Proof.
  eexists. split; [vm_compute; reflexivity|]. cbv zeta. split.
  - intros x f [H|[H|[]]]; injection H as <- <-; cbn; lia.
  - intros [|[|[|i]]] [|[|[|j]]] bi fi bj fj s p N Ei Ej Si Pj; cbn in Ei, Ej; try discriminate Ei; try discriminate Ej; try (exfalso; apply N; reflexivity);
      injection Ei as <- <-; injection Ej as <- <-; cbn in Si, Pj; injection Si as <-; injection Pj as <-; cbn; discriminate.
Qed.
