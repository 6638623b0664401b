(* C60: goroutines that derive from shared builders of any kind with calls that leave the shared
   arrays alone. *)
From Coq Require Import String List Arith ZArith Lia Permutation Bool.
From Verif Require Import Ast Write Api Build Sort Mem Forks MemP ForksP UpdForksP WhereP AssignP Race RaceP RaceRenderP RaceBuild PropsRace PropsRaceBuild.
Import ListNotations.
Local Open Scope nat_scope.
Local Open Scope list_scope.

(* A shared builder and the calls of one goroutine. *)
Inductive chain :=
| ChSelect (b : sel_ref) (cs : list sel_call)
| ChUpdate (b : upd_ref) (cs : list upd_call)
| ChInsert (b : ins_ref) (cs : list ins_call)
| ChDelete (d : delete) (cs : list del_call).

Definition start (x : chain) : builder :=
  match x with ChSelect b _ => BSelect b | ChUpdate b _ => BUpdate b | ChInsert b _ => BInsert b | ChDelete d _ => BDelete d end.

(* The calls that extend or write what other builders may share are left out: Join, OrderBy and With;
   Set, Using and With; OnConflict. *)
Definition leaves_shared (x : chain) : Prop :=
  match x with
  | ChSelect _ cs => forall c, In c cs -> changes_no_part c
  | ChUpdate _ cs => forall c, In c cs -> match c with UpdSet _ | UpdUsing _ | UpdWith _ => False | _ => True end
  | ChInsert _ cs => forall c, In c cs -> match c with InsOnConflict _ => False | _ => True end
  | ChDelete _ _ => True
  end.

Section Chains.
  Context {O : Oracle}.

  (* builder/select.go, update.go, insert.go, delete.go: these methods copy the struct and assign its
     fields. *)
  Definition derived (x : chain) : res builder :=
    match x with
    | ChSelect b cs => do q <- sel_run (sr_rest b) cs;
        Ok (BSelect {| sr_rest := q; sr_joins := sr_joins b; sr_orders := sr_orders b; sr_withs := sr_withs b |})
    | ChUpdate b cs => do u <- upd_run (ur_rest b) cs; Ok (BUpdate {| ur_rest := u; ur_set := ur_set b; ur_withs := ur_withs b |})
    | ChInsert b cs => do i <- ins_run (ir_rest b) cs; Ok (BInsert {| ir_rest := i; ir_set := ir_set b |})
    | ChDelete d cs => do d <- del_run d cs; Ok (BDelete d)
    end.

  (* go func() { base.c1(...).c2(...).Query() }() *)
  Definition chain_work (x : chain) (f : method) : prog answer :=
    match derived x with Ok b => render b f | Panic e => Ret (panicked f e) end.

  (* The same calls on the statement that the builder holds. *)
  Definition chain_value (m : memory) (x : chain) : res stmt :=
    match x with
    | ChSelect b cs => do q <- sel_run (m_select m b) cs; Ok (StSelect q)
    | ChUpdate b cs => do u <- upd_run (m_update m b) cs; Ok (StUpdate u)
    | ChInsert b cs => do i <- ins_run (m_insert m b) cs; Ok (StInsert i)
    | ChDelete d cs => do d <- del_run d cs; Ok (StDelete d)
    end.
  Definition chain_answer (m : memory) (x : chain) (f : method) : answer :=
    match chain_value m x with Ok s => answers s f | Panic e => panicked f e end.

  Lemma fold_lift {A B C} (step : A -> C -> res A) (lift : A -> B) (step' : B -> C -> res B) (P : C -> Prop) :
    (forall a c, P c -> step' (lift a) c = map_ok lift (step a c)) ->
    forall cs a, (forall c, In c cs -> P c) -> fold_res step' cs (lift a) = map_ok lift (fold_res step cs a).
  Proof.
    intros H. induction cs as [|c cs IH]; intros a Pc; cbn [fold_res]; [reflexivity|].
    rewrite H by (apply Pc; left; reflexivity). destruct (step a c) as [a'|e]; cbn [map_ok bind]; [|reflexivity].
    apply IH. intros c' Hc. apply Pc. right. exact Hc.
  Qed.

  Lemma ins_step_shared : forall m p i c, match c with InsOnConflict _ => False | _ => True end ->
    ins_step (m_insert m {| ir_rest := i; ir_set := p |}) c
    = map_ok (fun i' => m_insert m {| ir_rest := i'; ir_set := p |}) (ins_step i c).
  Proof.
    intros m p i c P. destruct c; try contradiction P; cbn [ins_step m_insert ir_rest ir_set i_into i_columns i_values i_returning i_comment].
    all: repeat match goal with
           | |- context [match ?x with [] => _ | _ :: _ => _ end] => destruct x
           | |- context [if ?x then _ else _] => destruct x
           | |- context [bind ?x _] => destruct x; cbn [bind]
           end; reflexivity.
  Qed.

  Lemma chain_derived : forall m x, leaves_shared x -> chain_value m x = map_ok (m_stmt m) (derived x).
  Proof.
    intros m x L. destruct x as [b cs|b cs|b cs|d cs]; cbn [chain_value derived leaves_shared] in *.
      - unfold sel_run. unfold m_select at 1.
        rewrite (fold_lift sel_step (fun q => with_shared q (map as_join (cells m RJoins (sr_joins b))) (map as_order (cells m ROrders (sr_orders b))) (map as_with (cells m RWiths (sr_withs b)))) sel_step changes_no_part); [| |exact L].
        + destruct (fold_res sel_step cs (sr_rest b)); reflexivity.
        + intros a c P. apply sel_step_shared. destruct c; try reflexivity; contradiction P.
      - unfold upd_run. unfold m_update at 1.
        rewrite (fold_lift upd_step (fun u => upd_with_with (upd_with_set u (m_pairs m (ur_set b))) (map as_with (cells m RWiths (ur_withs b)))) upd_step
                  (fun c => match c with UpdSet _ | UpdUsing _ | UpdWith _ => False | _ => True end)); [| |exact L].
        + destruct (fold_res upd_step cs (ur_rest b)); reflexivity.
        + intros a c P. apply upd_step_shared. destruct c; try reflexivity; contradiction P.
      - unfold ins_run. destruct b as [i p]. cbn [ir_rest ir_set].
        rewrite (fold_lift ins_step (fun i => m_insert m {| ir_rest := i; ir_set := p |}) ins_step
                  (fun c => match c with InsOnConflict _ => False | _ => True end)); [| |exact L].
        + destruct (fold_res ins_step cs i); reflexivity.
        + intros a c P. apply ins_step_shared. exact P.
      - destruct (del_run d cs); reflexivity.
  Qed.

  Lemma chain_solo : forall m x f, leaves_shared x -> (forall b, derived x = Ok b -> small b) ->
    snd (solo m (chain_work x f)) = chain_answer m x f.
  Proof.
    intros m x f L Sm. unfold chain_work, chain_answer.
    rewrite (chain_derived m x L). destruct (derived x) as [b|e]; cbn [map_ok]; [|reflexivity]. apply render_snd. apply Sm. reflexivity.
  Qed.

  (* The SET clause is that of the shared builder. *)
  Lemma ins_action : forall cs i i', (forall c, In c cs -> match c with InsOnConflict _ => False | _ => True end) ->
    ins_run i cs = Ok i' -> i_conflict_action i' = i_conflict_action i.
  Proof.
    unfold ins_run. induction cs as [|c cs IH]; intros i i' P E; cbn [fold_res] in E; [injection E as <-; reflexivity|].
    destruct (ins_step i c) as [i1|e] eqn:E1; [|discriminate E]. cbn [bind] in E.
    rewrite (IH i1 i' (fun c' Hc => P c' (or_intror Hc)) E). specialize (P c (or_introl eq_refl)). clear - P E1.
    destruct c; try contradiction P; cbn [ins_step] in E1;
      repeat match type of E1 with
      | (match ?x with [] => _ | _ :: _ => _ end) = _ => destruct x
      | (if ?x then _ else _) = _ => destruct x
      | bind ?x _ = _ => destruct x; cbn [bind] in E1
      end; try discriminate E1; injection E1 as <-; reflexivity.
  Qed.

  Lemma derived_sorts : forall x b, leaves_shared x -> derived x = Ok b -> sorts b = sorts (start x).
  Proof.
    intros [b cs|b cs|b cs|d cs] b' L E; cbn [derived start leaves_shared] in *.
    - destruct (sel_run (sr_rest b) cs); [|discriminate E]. injection E as <-. reflexivity.
    - destruct (upd_run (ur_rest b) cs); [|discriminate E]. injection E as <-. reflexivity.
    - destruct (ins_run (ir_rest b) cs) as [i'|] eqn:E1; [|discriminate E]. injection E as <-.
      unfold sorts. cbn [set_of ir_rest]. rewrite (ins_action cs _ _ L E1). reflexivity.
    - destruct (del_run d cs); [|discriminate E]. injection E as <-. reflexivity.
  Qed.

  (* Any number of goroutines, builders of any kind, any chains of these calls, any schedule: the
     memory never changes, and each goroutine that has returned has answered what its own chain
     prints. An Update, or an Insert with DoUpdate, has its columns in order: C38_update_after_first
     says that they are once it has been printed. *)
  Theorem C60_plain_any : forall m xs sched, sorts_by_insertion ->
    (forall x f, In (x, f) xs -> leaves_shared x /\ at_most_12 (start x) /\ in_order m (start x)) ->
    let s := interleave sched (m, map (fun xf => chain_work (fst xf) (snd xf)) xs) in
    fst s = m
    /\ forall t x f a, nth_error xs t = Some (x, f) -> nth_error (snd s) t = Some (Ret a) -> a = chain_answer m x f.
  Proof.
    intros m xs sched S H s.
    assert (Q : forall x f, In (x, f) xs -> quiet m (chain_work x f) /\ snd (solo m (chain_work x f)) = chain_answer m x f).
    { intros x f I. destruct (H x f I) as (L & L12 & Ord). split.
      - unfold chain_work. destruct (derived x) as [b|e] eqn:E; [|exact Logic.I]. apply quiet_render.
        unfold in_order in *. rewrite (derived_sorts x b L E). exact Ord.
      - apply chain_solo; [exact L|]. intros b E. unfold at_most_12 in L12. unfold small. rewrite (derived_sorts x b L E).
        destruct (sorts (start x)); [split; [exact S|exact L12]|exact Logic.I]. }
    assert (R : forall sched (ts : list (prog answer)), (forall t p, nth_error ts t = Some p -> quiet m p) ->
      fst (interleave sched (m, ts)) = m /\ map (fun p => snd (solo m p)) (snd (interleave sched (m, ts))) = map (fun p => snd (solo m p)) ts).
    { clear. induction sched as [|i sched IH]; intros ts Hq; [split; reflexivity|]. cbn [interleave fold_left].
      destruct (quiet_step m ts i Hq) as (E1 & E2 & E3). destruct (advance i (m, ts)) as [m1 ts1]. cbn [fst snd] in *. subst m1.
      destruct (IH ts1 E2) as [F1 F2]. split; [exact F1|]. unfold interleave in F2. rewrite F2. exact E3. }
    destruct (R sched (map (fun xf => chain_work (fst xf) (snd xf)) xs)) as [E1 E2].
    { intros t p Hp. rewrite nth_error_map in Hp. destruct (nth_error xs t) as [[x f]|] eqn:X; [|discriminate Hp]. injection Hp as <-.
      apply (Q x f (nth_error_In _ _ X)). }
    fold s in E1, E2. split; [exact E1|]. intros t x f a X Ea.
    assert (E3 := f_equal (fun l => nth_error l t) E2). cbv beta in E3. rewrite !nth_error_map, Ea, X in E3. cbn in E3. injection E3 as ->.
    apply (Q x f (nth_error_In _ _ X)).
  Qed.
End Chains.
Print Assumptions C60_plain_any.

(* ------------------------------------------------------------------------- *)
(* An Update that has been printed once                                        *)
(* ------------------------------------------------------------------------- *)

(* Printing depends on the columns up to their order. *)
Lemma same_text {O : Oracle} : forall m m1 b, let s := pr_cols (ur_set b) in sorts_by_insertion ->
  pr_mode (ur_set b) = PAssoc -> sl_len s <= 12 ->
  arr m1 s (sl_len s) = insertion_sort (arr m s (sl_len s)) ->
  (forall i, S i < sl_len s -> col_less (as_col (m1 (at_ RCols s (S i)))) (as_col (m1 (at_ RCols s i))) = false) ->
  (forall l, (forall i, i < sl_len s -> l <> at_ RCols s i) -> m1 l = m l) ->
  write_stmt (StUpdate (m_update m1 b)) = write_stmt (StUpdate (m_update m b)).
Proof.
  intros m m1 b s So M L Ar Ord F. cbn [write_stmt]. unfold m_update.
  assert (Cw : cells m1 RWiths (ur_withs b) = cells m RWiths (ur_withs b)) by (apply cells_ext; intro i; apply F; intros k _ D; discriminate D).
  rewrite Cw. unfold write_update. cbn [upd_with_with upd_with_set u_table u_set u_with u_only u_from u_where u_returning u_comment].
  assert (Em : m1 (map_loc (ur_set b)) = m (map_loc (ur_set b))) by (apply F; intros k _ D; discriminate D).
  assert (Ce : cells m1 RExprs (pr_exprs (ur_set b)) = cells m RExprs (pr_exprs (ur_set b))) by (apply cells_ext; intro i; apply F; intros k _ D; discriminate D).
  assert (Pe : pairs_empty (m_pairs m1 (ur_set b)) = pairs_empty (m_pairs m (ur_set b))).
  { unfold pairs_empty, m_pairs. cbn [p_mode p_map p_exprs]. rewrite Em, Ce. reflexivity. }
  assert (Ps : write_set (m_pairs m1 (ur_set b)) = write_set (m_pairs m (ur_set b))).
  { unfold write_set, write_pairs. rewrite Pe. destruct (pairs_empty (m_pairs m (ur_set b))); [reflexivity|].
    unfold pairs_values. cbn [p_mode p_map p_cols m_pairs]. rewrite M. unfold cells. rewrite !map_map.
    change (map (fun x => as_col (m (at_ RCols (pr_cols (ur_set b)) x))) (seq 0 (sl_len (pr_cols (ur_set b))))) with (arr m s (sl_len s)).
    change (map (fun x => as_col (m1 (at_ RCols (pr_cols (ur_set b)) x))) (seq 0 (sl_len (pr_cols (ur_set b))))) with (arr m1 s (sl_len s)).
    assert (Eo : o_sort (arr m1 s (sl_len s)) = o_sort (arr m s (sl_len s))).
    { rewrite !So by (rewrite arr_length; exact L). rewrite <- Ar. apply insertion_fixed. intros i Li. rewrite arr_length in Li.
      rewrite !arr_nth by lia. apply Ord. exact Li. }
    rewrite Eo, Em. reflexivity. }
  rewrite Pe, Ps. reflexivity.
Qed.

(* An Update in key-value syntax, without aliases in its columns, that has been printed once: any
   number of goroutines may add conditions, FROM, RETURNING and comments to it and print the results. *)
Theorem C60_update_after_first {O : Oracle} : forall m b f r xs sched, sorts_by_insertion ->
  pr_mode (ur_set b) = PAssoc -> sl_len (pr_cols (ur_set b)) <= 12 -> unaliased (p_cols (u_set (m_update m b))) ->
  query (StUpdate (m_update m b)) = Ok r ->
  (forall cs f', In (cs, f') xs -> forall c, In c cs -> match c with UpdSet _ | UpdUsing _ | UpdWith _ => False | _ => True end) ->
  let m1 := fst (solo m (render (BUpdate b) f)) in
  let s := interleave sched (m1, map (fun xf => chain_work (ChUpdate b (fst xf)) (snd xf)) xs) in
  fst s = m1
  /\ forall t cs f' a, nth_error xs t = Some (cs, f') -> nth_error (snd s) t = Some (Ret a) ->
     a = match upd_run (m_update m b) cs with Ok u => answers (StUpdate u) f' | Panic e => panicked f' e end.
Proof.
  intros m b f r xs sched So M L U Q H m1 st.
  unfold query in Q. destruct (write_stmt (StUpdate (m_update m b))) as [t|] eqn:Wt; [|discriminate Q]. cbn [write_stmt] in Wt.
  destruct (after_update m b f t M Wt) as [Ar F]. fold m1 in Ar, F. clear Q Wt.
  set (s := pr_cols (ur_set b)) in *.
  assert (Ua : unaliased (arr m s (sl_len s))).
  { unfold m_update, m_pairs in U. cbn [upd_with_with upd_with_set u_set p_cols] in U. unfold cells in U. rewrite map_map in U. exact U. }
  assert (Ord : forall i, S i < sl_len s -> col_less (as_col (m1 (at_ RCols s (S i)))) (as_col (m1 (at_ RCols s i))) = false).
  { intros i Li. rewrite <- (arr_nth m1 s (sl_len s) (S i)) by lia. rewrite <- (arr_nth m1 s (sl_len s) i) by lia.
    rewrite Ar. apply pairwise_nth; [|rewrite <- Ar, arr_length; exact Li].
    apply (proj2 (insertion_contract (arr m s (sl_len s)))). apply unaliased_swo. exact Ua. }
  destruct (C60_plain_any m1 (map (fun xf => (ChUpdate b (fst xf), snd xf)) xs) sched So) as [E1 E2].
  { intros x f' I. apply in_map_iff in I. destruct I as ([cs f0] & E & I). injection E as <- <-. cbn [fst snd] in *.
    split; [exact (H cs f0 I)|]. split.
    - unfold at_most_12, start, sorts, set_of. rewrite M. exact L.
    - unfold in_order, start, sorts, set_of. rewrite M. exact Ord. }
  rewrite map_map in E1, E2. cbn [fst snd] in E1, E2. fold st in E1, E2. split; [exact E1|].
  intros k cs f' a X Ea. rewrite (E2 k (ChUpdate b cs) f' a); [|rewrite nth_error_map, X; reflexivity|exact Ea].
  assert (Lv : leaves_shared (ChUpdate b cs)) by exact (H cs f' (nth_error_In _ _ X)).
  unfold chain_answer. rewrite (chain_derived m1 _ Lv). pose proof (chain_derived m _ Lv) as D. cbn [chain_value] in D.
  cbn [derived] in *. destruct (upd_run (ur_rest b) cs) as [u'|e]; cbn [bind map_ok] in *.
  - destruct (upd_run (m_update m b) cs) as [u|e]; [|discriminate D]. cbn [bind] in D. injection D as ->.
    set (b' := {| ur_rest := u'; ur_set := ur_set b; ur_withs := ur_withs b |}).
    pose proof (same_text m m1 b' So M L Ar Ord F) as Same. cbn [m_stmt].
    destruct f'; unfold answers, query, named_query, to_string; rewrite Same; reflexivity.
  - destruct (upd_run (m_update m b) cs) as [u|e']; [discriminate D|]. cbn [bind] in D. injection D as ->. reflexivity.
Qed.
Print Assumptions C60_update_after_first.

(* ------------------------------------------------------------------------- *)
(* Examples: the hypotheses are met                                            *)
(* ------------------------------------------------------------------------- *)

Definition sorted_columns : upd_heap :=
  {| uh_maps := uh_maps two_columns; uh_cols := map (@rev column) (uh_cols two_columns); uh_exprs := uh_exprs two_columns; uh_withs := uh_withs two_columns |}.

Example C60_plain_any_example : exists b i d, an_update = Ok b /\ lk_insert (O := go_oracle) (GStr "t") = Ok i /\ lk_delete (GStr "t") = Ok d
  /\ let xs := [(ChUpdate b [UpdComment "one"], MQuery); (ChUpdate b [UpdOnly; UpdComment "two"], MString);
                (ChInsert {| ir_rest := i; ir_set := ur_set b |} [InsComment "three"], MQuery); (ChDelete d [DelComment "four"], MNamedQuery)] in
     (forall x f, In (x, f) xs -> leaves_shared x /\ at_most_12 (start x) /\ in_order (upd_mem sorted_columns) (start x))
     /\ sorts (start (fst (nth 0 xs (ChDelete d [], MQuery)))) <> None
     /\ map (fun xf => chain_answer (O := go_oracle) (upd_mem sorted_columns) (fst xf) (snd xf)) (firstn 2 xs)
        = [AQuery (Ok ("UPDATE ""t"" SET ""a"" = $1, ""b"" = $2; -- one", [GInt KInt 2; GInt KInt 1])); AString (Ok "UPDATE ONLY ""t"" SET ""a"" = 2, ""b"" = 1; -- two")]%string.
Proof.
  eexists. eexists. eexists. split; [vm_compute; reflexivity|]. split; [vm_compute; reflexivity|]. split; [vm_compute; reflexivity|]. cbv zeta.
  split; [|split; [discriminate|lazy; reflexivity]].
  intros x f [E|[E|[E|[E|[]]]]]; injection E as <- <-; (split; [cbn; intuition (subst; exact I)|]; split; [cbn; lia || exact I|]);
    unfold in_order, sorts; cbn; try exact I; intros [|[|n]] Hn; cbn in *; try lia; reflexivity.
Qed.

Example C60_update_after_first_example : exists b r, an_update = Ok b /\ pr_mode (ur_set b) = PAssoc /\ sl_len (pr_cols (ur_set b)) <= 12
  /\ unaliased (p_cols (u_set (m_update (upd_mem two_columns) b)))
  /\ query (O := go_oracle) (StUpdate (m_update (upd_mem two_columns) b)) = Ok r
  /\ exists u, upd_run (m_update (upd_mem two_columns) b) [UpdOnly; UpdComment "two"] = Ok u.
Proof.
  eexists. eexists. split; [vm_compute; reflexivity|]. split; [reflexivity|]. split; [cbn; lia|].
  split; [repeat constructor|]. split; [vm_compute; reflexivity|]. eexists. lazy. reflexivity.
Qed.
