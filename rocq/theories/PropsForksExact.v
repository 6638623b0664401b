(* C35 and C37: which forks interfere, exactly. *)
From Coq Require Import Lia Permutation.
From Verif Require Import Calls CallsP AssignP AliasP RowsP PropsClauses Mem Forks MemP ForksP UpdForksP UpdExactP PropsForks InsForks InsForksP PropsInsForks.
Local Open Scope list_scope.

(* ------------------------------------------------------------------------- *)
(* Specification                                                               *)
(* ------------------------------------------------------------------------- *)

(* The array behind a slice has room for xs. *)
Definition room {A} (s : slice) (xs : list A) : Prop := (sl_len s + length xs <= sl_cap s)%nat.

(* xs after ys was written over its beginning. *)
Definition written_over {A} (xs ys : list A) : list A := firstn (length xs) (ys ++ skipn (length ys) xs).

(* xs and ys are the same as far as both go. *)
Fixpoint agree {A} (xs ys : list A) : Prop :=
  match xs, ys with x :: xs', y :: ys' => x = y /\ agree xs' ys' | _, _ => True end.

Lemma written_over_agree {A} : forall xs ys : list A, written_over xs ys = xs <-> agree xs ys.
Proof.
  unfold written_over. induction xs as [|x xs IH]; intros [|y ys]; cbn [length firstn app skipn agree].
  - split; intro; [exact I|reflexivity].
  - split; intro; [exact I|reflexivity].
  - rewrite firstn_all. split; intro; [exact I|reflexivity].
  - split.
    + intro E. injection E as -> E. split; [reflexivity|]. apply IH. exact E.
    + intros [-> E]. f_equal. apply IH. exact E.
Qed.

(* Two appends to one slice, seen through the result of the first. *)
Lemma append_twice {A} (zero : A) grow : forall h s xs ys, valid h s ->
  let r1 := append zero grow h s xs in
  let r2 := append zero grow (fst r1) s ys in
  (room s xs /\ room s ys -> view (fst r2) (snd r1) = view h s ++ written_over xs ys)
  /\ (~ (room s xs /\ room s ys) -> view (fst r2) (snd r1) = view h s ++ xs)
  /\ view (fst r2) (snd r2) = view h s ++ ys /\ view (fst r2) s = view h s.
Proof.
  intros h s xs ys V r1 r2.
  pose proof (append_view zero grow h s xs V) as (W1 & V1 & L1). pose proof (append_valid zero grow h s xs s V V) as Vs.
  pose proof (append_view zero grow (fst r1) s ys Vs) as (W2 & V2 & L2).
  assert (Es : view (fst r1) s = view h s) by (apply append_others; [exact V|exact V|right; right; apply le_n]).
  assert (Es2 : view (fst r2) s = view (fst r1) s) by (apply append_others; [exact Vs|exact Vs|right; right; apply le_n]).
  fold r1 in W1, V1, L1, Vs. fold r2 in W2, V2. cbv zeta in *.
  split; [|split; [|split; [fold r2; rewrite W2, Es; reflexivity|rewrite Es2, Es; reflexivity]]].
  - intros [R1 R2]. unfold room in *. subst r2. unfold append. rewrite (proj2 (Nat.leb_le _ _) R2). cbn [fst].
    assert (S1 : r1 = (store h (sl_ptr s) (firstn (sl_len s) (nth (sl_ptr s) h []) ++ xs ++ skipn (sl_len s + length xs) (nth (sl_ptr s) h [])),
       {| sl_ptr := sl_ptr s; sl_len := sl_len s + length xs; sl_cap := sl_cap s |})).
    { subst r1. unfold append. rewrite (proj2 (Nat.leb_le _ _) R1). reflexivity. }
    rewrite S1 in *. cbn [fst snd] in *. clear r1 S1.
    destruct V as [[C L] | (P & Ln & L)].
    + assert (length xs = 0 /\ length ys = 0)%nat as [X Y] by lia.
      destruct xs; [|discriminate X]. destruct ys; [|discriminate Y]. unfold view. cbn [sl_ptr sl_len length]. rewrite L. reflexivity.
    + set (a := nth (sl_ptr s) h []) in *. set (n := sl_len s) in *.
      assert (La : length (firstn n a) = n) by (rewrite firstn_length; lia).
      unfold view at 1. cbn [sl_ptr sl_len]. rewrite nth_store_eq by (rewrite store_length; exact P). rewrite nth_store_eq by exact P.
      replace (firstn n (firstn n a ++ xs ++ skipn (n + length xs) a)) with (firstn n a)
        by (rewrite firstn_app, La, Nat.sub_diag, firstn_O, app_nil_r, firstn_firstn, Nat.min_id; reflexivity).
      replace (skipn (n + length ys) (firstn n a ++ xs ++ skipn (n + length xs) a))
        with (skipn (length ys) (xs ++ skipn (n + length xs) a)).
      2:{ rewrite (skipn_app (n + length ys) (firstn n a)), La. replace (n + length ys - n)%nat with (length ys) by lia.
          rewrite (skipn_all2 (firstn n a)) by lia. reflexivity. }
      rewrite firstn_app, La. replace (n + length xs - n)%nat with (length xs) by lia.
      rewrite (firstn_all2 (firstn n a)) by lia. f_equal. unfold written_over. rewrite skipn_app.
      rewrite app_assoc, firstn_app.
      replace (length xs - length (ys ++ skipn (length ys) xs))%nat with 0%nat by (rewrite app_length, skipn_length; lia).
      rewrite firstn_O, app_nil_r. reflexivity.
  - intro N. unfold room in N. rewrite <- W1. subst r2. destruct ys as [|y ys]; [rewrite append_nothing by exact Vs; reflexivity|].
    destruct (Nat.leb_spec (sl_len s + length (y :: ys)) (sl_cap s)) as [R2|R2].
    + apply append_others; [exact Vs|exact V1|]. right. left. subst r1. unfold append.
      destruct (Nat.leb_spec (sl_len s + length xs) (sl_cap s)) as [R1|R1]; [exfalso; apply N; split; assumption|]. cbn [snd sl_ptr].
      cbn [length] in R2. destruct V as [[C L] | (P & _)]; lia.
    + unfold append at 1. destruct (Nat.leb_spec (sl_len s + length (y :: ys)) (sl_cap s)) as [R3|R3]; [lia|]. cbn [fst].
      apply make_others. exact V1.
Qed.

(* ------------------------------------------------------------------------- *)
(* The memory after a program                                                  *)
(* ------------------------------------------------------------------------- *)

Section After.
  Context {N C V H R : Type} (new : H -> N -> H * res R) (step : H -> R -> C -> H * res R) (show : H -> R -> H * V).

  Fixpoint memory_after (h : H) (regs : list (option R)) (p : list (cmd N C)) : H * list (option R) :=
    match p with
    | [] => (h, regs)
    | New a :: p' => let hr := new h a in memory_after (fst hr) (regs ++ [ok (snd hr)]) p'
    | Call i c :: p' =>
      match nth i regs None with
      | Some r => let hr := step h r c in memory_after (fst hr) (regs ++ [ok (snd hr)]) p'
      | None => memory_after h (regs ++ [None]) p'
      end
    | Show i :: p' =>
      match nth i regs None with
      | Some r => memory_after (fst (show h r)) regs p'
      | None => memory_after h regs p'
      end
    end.

  Lemma memory_run_app : forall p p' h regs,
    memory_run new step show h regs (p ++ p')
    = memory_run new step show h regs p
      ++ memory_run new step show (fst (memory_after h regs p)) (snd (memory_after h regs p)) p'.
  Proof.
    induction p as [|[a|i c|i] p IH]; intros p' h regs; cbn [app memory_run memory_after]; [reflexivity|apply IH| |].
    - destruct (nth i regs None); apply IH.
    - destruct (nth i regs None); rewrite IH; reflexivity.
  Qed.

  Lemma memory_after_length : forall p h regs,
    length (snd (memory_after h regs p)) = (length regs + length (creations p))%nat.
  Proof.
    induction p as [|[a|i c|i] p IH]; intros h regs; cbn [memory_after creations filter length].
    - cbn. lia.
    - rewrite IH, app_length. cbn. unfold creations. lia.
    - destruct (nth i regs None); rewrite IH, app_length; cbn; unfold creations; lia.
    - destruct (nth i regs None); rewrite IH; reflexivity.
  Qed.

  Lemma memory_after_ind (I : H -> R -> Prop) :
    (forall h a h' r, new h a = (h', Ok r) -> I h' r) ->
    (forall h a, forall r, I h r -> I (fst (new h a)) r) ->
    (forall h r c h' r', I h r -> step h r c = (h', Ok r') -> I h' r') ->
    (forall h r c r', I h r -> I h r' -> I (fst (step h r c)) r') ->
    (forall h r r', I h r -> I h r' -> I (fst (show h r)) r') ->
    forall p h regs, (forall r, In (Some r) regs -> I h r) ->
    forall r, In (Some r) (snd (memory_after h regs p)) -> I (fst (memory_after h regs p)) r.
  Proof.
    intros In1 In2 Is1 Is2 Ish. induction p as [|[a|i c|i] p IH]; intros h regs Hr; cbn [memory_after]; [exact Hr| | |].
    - apply IH. intros r Hi. apply in_app_or in Hi. destruct Hi as [Hi|[Hi|[]]]; [apply In2, Hr; exact Hi|].
      destruct (new h a) as [h' [r'|e]] eqn:E; cbn in *; [|discriminate Hi]. injection Hi as ->. exact (In1 _ _ _ _ E).
    - destruct (nth i regs None) as [b|] eqn:Eb.
      + assert (Ib : I h b).
        { apply Hr. rewrite <- Eb. apply nth_In. destruct (Nat.lt_ge_cases i (length regs)) as [L|G]; [exact L|].
          rewrite nth_overflow in Eb by exact G. discriminate Eb. }
        apply IH. intros r Hi. apply in_app_or in Hi. destruct Hi as [Hi|[Hi|[]]]; [apply Is2; [exact Ib|apply Hr; exact Hi]|].
        destruct (step h b c) as [h' [r'|e]] eqn:E; cbn in *; [|discriminate Hi]. injection Hi as ->. exact (Is1 _ _ _ _ _ Ib E).
      + apply IH. intros r Hi. apply in_app_or in Hi. destruct Hi as [Hi|[Hi|[]]]; [apply Hr; exact Hi|discriminate Hi].
    - destruct (nth i regs None) as [b|] eqn:Eb; [|apply IH; exact Hr].
      assert (Ib : I h b).
      { apply Hr. rewrite <- Eb. apply nth_In. destruct (Nat.lt_ge_cases i (length regs)) as [L|G]; [exact L|].
        rewrite nth_overflow in Eb by exact G. discriminate Eb. }
      apply IH. intros r Hi. apply Ish; [exact Ib|apply Hr; exact Hi].
  Qed.
End After.

(* ------------------------------------------------------------------------- *)
(* Select                                                                      *)
(* ------------------------------------------------------------------------- *)

Definition sel_after (g : growth) (p : list sel_cmd) : sel_heap * list (option sel_ref) :=
  memory_after sel_new (sel_do g) (fun h b => (h, sel_view h b)) empty_sel_heap [] p.

(* The second call leaves what the first appended: the calls append to different parts, or one
   of them finds no room behind the elements of that part and allocates, or they append the same. *)
Definition undisturbed (b : sel_ref) (c c' : sel_call) : Prop :=
  match c, c' with
  | SelJoin args, SelJoin args' =>
    match join_value args, join_value args' with
    | Ok j, Ok j' => ~ room (sr_joins b) [j] \/ j = j'
    | _, _ => True
    end
  | SelOrderBy xs, SelOrderBy ys => ~ (room (sr_orders b) xs /\ room (sr_orders b) ys) \/ agree xs ys
  | SelWith xs, SelWith ys =>
    sl_len (sr_withs b) = 0%nat \/ ~ (room (sr_withs b) xs /\ room (sr_withs b) ys) \/ agree xs ys
  | _, _ => True
  end.

Definition sel_valid (h : sel_heap) (b : sel_ref) : Prop :=
  valid (sh_joins h) (sr_joins b) /\ valid (sh_orders h) (sr_orders b) /\ valid (sh_withs h) (sr_withs b).

Lemma sel_do_valid : forall g h b c, sel_valid h b ->
  (forall b', snd (sel_do g h b c) = Ok b' -> sel_valid (fst (sel_do g h b c)) b')
  /\ (forall t, sel_valid h t -> sel_valid (fst (sel_do g h b c)) t).
Proof.
  intros g h b c (Vj & Vo & Vw).
  assert (Plain : plain_call c = true -> fst (sel_do g h b c) = h /\ forall b', snd (sel_do g h b c) = Ok b' ->
    sr_joins b' = sr_joins b /\ sr_orders b' = sr_orders b /\ sr_withs b' = sr_withs b).
  { intro P. destruct c; try discriminate P; cbn [sel_do fst snd]; (split; [reflexivity|]);
      intros b' E; match type of E with bind ?x _ = _ => destruct x; [|discriminate E] end; injection E as <-; repeat split. }
  destruct (plain_call c) eqn:P.
  { destruct (Plain eq_refl) as [-> Pl]. split; [|intros t Vt; exact Vt].
    intros b' E. destruct (Pl b' E) as (E1 & E2 & E3). unfold sel_valid. rewrite E1, E2, E3. repeat split; assumption. }
  clear Plain. destruct c; try discriminate P; cbn [sel_do].
  - destruct (join_value args) as [j|e]; [|split; [intros b' E; discriminate E|intros t Vt; exact Vt]].
    cbn [fst snd]. split; [intros b' E; injection E as <-|intros t (Tj & To & Tw)]; (split; [|split; assumption]); cbn [sh_joins sr_joins].
    + apply append_view. exact Vj.
    + apply append_valid; assumption.
  - cbn [fst snd]. split; [intros b' E; injection E as <-|intros t (Tj & To & Tw)]; (split; [assumption|split; [assumption|]]); cbn [sh_withs sr_withs].
    + destruct (sl_len (sr_withs b) =? 0)%nat; [apply make_view|apply append_view; exact Vw].
    + destruct (sl_len (sr_withs b) =? 0)%nat; [apply make_others; exact Tw|apply append_valid; assumption].
  - cbn [fst snd]. split; [intros b' E; injection E as <-|intros t (Tj & To & Tw)]; (split; [assumption|split; [|assumption]]); cbn [sh_orders sr_orders].
    + apply append_view. exact Vo.
    + apply append_valid; assumption.
Qed.

Lemma sel_reachable : forall g p i b, nth i (snd (sel_after g p)) None = Some b -> sel_valid (fst (sel_after g p)) b.
Proof.
  intros g p i b E. unfold sel_after in *.
  apply (memory_after_ind sel_new (sel_do g) (fun h b => (h, sel_view h b)) sel_valid).
  - intros h a h' r N. unfold sel_new in N. destruct (lk_select a); cbn in N; [|discriminate N]. injection N as <- <-.
    repeat split; left; split; reflexivity.
  - intros h a r V. exact V.
  - intros h r c h' r' V S. destruct (sel_do_valid g h r c V) as [A _]. rewrite S in A. apply A. reflexivity.
  - intros h r c r' V V'. apply (sel_do_valid g h r c V). exact V'.
  - intros h r r' _ V. exact V.
  - intros r [].
  - rewrite <- E. apply nth_In. match goal with |- (_ < length ?l)%nat => destruct (Nat.lt_ge_cases i (length l)) as [L|G]; [exact L|] end.
    rewrite nth_overflow in E by exact G. discriminate E.
Qed.

Lemma sel_do_step : forall g h b c, sel_valid h b ->
  match snd (sel_do g h b c) with
  | Ok b' => sel_step (sel_view h b) c = Ok (sel_view (fst (sel_do g h b c)) b')
  | Panic e => sel_step (sel_view h b) c = Panic e
  end /\ sel_view (fst (sel_do g h b c)) b = sel_view h b.
Proof.
  intros g h b c (Vj & Vo & Vw). destruct (plain_call c) eqn:P.
  - assert (E : sel_do g h b c = (h, do q <- sel_step (sr_rest b) c;
        Ok {| sr_rest := q; sr_joins := sr_joins b; sr_orders := sr_orders b; sr_withs := sr_withs b |})).
    { destruct c; try discriminate P; reflexivity. }
    rewrite E. cbn [fst snd]. split; [|reflexivity]. unfold sel_view at 1 3. rewrite sel_step_shared by exact P.
    destruct (sel_step (sr_rest b) c); reflexivity.
  - destruct c; try discriminate P; cbn [sel_do sel_step].
    + rewrite sel_join_value. destruct (join_value args) as [j|e]; cbn [map_ok fst snd]; [|split; reflexivity].
      destruct (append_view zero_join (g_joins g) (sh_joins h) (sr_joins b) [j] Vj) as (W & _).
      unfold sel_view. cbn [sh_joins sh_orders sh_withs sr_joins sr_orders sr_withs sr_rest]. split.
      * rewrite W. reflexivity.
      * rewrite append_others; [reflexivity|exact Vj|exact Vj|right; right; apply le_n].
    + destruct (Nat.eqb_spec (sl_len (sr_withs b)) 0) as [E|E]; cbn [fst snd].
      * destruct (make_view (sh_withs h) args) as (W & _). destruct (make_others (sh_withs h) args (sr_withs b) Vw) as [W' _].
        unfold sel_view. cbn [sh_joins sh_orders sh_withs sr_joins sr_orders sr_withs sr_rest]. rewrite W, W'. split; [|reflexivity].
        rewrite (view_nil _ _ E). reflexivity.
      * destruct (append_view zero_withq (g_withs g) (sh_withs h) (sr_withs b) args Vw) as (W & _).
        unfold sel_view. cbn [sh_joins sh_orders sh_withs sr_joins sr_orders sr_withs sr_rest]. split.
        -- rewrite W. pose proof (view_length _ _ Vw) as L. cbn [with_shared with_with s_with].
           destruct (view (sh_withs h) (sr_withs b)); [exfalso; apply E; rewrite <- L; reflexivity|reflexivity].
        -- rewrite append_others; [reflexivity|exact Vw|exact Vw|right; right; apply le_n].
    + destruct (append_view zero_order (g_orders g) (sh_orders h) (sr_orders b) orders Vo) as (W & _).
      unfold sel_view. cbn [fst snd sh_joins sh_orders sh_withs sr_joins sr_orders sr_withs sr_rest]. split.
      * rewrite W. reflexivity.
      * rewrite append_others; [reflexivity|exact Vo|exact Vo|right; right; apply le_n].
Qed.

Lemma part_kept {A} (zero : A) grow : forall h s xs t, valid h s -> valid h t -> t = s ->
  view (fst (append zero grow h s xs)) t = view h t.
Proof. intros h s xs t V _ ->. apply append_others; [exact V|exact V|right; right; apply le_n]. Qed.

Lemma sel_fork : forall g h b c c' b1, sel_valid h b -> snd (sel_do g h b c) = Ok b1 ->
  let h1 := fst (sel_do g h b c) in let h2 := fst (sel_do g h1 b c') in
  sel_view h2 b1 = sel_view h1 b1 <-> undisturbed b c c'.
Proof.
  intros g h b c c' b1 V E1. cbv zeta.
  destruct (sel_do_valid g h b c V) as [V1 Vb]. specialize (V1 b1 E1). specialize (Vb b V).
  destruct V as (Vj & Vo & Vw). destruct V1 as (Wj & Wo & Ww). destruct Vb as (Bj & Bo & Bw).
  assert (Same : forall x, x = sel_view (fst (sel_do g h b c)) b1 -> undisturbed b c c' ->
    (x = sel_view (fst (sel_do g h b c)) b1 <-> undisturbed b c c')) by (intros; split; auto).
  assert (Dec : forall s n m, (sl_len s + n <= sl_cap s /\ sl_len s + m <= sl_cap s)%nat \/ ~ (sl_len s + n <= sl_cap s /\ sl_len s + m <= sl_cap s)%nat).
  { intros s n m. destruct (le_lt_dec (sl_len s + n) (sl_cap s)), (le_lt_dec (sl_len s + m) (sl_cap s)); [left; split; assumption|right; lia..]. }
  (* the parts that c leaves *)
  assert (Kj : match c with SelJoin _ => False | _ => True end -> sr_joins b1 = sr_joins b).
  { intro N. destruct c; try contradiction N; cbn [sel_do snd] in E1;
      try (match type of E1 with bind ?x _ = _ => destruct x; [|discriminate E1] end); injection E1 as <-; reflexivity. }
  assert (Ko : match c with SelOrderBy _ => False | _ => True end -> sr_orders b1 = sr_orders b).
  { intro N. destruct c; try contradiction N; cbn [sel_do] in E1; try (destruct (join_value args); [|discriminate E1]); cbn [snd] in E1;
      try (match type of E1 with bind ?x _ = _ => destruct x; [|discriminate E1] end); injection E1 as <-; reflexivity. }
  assert (Kw : match c with SelWith _ => False | _ => True end -> sr_withs b1 = sr_withs b).
  { intro N. destruct c; try contradiction N; cbn [sel_do] in E1; try (destruct (join_value args); [|discriminate E1]); cbn [snd] in E1;
      try (match type of E1 with bind ?x _ = _ => destruct x; [|discriminate E1] end); injection E1 as <-; reflexivity. }
  destruct (plain_call c') eqn:P'.
  { assert (E : fst (sel_do g (fst (sel_do g h b c)) b c') = fst (sel_do g h b c)) by (destruct c'; try discriminate P'; reflexivity).
    rewrite E. apply Same; [reflexivity|]. destruct c, c'; try discriminate P'; exact I. }
  destruct c'; try discriminate P'; clear P'.
  - (* Join *)
    cbn [sel_do]. destruct (join_value args) as [j'|] eqn:Ej'; cbn [fst].
    2:{ apply Same; [reflexivity|]. destruct c; try exact I. cbn [undisturbed]. rewrite Ej'. destruct (join_value args0); exact I. }
    assert (Other : match c with SelJoin _ => False | _ => True end ->
      (sel_view {| sh_joins := fst (append zero_join (g_joins g) (sh_joins (fst (sel_do g h b c))) (sr_joins b) [j']);
         sh_orders := sh_orders (fst (sel_do g h b c)); sh_withs := sh_withs (fst (sel_do g h b c)) |} b1
       = sel_view (fst (sel_do g h b c)) b1 <-> undisturbed b c (SelJoin args))).
    { intro N. apply Same; [|destruct c; try contradiction N; exact I].
      unfold sel_view. cbn [sh_joins sh_orders sh_withs]. rewrite part_kept; [reflexivity|exact Bj|exact Wj|exact (Kj N)]. }
    destruct c; try (apply Other; exact I). clear Other Kj Ko Kw Same. cbn [sel_do undisturbed] in *. rewrite Ej'.
    destruct (join_value args0) as [j|]; [|discriminate E1]. cbn [fst snd sh_joins sh_orders sh_withs] in *. injection E1 as <-.
    destruct (append_twice zero_join (g_joins g) (sh_joins h) (sr_joins b) [j] [j'] Vj) as (T1 & T2 & _). cbv zeta in *.
    destruct (append_view zero_join (g_joins g) (sh_joins h) (sr_joins b) [j] Vj) as (W & _). cbv zeta in W.
    unfold sel_view. cbn [sh_joins sh_orders sh_withs sr_joins sr_orders sr_withs sr_rest]. rewrite W.
    unfold room in *. cbn [length] in *.
    destruct (Dec (sr_joins b) 1%nat 1%nat) as [R|R].
    + rewrite T1 by exact R. cbn [written_over length app skipn firstn]. split.
      * intro E. right. apply (f_equal s_joins) in E. cbn [with_shared with_with with_order_by with_joins s_joins] in E.
        apply app_inv_head in E. injection E as ->. reflexivity.
      * intros [N| ->]; [exfalso; apply N, R|reflexivity].
    + rewrite T2 by exact R. split; [|reflexivity]. intros _. left. tauto.
  - (* With *)
    cbn [sel_do fst].
    assert (Lw : sl_len (sr_withs b) = 0%nat -> view (fst (make_slice (sh_withs (fst (sel_do g h b c))) args)) (sr_withs b1)
                  = view (sh_withs (fst (sel_do g h b c))) (sr_withs b1)) by (intros _; apply make_others; exact Ww).
    destruct (Nat.eqb_spec (sl_len (sr_withs b)) 0) as [Z|Z].
    { apply Same; [unfold sel_view; cbn [sh_joins sh_orders sh_withs]; rewrite (Lw Z); reflexivity|].
      destruct c; try exact I. left. exact Z. }
    assert (Other : match c with SelWith _ => False | _ => True end ->
      (sel_view {| sh_joins := sh_joins (fst (sel_do g h b c)); sh_orders := sh_orders (fst (sel_do g h b c));
         sh_withs := fst (append zero_withq (g_withs g) (sh_withs (fst (sel_do g h b c))) (sr_withs b) args) |} b1
       = sel_view (fst (sel_do g h b c)) b1 <-> undisturbed b c (SelWith args))).
    { intro N. apply Same; [|destruct c; try contradiction N; exact I].
      unfold sel_view. cbn [sh_joins sh_orders sh_withs]. rewrite part_kept; [reflexivity|exact Bw|exact Ww|exact (Kw N)]. }
    destruct c; try (apply Other; exact I). clear Other Kj Ko Kw Same Lw. cbn [sel_do undisturbed] in *.
    rewrite (proj2 (Nat.eqb_neq _ _) Z) in *. cbn [fst snd sh_joins sh_orders sh_withs] in *. injection E1 as <-.
    destruct (append_twice zero_withq (g_withs g) (sh_withs h) (sr_withs b) args0 args Vw) as (T1 & T2 & _). cbv zeta in *.
    destruct (append_view zero_withq (g_withs g) (sh_withs h) (sr_withs b) args0 Vw) as (W & _). cbv zeta in W.
    unfold sel_view. cbn [sh_joins sh_orders sh_withs sr_joins sr_orders sr_withs sr_rest]. rewrite W.
    destruct (Dec (sr_withs b) (length args0) (length args)) as [R|R].
    + rewrite T1 by exact R. split.
      * intro E. right. right. apply (f_equal s_with) in E. cbn [with_shared with_with with_order_by with_joins s_with] in E.
        apply app_inv_head in E. apply written_over_agree. exact E.
      * intros [N|[N|N]]; [contradiction|exfalso; apply N, R|]. apply written_over_agree in N. rewrite N. reflexivity.
    + rewrite T2 by exact R. split; [|reflexivity]. intros _. right. left. exact R.
  - (* OrderBy *)
    cbn [sel_do fst].
    assert (Other : match c with SelOrderBy _ => False | _ => True end ->
      (sel_view {| sh_joins := sh_joins (fst (sel_do g h b c));
         sh_orders := fst (append zero_order (g_orders g) (sh_orders (fst (sel_do g h b c))) (sr_orders b) orders);
         sh_withs := sh_withs (fst (sel_do g h b c)) |} b1
       = sel_view (fst (sel_do g h b c)) b1 <-> undisturbed b c (SelOrderBy orders))).
    { intro N. apply Same; [|destruct c; try contradiction N; exact I].
      unfold sel_view. cbn [sh_joins sh_orders sh_withs]. rewrite part_kept; [reflexivity|exact Bo|exact Wo|exact (Ko N)]. }
    destruct c; try (apply Other; exact I). clear Other Kj Ko Kw Same. cbn [sel_do undisturbed] in *.
    cbn [fst snd sh_joins sh_orders sh_withs] in *. injection E1 as <-.
    destruct (append_twice zero_order (g_orders g) (sh_orders h) (sr_orders b) orders0 orders Vo) as (T1 & T2 & _). cbv zeta in *.
    destruct (append_view zero_order (g_orders g) (sh_orders h) (sr_orders b) orders0 Vo) as (W & _). cbv zeta in W.
    unfold sel_view. cbn [sh_joins sh_orders sh_withs sr_joins sr_orders sr_withs sr_rest]. rewrite W.
    destruct (Dec (sr_orders b) (length orders0) (length orders)) as [R|R].
    + rewrite T1 by exact R. split.
      * intro E. right. apply (f_equal s_order_by) in E. cbn [with_shared with_with with_order_by with_joins s_order_by] in E.
        apply app_inv_head in E. apply written_over_agree. exact E.
      * intros [N|N]; [exfalso; apply N, R|]. apply written_over_agree in N. rewrite N. reflexivity.
    + rewrite T2 by exact R. split; [|reflexivity]. intros _. left. exact R.
Qed.

(* ------------------------------------------------------------------------- *)
(* C37                                                                         *)
(* ------------------------------------------------------------------------- *)

(* After any program, two forks of builder i by any two calls. The second fork and the base always
   print what they should. The first fork prints its own query until the second fork is made, and
   after it exactly when the second call leaves what the first appended. Update is below, Insert in C59; the
   full claim is false. *)
Theorem C37_select_exactly_partial : forall g p i c c' b q q1 q2,
  let n := length (creations p) in
  nth i (snd (sel_after g p)) None = Some b ->
  sel_memory g (p ++ [Show i]) = sel_memory g p ++ [Some q] ->
  sel_step q c = Ok q1 -> sel_step q c' = Ok q2 ->
  exists q1', sel_memory g (p ++ [Call i c; Show n; Call i c'; Show n; Show (S n); Show i])
              = sel_memory g p ++ [Some q1; Some q1'; Some q2; Some q]
    /\ (q1' = q1 <-> undisturbed b c c').
Proof.
  intros g p i c c' b q q1 q2 n Eb Eq S1 S2. unfold sel_memory in *. rewrite memory_run_app in Eq. rewrite memory_run_app.
  apply app_inv_head in Eq. pose proof (sel_reachable g p i b Eb) as V. unfold sel_after in Eb, V.
  pose proof (memory_after_length sel_new (sel_do g) (fun h b => (h, sel_view h b)) p empty_sel_heap []) as Ln. cbn [length Nat.add] in Ln. fold n in Ln.
  destruct (memory_after sel_new (sel_do g) (fun h b => (h, sel_view h b)) empty_sel_heap [] p) as [h regs]. cbn [fst snd] in *.
  cbn [memory_run] in Eq. rewrite Eb in Eq. cbn [snd] in Eq. injection Eq as <-.
  assert (Li : (i < length regs)%nat).
  { destruct (Nat.lt_ge_cases i (length regs)) as [L|G]; [exact L|]. rewrite nth_overflow in Eb by exact G. discriminate Eb. }
  destruct (sel_do_step g h b c V) as [D1 B1]. destruct (sel_do_valid g h b c V) as [V1 Vt].
  destruct (snd (sel_do g h b c)) as [b1|e] eqn:E1; rewrite D1 in S1; [|discriminate S1]. injection S1 as <-.
  specialize (V1 b1 eq_refl). pose proof (Vt b V) as Vb.
  destruct (sel_do_step g (fst (sel_do g h b c)) b c' Vb) as [D2 B2]. rewrite B1 in D2, B2.
  destruct (snd (sel_do g (fst (sel_do g h b c)) b c')) as [b2|e] eqn:E2; rewrite D2 in S2; [|discriminate S2]. injection S2 as <-.
  exists (sel_view (fst (sel_do g (fst (sel_do g h b c)) b c')) b1). split; [|apply sel_fork; [exact V|exact E1]].
  f_equal. cbn [memory_run]. rewrite Eb. cbv zeta. rewrite E1. cbn [ok].
  rewrite <- Ln. rewrite (app_nth2 regs [Some b1]) by lia. rewrite Nat.sub_diag. cbn [nth fst snd].
  rewrite (app_nth1 regs [Some b1]) by exact Li. rewrite Eb, E2. cbn [ok].
  rewrite (app_nth1 (regs ++ [Some b1])) by (rewrite app_length; cbn; lia). rewrite (app_nth2 regs [Some b1]) by lia. rewrite Nat.sub_diag. cbn [nth fst snd].
  rewrite (app_nth2 (regs ++ [Some b1])) by (rewrite app_length; cbn; lia). rewrite app_length. cbn [length]. replace (S (length regs) - (length regs + 1))%nat with 0%nat by lia. cbn [nth].
  rewrite (app_nth1 (regs ++ [Some b1])) by (rewrite app_length; cbn; lia). rewrite (app_nth1 regs) by exact Li. rewrite Eb, B2. reflexivity.
Qed.
Print Assumptions C37_select_exactly_partial.

(* The builder three joins long has an array for four. *)
Example C37_select_exactly_example : forall c c',
  let b := {| sr_rest := match lk_select [GStr "x"] with Ok q => match sel_step q (SelFrom [GStr "t"]) with Ok q' => q' | _ => q end | _ => new_select end;
              sr_joins := {| sl_ptr := 2; sl_len := 3; sl_cap := 4 |}; sr_orders := nil_slice; sr_withs := nil_slice |} in
  nth 4 (snd (sel_after go_growth three_joins)) None = Some b
  /\ (c = SelJoin [GStr "d ON d.i = t.i"] -> c' = SelJoin [GStr "e ON e.i = t.i"] -> ~ undisturbed b c c')
  /\ (c = SelJoin [GStr "d ON d.i = t.i"] -> c' = SelLimit (GInt KInt 1) -> undisturbed b c c').
Proof.
  intros c c' b. split; [vm_compute; reflexivity|]. split; intros -> ->; [|exact I].
  cbn [undisturbed]. destruct (join_value [GStr "d ON d.i = t.i"]) as [j|] eqn:E; [|vm_compute in E; discriminate E].
  destruct (join_value [GStr "e ON e.i = t.i"]) as [j'|] eqn:E'; [|vm_compute in E'; discriminate E'].
  intros [N|N]; [apply N; vm_compute; repeat constructor|]. subst j'. rewrite <- E in E'.
  apply (f_equal (fun r => match r with Ok j => t_name (j_table j) | _ => "" end)) in E'. vm_compute in E'. discriminate E'.
Qed.

(* Join adds one element at a time, so the room behind k joins depends on k only: this is the
   capacity after k appends. *)
Fixpoint joins_capacity (g : growth) (k : nat) : nat :=
  match k with
  | O => O
  | S k' => let c := joins_capacity g k' in if S k' <=? c then c else Nat.max (S k') (g_joins g c (S k'))
  end%nat.

Lemma capacity_of_joins : forall g p i b, nth i (snd (sel_after g p)) None = Some b ->
  sl_cap (sr_joins b) = joins_capacity g (sl_len (sr_joins b)).
Proof.
  intros g p i b E.
  apply (memory_after_ind sel_new (sel_do g) (fun h b => (h, sel_view h b)) (fun _ b => sl_cap (sr_joins b) = joins_capacity g (sl_len (sr_joins b))))
    with (p := p) (h := empty_sel_heap) (regs := []).
  - intros h a h' r N. unfold sel_new in N. destruct (lk_select a); [|discriminate N]. injection N as <- <-. reflexivity.
  - intros h a r H. exact H.
  - intros h r c h' r' H D. destruct c; cbn [sel_do] in D;
      try (destruct (sel_step (sr_rest r) _); [|discriminate D]; cbn [bind] in D; injection D as <- <-; exact H);
      try (injection D as <- <-; exact H).
    destruct (join_value args) as [j|]; [|discriminate D]. injection D as <- <-. cbn [sr_joins].
    unfold append. cbn [length]. rewrite Nat.add_1_r.
    destruct (S (sl_len (sr_joins r)) <=? sl_cap (sr_joins r))%nat eqn:L; cbn [snd sl_cap sl_len joins_capacity]; rewrite <- H, L; reflexivity.
  - intros h r c r' _ H. exact H.
  - intros h r r' _ H. exact H.
  - intros r [].
  - unfold sel_after in E. rewrite <- E. apply nth_In.
    destruct (Nat.lt_ge_cases i (length (snd (memory_after sel_new (sel_do g) (fun h b => (h, sel_view h b)) empty_sel_heap [] p)))) as [L|G]; [exact L|].
    rewrite nth_overflow in E by exact G. discriminate E.
Qed.

(* The same in terms of the statements alone: two forks of a builder with k joins by Join are kept
   apart exactly when the array behind k joins is full, or both add the same join. *)
Theorem C37_joins_exactly_partial : forall g p i args args' j j' q,
  let n := length (creations p) in let k := length (s_joins q) in
  sel_memory g (p ++ [Show i]) = sel_memory g p ++ [Some q] ->
  join_value args = Ok j -> join_value args' = Ok j' ->
  exists q', sel_memory g (p ++ [Call i (SelJoin args); Show n; Call i (SelJoin args'); Show n; Show (S n); Show i])
             = sel_memory g p ++ [Some (with_joins q (s_joins q ++ [j])); Some q'; Some (with_joins q (s_joins q ++ [j'])); Some q]
    /\ (q' = with_joins q (s_joins q ++ [j]) <-> j = j' \/ joins_capacity g k = k).
Proof.
  intros g p i args args' j j' q n k Eq Ej Ej'.
  destruct (nth i (snd (sel_after g p)) None) as [b|] eqn:Eb.
  2:{ exfalso. unfold sel_memory in Eq. rewrite memory_run_app in Eq. apply app_inv_head in Eq. unfold sel_after in Eb.
      cbn [memory_run] in Eq. rewrite Eb in Eq. discriminate Eq. }
  assert (St : forall args j, join_value args = Ok j -> sel_step q (SelJoin args) = Ok (with_joins q (s_joins q ++ [j])))
    by (intros a x H; cbn [sel_step]; rewrite sel_join_value, H; reflexivity).
  destruct (C37_select_exactly_partial g p i (SelJoin args) (SelJoin args') b q _ _ Eb Eq (St _ _ Ej) (St _ _ Ej')) as (q' & M & X).
  exists q'. split; [exact M|]. rewrite X. cbn [undisturbed]. rewrite Ej, Ej'. unfold room. cbn [length].
  assert (L : sl_len (sr_joins b) = k).
  { unfold sel_memory in Eq. rewrite memory_run_app in Eq. apply app_inv_head in Eq. cbn [memory_run] in Eq.
    pose proof (sel_reachable g p i b Eb) as V. unfold sel_after in Eb, V. rewrite Eb in Eq. injection Eq as <-.
    unfold k. symmetry. apply view_length. apply V. }
  pose proof (capacity_of_joins g p i b Eb) as C. rewrite L in C. rewrite L, C.
  assert (Ge : (k <= joins_capacity g k)%nat).
  { clear. destruct k as [|k]; [constructor|]. cbn [joins_capacity]. destruct (Nat.leb_spec (S k) (joins_capacity g k)); lia. }
  split.
  - intros [N|N]; [right; lia|left; exact N].
  - intros [N|N]; [right; exact N|left; lia].
Qed.
Print Assumptions C37_joins_exactly_partial.

Lemma joins_capacity_S : forall g k, joins_capacity g (S k)
  = if (S k <=? joins_capacity g k)%nat then joins_capacity g k else Nat.max (S k) (g_joins g (joins_capacity g k) (S k)).
Proof. reflexivity. Qed.

Lemma doubling_capacity : forall k, (0 < k)%nat -> exists e, joins_capacity go_growth k = (2 ^ e)%nat /\ (k <= 2 ^ e < 2 * k)%nat.
Proof.
  induction k as [|k IH]; intro P; [lia|]. destruct k as [|k].
  - exists 0%nat. split; [reflexivity|cbn; lia].
  - destruct (IH ltac:(lia)) as (e & C & R). rewrite joins_capacity_S, C.
    destruct (Nat.leb_spec (S (S k)) (2 ^ e)) as [L|L].
    + exists e. split; [reflexivity|lia].
    + exists (S e). cbn [g_joins go_growth]. unfold doubling. assert (2 ^ e = S k)%nat by lia.
      destruct (Nat.ltb_spec (2 * 2 ^ e) (S (S k))) as [X|X]; [lia|]. cbn [Nat.pow]. lia.
Qed.

(* With capacities that double: exactly when the base has no join, 1, 2, 4, 8, ... joins. *)
Theorem C37_joins_doubling_partial : forall p i args args' j j' q,
  let n := length (creations p) in let k := length (s_joins q) in
  sel_memory go_growth (p ++ [Show i]) = sel_memory go_growth p ++ [Some q] ->
  join_value args = Ok j -> join_value args' = Ok j' ->
  exists q', sel_memory go_growth (p ++ [Call i (SelJoin args); Show n; Call i (SelJoin args'); Show n; Show (S n); Show i])
             = sel_memory go_growth p ++ [Some (with_joins q (s_joins q ++ [j])); Some q'; Some (with_joins q (s_joins q ++ [j'])); Some q]
    /\ (q' = with_joins q (s_joins q ++ [j]) <-> j = j' \/ k = 0%nat \/ exists e, k = (2 ^ e)%nat).
Proof.
  intros p i args args' j j' q n k Eq Ej Ej'.
  destruct (C37_joins_exactly_partial go_growth p i args args' j j' q Eq Ej Ej') as (q' & M & X). exists q'. split; [exact M|].
  rewrite X. fold k. clear. destruct k as [|k]; [split; intro; [right; left; reflexivity|right; reflexivity]|].
  destruct (doubling_capacity (S k) ltac:(lia)) as (e & C & R). rewrite C. split.
  - intros [E|E]; [left; exact E|]. right. right. exists e. symmetry. exact E.
  - intros [E|[E|(d & E)]]; [left; exact E|discriminate E|]. right. rewrite E in *.
    assert (D : d = e); [|rewrite D; reflexivity].
    destruct (Nat.lt_trichotomy d e) as [L|[L|L]]; [|exact L|].
    + exfalso. assert (2 ^ S d <= 2 ^ e)%nat by (apply Nat.pow_le_mono_r; lia). cbn [Nat.pow] in H. lia.
    + exfalso. assert (2 ^ e < 2 ^ d)%nat by (apply Nat.pow_lt_mono_r; lia). lia.
Qed.
Print Assumptions C37_joins_doubling_partial.

Example C37_joins_doubling_example : exists q j j',
  sel_memory go_growth (three_joins ++ [Show 4]) = sel_memory go_growth three_joins ++ [Some q]
  /\ length (s_joins q) = 3%nat /\ (forall e, length (s_joins q) <> 2 ^ e)%nat
  /\ join_value [GStr "d ON d.i = t.i"] = Ok j /\ join_value [GStr "e ON e.i = t.i"] = Ok j' /\ j <> j'.
Proof.
  destruct (join_value [GStr "d ON d.i = t.i"]) as [j|] eqn:E; [|vm_compute in E; discriminate E].
  destruct (join_value [GStr "e ON e.i = t.i"]) as [j'|] eqn:E'; [|vm_compute in E'; discriminate E'].
  destruct (sel_memory go_growth (three_joins ++ [Show 4])) as [|[q|] [|]] eqn:M; try (vm_compute in M; discriminate M).
  exists q, j, j'. split; [vm_compute; reflexivity|].
  assert (L : length (s_joins q) = 3%nat).
  { apply (f_equal (map (option_map (fun q => length (s_joins q))))) in M. vm_compute in M. injection M as M. symmetry. exact M. }
  split; [exact L|]. split.
  { rewrite L. intros [|[|e]]; cbn [Nat.pow]; [discriminate|discriminate|]. lia. }
  split; [reflexivity|]. split; [reflexivity|]. intros <-. rewrite <- E in E'.
  apply (f_equal (fun r => match r with Ok j => t_name (j_table j) | _ => "" end)) in E'. vm_compute in E'. discriminate E'.
Qed.

(* ------------------------------------------------------------------------- *)
(* Update                                                                      *)
(* ------------------------------------------------------------------------- *)

Definition upd_after {O : Oracle} (g : growth) (p : list upd_cmd) := memory_after upd_new (upd_do g) upd_show empty_upd_heap [] p.

Lemma upd_reachable {O : Oracle} : (forall l, Permutation l (o_sort l)) ->
  forall g p i b, nth i (snd (upd_after g p)) None = Some b -> upd_valid (fst (upd_after g p)) b.
Proof.
  intros C g p i b E. unfold upd_after in *.
  apply (memory_after_ind upd_new (upd_do g) upd_show upd_valid).
  - intros h a h' r N. unfold upd_new in N. destruct (lk_update a); cbn in N; [|discriminate N]. injection N as <- <-.
    split; [|left; split; reflexivity]. split; cbn [ur_set pr_map pr_cols pr_exprs set_maps uh_maps]; [rewrite app_length; cbn; lia|left; split; reflexivity..].
  - intros h a r [[V1 V2 V3] V4]. split; [|exact V4]. split; [|exact V2|exact V3]. cbn [upd_new fst set_maps uh_maps]. rewrite app_length. lia.
  - intros h r c h' r' V S. destruct (upd_do_step g h r c V) as [_ A]. rewrite S in A. apply A.
  - intros h r c r' V V'. apply (upd_do_step g h r c V). exact V'.
  - intros h r r' V V'. apply upd_show_valid; assumption.
  - intros r [].
  - rewrite <- E. apply nth_In. match goal with |- (_ < length ?l)%nat => destruct (Nat.lt_ge_cases i (length l)) as [L|G]; [exact L|] end.
    rewrite nth_overflow in E by exact G. discriminate E.
Qed.

(* After any program, any call on builder i. What the call returns prints the receiver with that
   call. The receiver keeps its columns and everything else, but takes over all the values that
   the call assigned. *)
Theorem C37_update_exactly_partial {O : Oracle} : forall g p i c u u1, (forall l, Permutation l (o_sort l)) ->
  let n := length (creations p) in
  upd_memory g (p ++ [Show i]) = upd_memory g p ++ [Some u] -> upd_step u c = Ok u1 ->
  upd_memory g (p ++ [Call i c; Show n]) = upd_memory g p ++ [Some u1]
  /\ upd_memory g (p ++ [Call i c; Show i]) = upd_memory g p ++ [Some (with_map u (p_map (u_set u1)))].
Proof.
  intros g p i c u u1 C n Eq S1. unfold upd_memory in *. rewrite memory_run_app in Eq. rewrite !memory_run_app.
  apply app_inv_head in Eq. pose proof (upd_reachable C g p i) as V. unfold upd_after in V.
  pose proof (memory_after_length upd_new (upd_do g) upd_show p empty_upd_heap []) as Ln. cbn [length Nat.add] in Ln. fold n in Ln.
  destruct (memory_after upd_new (upd_do g) upd_show empty_upd_heap [] p) as [h regs]. cbn [fst snd] in *.
  cbn [memory_run] in Eq. destruct (nth i regs None) as [b|] eqn:Eb; [|discriminate Eq]. cbn [snd upd_show] in Eq. injection Eq as <-.
  assert (Li : (i < length regs)%nat).
  { destruct (Nat.lt_ge_cases i (length regs)) as [L|G]; [exact L|]. rewrite nth_overflow in Eb by exact G. discriminate Eb. }
  destruct (upd_do_step g h b c (V b eq_refl)) as [_ D]. destruct (snd (upd_do g h b c)) as [b1|e] eqn:E1.
  2:{ destruct D as [D _]. rewrite D in S1. discriminate S1. }
  destruct D as (D & _ & B). rewrite D in S1. injection S1 as <-.
  split; f_equal; cbn [memory_run]; rewrite Eb; cbv zeta; rewrite E1; cbn [ok].
  - rewrite <- Ln. rewrite (app_nth2 regs [Some b1]) by lia. rewrite Nat.sub_diag. reflexivity.
  - rewrite (app_nth1 regs [Some b1]) by exact Li. rewrite Eb. cbn [upd_show snd]. rewrite B. reflexivity.
Qed.
Print Assumptions C37_update_exactly_partial.

(* So only Set with pairs can change its receiver. *)
Theorem C37_update_receiver_kept {O : Oracle} : forall g p i c u u1, (forall l, Permutation l (o_sort l)) ->
  match c with UpdSet args => forall a, In a args -> match a with GStr _ | GColumn _ => True | _ => False end | _ => True end ->
  upd_memory g (p ++ [Show i]) = upd_memory g p ++ [Some u] -> upd_step u c = Ok u1 ->
  upd_memory g (p ++ [Call i c; Show i]) = upd_memory g (p ++ [Show i]).
Proof.
  intros g p i c u u1 C N Eq S1. destruct (C37_update_exactly_partial g p i c u u1 C Eq S1) as [_ ->]. rewrite Eq. f_equal. f_equal. f_equal.
  assert (M : p_map (u_set u1) = p_map (u_set u)).
  { assert (F : forall (B : Type) (f : pairs -> B -> res pairs) l, (forall p x p', In x l -> f p x = Ok p' -> p_map p' = p_map p) ->
      forall p p', fold_res f l p = Ok p' -> p_map p' = p_map p).
    { intros B f. induction l as [|x l IH]; intros Hf q q' E; cbn [fold_res] in E; [injection E as <-; reflexivity|].
      destruct (f q x) as [q1|] eqn:E1; [|discriminate E]. cbn [bind] in E.
      rewrite (IH (fun p y p' I => Hf p y p' (or_intror I)) q1 q' E). apply (Hf q x q1 (or_introl eq_refl) E1). }
    destruct c; cbn [upd_step] in S1; try (injection S1 as <-; reflexivity);
      try (match type of S1 with bind ?x _ = _ => destruct x; [|discriminate S1] end; injection S1 as <-; reflexivity);
      try (match type of S1 with (if ?b then _ else _) = _ => destruct b; [discriminate S1|] end;
           match type of S1 with bind ?x _ = _ => destruct x; [|discriminate S1] end; injection S1 as <-; reflexivity).
    - destruct args as [|a args]; [discriminate S1|]. unfold merge_set in S1.
      destruct (fold_res merge_arg (a :: args) (u_set u)) as [q|] eqn:E; [|discriminate S1]. cbn [bind] in S1. injection S1 as <-. cbn [upd_with_set u_set].
      revert E. apply F. intros q0 x q1 I E. specialize (N x I).
      assert (K : forall cols p p', fold_res pairs_set cols p = Ok p' -> p_map p' = p_map p).
      { intros cols. apply F. intros p1 y p2 _ E2. unfold pairs_set in E2. destruct (p_mode p1); try discriminate E2; injection E2 as <-; reflexivity. }
      destruct x; try contradiction N; cbn [merge_arg] in E;
        (match type of E with bind ?x _ = _ => destruct x; [|discriminate E] end); cbn [bind] in E; exact (K _ _ _ E).
    - destruct (p_mode (u_set u)); try discriminate S1. destruct args as [|a args]; [discriminate S1|].
      match type of S1 with bind ?x _ = _ => destruct x as [q|] eqn:E; [|discriminate S1] end. cbn [bind] in S1. injection S1 as <-. cbn [upd_with_set u_set].
      revert E. apply F. intros q0 x q1 _ E. destruct (new_expression x); [|discriminate E]. cbn [bind] in E. unfold pairs_use in E.
      destruct (p_mode q0); try discriminate E. injection E as <-. reflexivity. }
  rewrite M. destruct u as [? ? ? ? [? ? ? ?] ? ? ?]. reflexivity.
Qed.
Print Assumptions C37_update_receiver_kept.

Example C37_update_exactly_example :
  let p := [New (GStr "t"); Call 0 (UpdSet [GPair (GStr "a") (GInt KInt 1)])] in
  let c := UpdSet [GPair (GStr "a") (GInt KInt 2); GPair (GStr "b") (GInt KInt 3)] in
  exists u u1, upd_memory (O := go_oracle) go_growth (p ++ [Show 1]) = upd_memory (O := go_oracle) go_growth p ++ [Some u]
    /\ upd_step u c = Ok u1
    /\ query (O := go_oracle) (StUpdate u) = Ok ("UPDATE ""t"" SET ""a"" = $1", [GInt KInt 1])
    /\ query (O := go_oracle) (StUpdate u1) = Ok ("UPDATE ""t"" SET ""a"" = $1, ""b"" = $2", [GInt KInt 2; GInt KInt 3])
    /\ query (O := go_oracle) (StUpdate (with_map u (p_map (u_set u1)))) = Ok ("UPDATE ""t"" SET ""a"" = $1", [GInt KInt 2]).
Proof.
  intros p c.
  assert (L : exists u, lk_update (GStr "t") = Ok u) by (eexists; reflexivity). destruct L as (u0 & L).
  destruct (upd_memory (O := go_oracle) go_growth (p ++ [Show 1])) as [|[u|] [|]] eqn:M; try (vm_compute in M; discriminate M).
  exists u. destruct (upd_step u c) as [u1|] eqn:E.
  2:{ exfalso. vm_compute in M. injection M as <-. vm_compute in E. discriminate E. }
  exists u1. split; [reflexivity|]. split; [reflexivity|]. vm_compute in M. injection M as <-. vm_compute in E. injection E as <-.
  split; [vm_compute; reflexivity|]. split; vm_compute; reflexivity.
Qed.

(* ------------------------------------------------------------------------- *)
(* C35: Insert                                                                 *)
(* ------------------------------------------------------------------------- *)

(* As C35_select. The actions of OnConflict are values of DoUpdate, kept in variables and given to
   any number of builders. *)
Theorem C35_insert {O : Oracle} : forall g acts p, sort_contract o_sort ->
  each_action do_update_value acts p -> NoDup (receivers p) ->
  map (option_map ins_sql) (ins_memory g acts p) = map (option_map ins_sql) (ins_values acts p).
Proof. exact C59_once. Qed.
Print Assumptions C35_insert.

Theorem C35_insert_chain {O : Oracle} : forall g acts p k a cs, sort_contract o_sort ->
  each_action do_update_value acts p -> NoDup (receivers p) -> chain p k a cs ->
  option_map ins_sql (last (ins_memory g acts (p ++ [Show k])) None)
  = option_map ins_sql (ok (do i <- lk_insert a; ins_run i (map (call_value acts) cs))).
Proof.
  intros g acts p k a cs C D A Hc.
  assert (L : forall l : list (option insert), option_map ins_sql (last l None) = last (map (option_map ins_sql) l) None).
  { induction l as [|x l IH]; [reflexivity|]. destruct l; [reflexivity|exact IH]. }
  rewrite L, C35_insert, <- L; [|exact C| |].
  - f_equal. unfold ins_values. rewrite (value_shows lk_insert (fun i c => ins_step i (call_value acts c)) p k a cs Hc). f_equal.
    destruct (lk_insert a) as [i|e]; [|reflexivity]. cbn [bind]. clear. revert i. unfold ins_run.
    induction cs as [|c cs IH]; intro i; cbn [map fold_res]; [reflexivity|].
    destruct (ins_step i (call_value acts c)); cbn [bind]; [apply IH|reflexivity].
  - intros i c args x Hi. apply (D i c args x). apply in_app_or in Hi. destruct Hi as [Hi|[Hi|[]]]; [exact Hi|discriminate Hi].
  - replace (receivers (p ++ [Show k])) with (receivers p); [exact A|].
    clear. induction p as [|[x|i c|i] p IH]; cbn; [reflexivity|exact IH|rewrite IH; reflexivity|exact IH].
Qed.
Print Assumptions C35_insert_chain.

(* [retried_hypotheses] in PropsInsForks.v is a program that meets the hypotheses. *)
Example C35_insert_example : NoDup (receivers retried) /\ each_action do_update_value [] retried.
Proof. split; apply retried_hypotheses. Qed.
