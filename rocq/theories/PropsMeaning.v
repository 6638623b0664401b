(* C65: carried out by a database, subqueries, WITH, DISTINCT, groups and windows do what the calls
   say, in terms of what the statements show on their own. *)
From Verif Require Import GrammarReadP PropsGrammar EffectP TablesP MeaningP ClosedP.
From Verif Require Export Closed.
From Coq Require Import Permutation.
From Verif Require PropsEffect PropsTables.

Section Data.
  Context {g : basis}.

  (* Columns, one after the other. *)
  Definition columns_item (ns : list name) : list item := map (fun n => ItName n []) ns.
  Definition at_names (ns : list name) (v : bnaming g) : list (bdatum g) := map v ns.

  (* The combinations of rows of the tables in FROM and the joins. *)
  Definition combinations (db : tabledb g) (ts : list tableref) (js : list (list string * tableref * formula)) : list (bnaming g) :=
    map (names_in nothing) (bfrom g means db nothing js ts).

  (* The answer of a statement does not depend on the row in which it stands. *)
  Definition uncorrelated (db : tabledb g) (b : body) : Prop :=
    forall v, means (Query b) db v = means (Query b) db nothing.

  (* The value that a row of the columns ns has for one of them. *)
  Definition value_at (ns : list name) (r : list (bdatum g)) : bnaming g := fun n =>
    match find (fun x => name_eqb (fst x) n) (combine ns r) with Some x => snd x | None => bnull g end.

  (* bsame is an equivalence. *)
  Definition equivalence : Prop :=
    (forall a, bsame g a a = true) /\ (forall a b, bsame g a b = true -> bsame g b a = true)
    /\ (forall a b c, bsame g a b = true -> bsame g b c = true -> bsame g a c = true).
End Data.

(* Select(args...).From(froms...).Join(...)... and one condition, or none *)
Definition plain_program (args froms : list gval) (js : list join_arg) (c : option expr) : program :=
  {| pr_args := args; pr_distinct := false; pr_distinct_on := []; pr_with := []; pr_from := froms; pr_joins := js;
     pr_conditions := match c with None => None | Some e => Some (e, []) end;
     pr_group_by := []; pr_having := None; pr_order_by := []; pr_window := Everything |}.
Definition in_window_of (p : program) (w : window) : program :=
  {| pr_args := pr_args p; pr_distinct := pr_distinct p; pr_distinct_on := pr_distinct_on p; pr_with := pr_with p; pr_from := pr_from p; pr_joins := pr_joins p;
     pr_conditions := pr_conditions p; pr_group_by := pr_group_by p; pr_having := pr_having p;
     pr_order_by := pr_order_by p; pr_window := w |}.
Definition with_distinct_rows (p : program) (d : bool) : program :=
  {| pr_args := pr_args p; pr_distinct := d; pr_distinct_on := pr_distinct_on p; pr_with := pr_with p; pr_from := pr_from p; pr_joins := pr_joins p;
     pr_conditions := pr_conditions p; pr_group_by := pr_group_by p; pr_having := pr_having p;
     pr_order_by := pr_order_by p; pr_window := pr_window p |}.
Definition with_distinct_on (p : program) (ds : list gval) : program :=
  {| pr_args := pr_args p; pr_distinct := pr_distinct p; pr_distinct_on := ds; pr_with := pr_with p; pr_from := pr_from p;
     pr_joins := pr_joins p; pr_conditions := pr_conditions p; pr_group_by := pr_group_by p; pr_having := pr_having p;
     pr_order_by := pr_order_by p; pr_window := pr_window p |}.
Definition with_having (p : program) (h : option expr) : program :=
  {| pr_args := pr_args p; pr_distinct := pr_distinct p; pr_distinct_on := pr_distinct_on p; pr_with := pr_with p;
     pr_from := pr_from p; pr_joins := pr_joins p; pr_conditions := pr_conditions p; pr_group_by := pr_group_by p; pr_having := h;
     pr_order_by := pr_order_by p; pr_window := pr_window p |}.
Definition with_order (p : program) (os : list order) : program :=
  {| pr_args := pr_args p; pr_distinct := pr_distinct p; pr_distinct_on := pr_distinct_on p; pr_with := pr_with p;
     pr_from := pr_from p; pr_joins := pr_joins p; pr_conditions := pr_conditions p; pr_group_by := pr_group_by p;
     pr_having := pr_having p; pr_order_by := os; pr_window := pr_window p |}.
(* the same tables, joins and conditions, with other columns and grouped *)
Definition grouped_by (p : program) (args gs : list gval) : program :=
  {| pr_args := args; pr_distinct := pr_distinct p; pr_distinct_on := pr_distinct_on p; pr_with := pr_with p; pr_from := pr_from p; pr_joins := pr_joins p;
     pr_conditions := pr_conditions p; pr_group_by := gs; pr_having := pr_having p;
     pr_order_by := pr_order_by p; pr_window := pr_window p |}.

(* ------------------------------------------------------------------------- *)
(* Lemmas                                                                      *)
(* ------------------------------------------------------------------------- *)

Lemma is_or : forall a b, is_true (or3 a b) = (is_true a || is_true b)%bool.
Proof. intros [[]|] [[]|]; reflexivity. Qed.
Definition is_false (a : option bool) : bool := match a with Some false => true | _ => false end.
Lemma not_or : forall a b, is_true (not3 (or3 a b)) = (is_false a && is_true (not3 b))%bool.
Proof. intros [[]|] [[]|]; reflexivity. Qed.

Section Lemmas.
  Context {O : Oracle} {g : basis}.
  #[local] Existing Instance Bound.

  Lemma among_some : forall (x : bdatum g) l, is_true (bamong x l) = existsb (fun y => is_true (bcompares g "=" x y)) l.
  Proof. intros x. induction l as [|y l IH]; [reflexivity|]. cbn [bamong fold_right existsb]. rewrite is_or. f_equal. exact IH. Qed.
  Lemma among_none : forall (x : bdatum g) l, is_true (not3 (bamong x l)) = forallb (fun y => is_false (bcompares g "=" x y)) l.
  Proof. intros x. induction l as [|y l IH]; [reflexivity|]. cbn [bamong fold_right forallb]. rewrite not_or. f_equal. exact IH. Qed.

  Lemma not_aggregated : forall ns, aggregated (columns_item ns) = false.
  Proof. induction ns as [|n ns IH]; [reflexivity|exact IH]. Qed.
  Lemma columns_value : forall (db : tabledb g) ns gr, bitems g means db (columns_item ns) gr = at_names ns (fst gr).
  Proof. intros db ns gr. unfold bitems, columns_item, at_names. rewrite map_map. reflexivity. Qed.

  Lemma columns_count : forall (db : tabledb g) ns a gr,
    bitems g means db (columns_item ns ++ [ItAgg "COUNT" false "*" a])%list gr
    = (at_names ns (fst gr) ++ [bnumber g (List.length (snd gr))])%list.
  Proof.
    intros db ns a gr. rewrite <- (columns_value db ns gr). unfold bitems. rewrite map_app. reflexivity.
  Qed.

  Definition plain_body (ns : list name) (ts : list tableref) (jl : list (list string * tableref * formula)) (f : option formula) : body :=
    nth_body [] (columns_item ns) false [] ts jl f [] None [] None None.

  Lemma all_true {A} : forall l : list A, filter (fun _ => true) l = l.
  Proof. induction l as [|x l IH]; [reflexivity|]. cbn [filter]. rewrite IH. reflexivity. Qed.

  Lemma plain_means : forall (db : tabledb g) ns ts jl f,
    means (Query (plain_body ns ts jl f)) db nothing
    = map (at_names ns) (filter (bchosen g means db f) (combinations db ts jl)).
  Proof.
    intros db ns ts jl f. unfold plain_body, nth_body. cbn [means q_prefix q_suffix].
    unfold body_rows. cbn [q_prefix q_with q_distinct_on q_distinct q_items q_from q_joins q_where q_group_by q_having q_order_by q_limit
         q_offset q_suffix nth_body with_tables grouped btake bskip bsorted bchosen].
    rewrite not_aggregated. rewrite all_true. rewrite !map_map. cbn [fst snd].
    apply map_ext. intro v. rewrite columns_value. reflexivity.
  Qed.

  Lemma plain_says : forall args froms js c ns ts jl f,
    args <> [] -> args_say args (columns_item ns) -> ns <> [] -> Forall2 table_says froms ts -> Forall2 join_arg_says js jl ->
    match c, f with None, None => True | Some e, Some h => says e h | _, _ => False end ->
    program_says (plain_program args froms js c) (plain_body ns ts jl f).
  Proof.
    intros args froms js c ns ts jl f Na Ha Nn Hf Hj Hc. constructor; cbn; try assumption; try reflexivity; try tauto.
    - repeat split; try assumption. destruct ns; [congruence|discriminate].
    - constructor.
    - destruct c as [e|], f as [h|]; try contradiction.
      + exists (Some (h, [])). split; [split; [exact Hc|constructor]|reflexivity].
      + exists None. split; reflexivity.
    - constructor.
  Qed.

  Lemma plain_responds : forall (db : tabledb g) args froms js c ns ts jl f s,
    args <> [] -> args_say args (columns_item ns) -> ns <> [] -> Forall2 table_says froms ts -> Forall2 join_arg_says js jl ->
    match c, f with None, None => True | Some e, Some h => says e h | _, _ => False end ->
    program_select (plain_program args froms js c) = Ok s ->
    responds db s (map (at_names ns) (filter (bchosen g means db f) (combinations db ts jl))).
  Proof.
    intros db args froms js c ns ts jl f s Na Ha Nn Hf Hj Hc H. rewrite <- plain_means.
    exact (program_responds _ _ s (plain_says args froms js c ns ts jl f Na Ha Nn Hf Hj Hc) H g db).
  Qed.

  Lemma sub_responds : forall (db : tabledb g) sub sb, sel_says sub sb -> finished sub sb ->
    responds db sub (means (Query sb) db nothing).
  Proof. intros db sub sb S [N _]. exact (described_responds sub sb S N g db). Qed.

  (* ----------------------------------------------------------------------- *)
  (* Duplicates                                                                *)
  (* ----------------------------------------------------------------------- *)

  Context (E : equivalence (g := g)).

  Lemma same_refl : forall a : list (bdatum g), same_values a a = true.
  Proof. induction a as [|x a IH]; [reflexivity|]. cbn [same_values]. rewrite (proj1 E x), IH. reflexivity. Qed.
  Lemma same_sym : forall a b : list (bdatum g), same_values a b = true -> same_values b a = true.
  Proof.
    induction a as [|x a IH]; intros [|y b] H; try discriminate; [reflexivity|]. cbn [same_values] in *.
    apply andb_true_iff in H as [H1 H2]. rewrite (proj1 (proj2 E) _ _ H1), (IH _ H2). reflexivity.
  Qed.
  Lemma same_trans : forall a b c : list (bdatum g), same_values a b = true -> same_values b c = true -> same_values a c = true.
  Proof.
    induction a as [|x a IH]; intros [|y b] [|z c] H H'; try discriminate; [reflexivity|]. cbn [same_values] in *.
    apply andb_true_iff in H as [H1 H2]. apply andb_true_iff in H' as [H3 H4].
    rewrite (proj2 (proj2 E) _ _ _ H1 H3), (IH _ _ H2 H4). reflexivity.
  Qed.

  Lemma firsts_in {A} (key : A -> list (bdatum g)) : forall l x, In x (firsts key l) -> In x l.
  Proof.
    induction l as [|y l IH]; intros x H; [exact H|]. cbn [firsts] in H. destruct H as [H|H]; [left; exact H|].
    apply filter_In in H as [H _]. right. apply IH, H.
  Qed.
  Lemma firsts_cover {A} (key : A -> list (bdatum g)) : forall l x, In x l ->
    exists y, In y (firsts key l) /\ same_values (key y) (key x) = true.
  Proof.
    induction l as [|y l IH]; intros x H; [destruct H|]. cbn [firsts]. destruct H as [<-|H].
    - exists y. split; [left; reflexivity|apply same_refl].
    - destruct (IH x H) as (z & Iz & Sz). destruct (same_values (key y) (key z)) eqn:S.
      + exists y. split; [left; reflexivity|]. exact (same_trans _ _ _ S Sz).
      + exists z. split; [|exact Sz]. right. apply filter_In. split; [exact Iz|]. rewrite S. reflexivity.
  Qed.
  Lemma filter_apart {A} (R : A -> A -> Prop) (p : A -> bool) : forall l, ForallOrdPairs R l -> ForallOrdPairs R (filter p l).
  Proof.
    induction l as [|x l IH]; intro H; [exact H|]. inversion H; subst. cbn [filter]. destruct (p x); [|apply IH; assumption].
    constructor; [|apply IH; assumption]. apply Forall_forall. intros y Iy. apply filter_In in Iy as [Iy _].
    rewrite Forall_forall in H2. apply H2, Iy.
  Qed.
  Lemma firsts_apart {A} (key : A -> list (bdatum g)) : forall l,
    ForallOrdPairs (fun x y => same_values (key x) (key y) = false) (firsts key l).
  Proof.
    induction l as [|x l IH]; [constructor|]. cbn [firsts]. constructor; [|apply filter_apart, IH].
    apply Forall_forall. intros y Iy. apply filter_In in Iy as [_ S]. apply negb_true_iff in S. exact S.
  Qed.
  Lemma firsts_map {A} (key : A -> list (bdatum g)) : forall l, map key (firsts key l) = firsts (fun k => k) (map key l).
  Proof.
    induction l as [|x l IH]; [reflexivity|]. cbn [firsts map]. f_equal. rewrite <- IH.
    generalize (firsts key l). intro m. induction m as [|y m IHm]; [reflexivity|]. cbn [map filter].
    destruct (negb (same_values (key x) (key y))); cbn [map]; rewrite IHm; reflexivity.
  Qed.

  (* The sizes of the groups add up. *)
  Definition group_size (l : list (list (bdatum g))) (k : list (bdatum g)) : nat := List.length (filter (same_values k) l).
  Lemma size_split : forall (k : list (bdatum g)) l,
    List.length l = group_size l k + List.length (filter (fun y => negb (same_values k y)) l).
  Proof. intros k l. unfold group_size. induction l as [|x l IH]; [reflexivity|]. cbn [filter]. destruct (same_values k x); cbn [negb List.length]; lia. Qed.
  Lemma firsts_filter : forall (k : list (bdatum g)) l,
    filter (fun y => negb (same_values k y)) (firsts (fun k => k) l) = firsts (fun k => k) (filter (fun y => negb (same_values k y)) l).
  Proof.
    intros k. induction l as [|x l IH]; [reflexivity|]. cbn [firsts filter].
    assert (Comm : forall p q (m : list (list (bdatum g))), filter p (filter q m) = filter q (filter p m)).
    { intros p q m. induction m as [|y m IHm]; [reflexivity|]. cbn [filter].
      destruct (q y) eqn:Eq, (p y) eqn:Ep; cbn [filter]; rewrite ?Eq, ?Ep, IHm; reflexivity. }
    destruct (same_values k x) eqn:S; cbn [negb].
    - rewrite Comm, IH. 
      (* nothing in the rest is the same as x *)
      assert (N : forall y, In y (firsts (fun k => k) (filter (fun y => negb (same_values k y)) l)) -> negb (same_values x y) = true).
      { intros y Iy. apply firsts_in in Iy. apply filter_In in Iy as [_ Ny]. apply negb_true_iff in Ny. apply negb_true_iff.
        destruct (same_values x y) eqn:Sx; [|reflexivity]. rewrite (same_trans _ _ _ S Sx) in Ny. discriminate. }
      revert N. generalize (firsts (fun k : list (bdatum g) => k) (filter (fun y => negb (same_values k y)) l)). intro m.
      induction m as [|y m IHm]; intro N; [reflexivity|]. cbn [filter]. rewrite (N y (or_introl eq_refl)). f_equal.
      apply IHm. intros z Iz. apply N. right. exact Iz.
    - cbn [firsts]. f_equal. rewrite Comm, IH. reflexivity.
  Qed.
  Lemma sizes_sum : forall n l, List.length l <= n -> list_sum (map (group_size l) (firsts (fun k => k) l)) = List.length l.
  Proof.
    induction n as [|n IH]; intros l Hn.
    - destruct l; [reflexivity|cbn in Hn; lia].
    - destruct l as [|x l]; [reflexivity|]. cbn [firsts map]. change (list_sum (?a :: ?m)) with (a + list_sum m).
      rewrite firsts_filter. set (rest := filter (fun y => negb (same_values x y)) l).
      assert (L : List.length rest <= n).
      { unfold rest. assert (X := size_split x l). cbn [List.length] in Hn. lia. }
      assert (Er : map (group_size (x :: l)) (firsts (fun k => k) rest) = map (group_size rest) (firsts (fun k => k) rest)).
      { apply map_ext_in. intros k Ik. apply firsts_in in Ik. unfold rest in Ik. apply filter_In in Ik as [_ Nk]. apply negb_true_iff in Nk.
        unfold group_size. cbn [filter]. destruct (same_values k x) eqn:S; [rewrite (same_sym _ _ S) in Nk; discriminate|].
        unfold rest. f_equal. clear - Nk E. induction l as [|y l IHl]; [reflexivity|]. cbn [filter].
        destruct (same_values x y) eqn:Sxy; cbn [negb].
        - destruct (same_values k y) eqn:Sky; [|exact IHl]. rewrite (same_trans _ _ _ Sxy (same_sym _ _ Sky)) in Nk. discriminate.
        - cbn [filter]. destruct (same_values k y); [f_equal|]; exact IHl. }
      rewrite Er, (IH rest L).
      assert (X := size_split x l). unfold group_size in *. cbn [filter]. rewrite same_refl. cbn [List.length]. fold rest in X. lia.
  Qed.
End Lemmas.

(* ------------------------------------------------------------------------- *)
(* Subqueries                                                                  *)
(* ------------------------------------------------------------------------- *)

(* Condition(x).In(sub) chooses the rows whose x equals the first column of some row that sub shows
   on its own. *)
Theorem C65_in {O : Oracle} : forall (g : basis) (db : tabledb g) args ns froms ts js jl x sub sb ga e s,
  args <> [] -> args_say (m := Bound) args (columns_item ns) -> ns <> [] ->
  Forall2 table_says froms ts -> Forall2 join_arg_says js jl ->
  plain_name x = true -> sub_arg sub ga -> sel_says (m := Bound) sub sb -> finished sub sb -> uncorrelated db sb ->
  expr_in (lk_condition (GStr x)) [ga] = Ok e ->
  program_select (plain_program args froms js (Some e)) = Ok s ->
  exists found, responds db sub found
    /\ responds db s (map (at_names ns) (filter (fun v =>
         existsb (fun r => is_true (bcompares g "=" (v (parts_of x)) (hd (bnull g) r))) found) (combinations db ts jl))).
Proof.
  intros g db args ns froms ts js jl x sub sb ga e s Na Ha Nn Hf Hj Px Sa Ss Fs U He H.
  exists (means (Query sb) db nothing). split; [apply sub_responds; assumption|].
  assert (P := plain_responds db args froms js (Some e) ns ts jl (Some (FInSub false (MName (parts_of x)) (Query sb))) s Na Ha Nn Hf Hj
    (says_in_sub x ga sub sb e Px Sa Ss Fs He) H).
  erewrite filter_ext; [exact P|]. intro v. cbn [bchosen btruth negated bterm]. rewrite (U v), among_some.
  generalize (means (Query sb) db nothing). intro m. induction m as [|r m IH]; [reflexivity|].
  cbn [map existsb]. rewrite IH. reflexivity.
Qed.
Print Assumptions C65_in.

(* NotIn(sub) chooses the rows whose x is known to differ from all of them. *)
Theorem C65_not_in {O : Oracle} : forall (g : basis) (db : tabledb g) args ns froms ts js jl x sub sb ga e s,
  args <> [] -> args_say (m := Bound) args (columns_item ns) -> ns <> [] ->
  Forall2 table_says froms ts -> Forall2 join_arg_says js jl ->
  plain_name x = true -> sub_arg sub ga -> sel_says (m := Bound) sub sb -> finished sub sb -> uncorrelated db sb ->
  expr_not_in (lk_condition (GStr x)) [ga] = Ok e ->
  program_select (plain_program args froms js (Some e)) = Ok s ->
  exists found, responds db sub found
    /\ responds db s (map (at_names ns) (filter (fun v =>
         forallb (fun r => is_false (bcompares g "=" (v (parts_of x)) (hd (bnull g) r))) found) (combinations db ts jl))).
Proof.
  intros g db args ns froms ts js jl x sub sb ga e s Na Ha Nn Hf Hj Px Sa Ss Fs U He H.
  exists (means (Query sb) db nothing). split; [apply sub_responds; assumption|].
  assert (P := plain_responds db args froms js (Some e) ns ts jl (Some (FInSub true (MName (parts_of x)) (Query sb))) s Na Ha Nn Hf Hj
    (says_not_in_sub x ga sub sb e Px Sa Ss Fs He) H).
  erewrite filter_ext; [exact P|]. intro v. cbn [bchosen btruth negated bterm]. rewrite (U v), among_none.
  generalize (means (Query sb) db nothing). intro m. induction m as [|r m IH]; [reflexivity|].
  cbn [map forallb]. rewrite IH. reflexivity.
Qed.
Print Assumptions C65_not_in.

(* So one NULL among the rows of sub, and NotIn(sub) chooses nothing. *)
Theorem C65_not_in_null {O : Oracle} : forall (g : basis) (db : tabledb g) args ns froms ts js jl x sub sb ga e s found r,
  (forall d, bcompares g "=" d (bnull g) = None) ->
  args <> [] -> args_say (m := Bound) args (columns_item ns) -> ns <> [] ->
  Forall2 table_says froms ts -> Forall2 join_arg_says js jl ->
  plain_name x = true -> sub_arg sub ga -> sel_says (m := Bound) sub sb -> finished sub sb -> uncorrelated db sb ->
  expr_not_in (lk_condition (GStr x)) [ga] = Ok e ->
  program_select (plain_program args froms js (Some e)) = Ok s ->
  responds db sub found -> In r found -> hd (bnull g) r = bnull g ->
  responds db s [].
Proof.
  intros g db args ns froms ts js jl x sub sb ga e s found r Hn Na Ha Nn Hf Hj Px Sa Ss Fs U He H F I E.
  destruct (C65_not_in g db args ns froms ts js jl x sub sb ga e s Na Ha Nn Hf Hj Px Sa Ss Fs U He H) as (found' & F' & R).
  rewrite <- (responds_once _ _ _ _ _ F F') in R.
  replace (filter _ _) with (@nil (bnaming g)) in R; [exact R|]. symmetry.
  clear R. induction (combinations db ts jl) as [|v l IH]; [reflexivity|]. cbn [filter].
  replace (forallb _ found) with false; [exact IH|]. symmetry.
  destruct (forallb _ found) eqn:Ef; [|reflexivity]. rewrite forallb_forall in Ef. specialize (Ef r I). rewrite E, Hn in Ef. discriminate.
Qed.
Print Assumptions C65_not_in_null.

(* Exists(sub) chooses every row if sub shows something on its own, and no row if it does not;
   NotExists(sub) the other way round. *)
Theorem C65_exists {O : Oracle} : forall (g : basis) (db : tabledb g) args ns froms ts js jl sub sb ga e e' s s',
  args <> [] -> args_say (m := Bound) args (columns_item ns) -> ns <> [] ->
  Forall2 table_says froms ts -> Forall2 join_arg_says js jl ->
  sub_arg sub ga -> sel_says (m := Bound) sub sb -> finished sub sb -> uncorrelated db sb ->
  lk_exists ga = Ok e -> lk_not_exists ga = Ok e' ->
  program_select (plain_program args froms js (Some e)) = Ok s ->
  program_select (plain_program args froms js (Some e')) = Ok s' ->
  exists found, responds db sub found
    /\ responds db s (match found with [] => [] | _ => map (at_names ns) (combinations db ts jl) end)
    /\ responds db s' (match found with [] => map (at_names ns) (combinations db ts jl) | _ => [] end).
Proof.
  intros g db args ns froms ts js jl sub sb ga e e' s s' Na Ha Nn Hf Hj Sa Ss Fs U He He' H H'.
  exists (means (Query sb) db nothing). split; [apply sub_responds; assumption|].
  assert (P := plain_responds db args froms js (Some e) ns ts jl (Some (FExists false (Query sb))) s Na Ha Nn Hf Hj
    (says_exists ga sub sb e Sa Ss Fs He) H).
  assert (P' := plain_responds db args froms js (Some e') ns ts jl (Some (FExists true (Query sb))) s' Na Ha Nn Hf Hj
    (says_not_exists ga sub sb e' Sa Ss Fs He') H').
  assert (X : forall n, filter (bchosen g means db (Some (FExists n (Query sb)))) (combinations db ts jl)
              = if xorb n (any_row (means (Query sb) db nothing)) then combinations db ts jl else []).
  { clear P P'. intro n. induction (combinations db ts jl) as [|v l IH]; [destruct (xorb _ _); reflexivity|]. cbn [filter].
    rewrite IH. cbn [bchosen btruth]. rewrite (U v). destruct n, (any_row (means (Query sb) db nothing)); reflexivity. }
  rewrite X in P, P'. destruct (means (Query sb) db nothing); split; assumption.
Qed.
Print Assumptions C65_exists.

(* Condition(x).Equal(sub), GreaterThan(sub), ... compare with the first value that sub shows on
   its own; with NULL if it shows nothing. *)
Theorem C65_compare {O : Oracle} : forall (g : basis) (db : tabledb g) args ns froms ts js jl x o sub sb ga e s,
  args <> [] -> args_say (m := Bound) args (columns_item ns) -> ns <> [] ->
  Forall2 table_says froms ts -> Forall2 join_arg_says js jl ->
  plain_name x = true -> takes_subquery o = true -> sub_arg sub ga -> sel_says (m := Bound) sub sb -> finished sub sb ->
  uncorrelated db sb ->
  cmp_expr (lk_condition (GStr x)) o ga = Ok e ->
  program_select (plain_program args froms js (Some e)) = Ok s ->
  exists found, responds db sub found
    /\ responds db s (map (at_names ns) (filter (fun v =>
         is_true (bcompares g (sql_op o) (v (parts_of x)) (hd (bnull g) (hd [] found)))) (combinations db ts jl))).
Proof.
  intros g db args ns froms ts js jl x o sub sb ga e s Na Ha Nn Hf Hj Px To Sa Ss Fs U He H.
  exists (means (Query sb) db nothing). split; [apply sub_responds; assumption|].
  assert (P := plain_responds db args froms js (Some e) ns ts jl (Some (FCmp (MName (parts_of x)) (sql_op o) (MSub (Query sb)))) s
    Na Ha Nn Hf Hj (says_cmp x o ga _ e Px (operand_sub o ga sub sb To Sa Ss Fs) He) H).
  erewrite filter_ext; [exact P|]. intro v. cbn [bchosen btruth bterm]. rewrite (U v). reflexivity.
Qed.
Print Assumptions C65_compare.

(* ------------------------------------------------------------------------- *)
(* WITH                                                                        *)
(* ------------------------------------------------------------------------- *)

(* Select(c1, c2, ...).With(With(x, sub)).From(x) shows the columns c1, c2, ... of what sub shows on
   its own. *)
Theorem C65_with {O : Oracle} : forall (g : basis) (db : tabledb g) args cs x from t sub sb ga w s,
  args <> [] -> args_say (m := Bound) args (columns_item (map (fun c => [c]) cs)) -> cs <> [] ->
  bare x = true -> table_says from t -> tb_name t = [x] ->
  sub_arg sub ga -> sel_says (m := Bound) sub sb -> finished sub sb -> lk_with x ga = Ok w ->
  incl cs (query_columns (Query sb)) ->
  program_select {| pr_args := args; pr_distinct := false; pr_distinct_on := []; pr_with := [w]; pr_from := [from]; pr_joins := [];
    pr_conditions := None; pr_group_by := []; pr_having := None; pr_order_by := []; pr_window := Everything |} = Ok s ->
  exists found, responds db sub found
    /\ responds db s (map (fun r => map (as_row (query_columns (Query sb)) r) cs) found).
Proof.
  intros g db args cs x from t sub sb ga w s Na Ha Nc Bx Ht Ex Sa Ss Fs Hw Inc H.
  set (b := nth_body [] (columns_item (map (fun c => [c]) cs)) false [(x, Query sb)] [t] [] None [] None [] None None).
  exists (means (Query sb) db nothing). split; [apply sub_responds; assumption|].
  assert (P : program_says {| pr_args := args; pr_distinct := false; pr_distinct_on := []; pr_with := [w]; pr_from := [from]; pr_joins := [];
    pr_conditions := None; pr_group_by := []; pr_having := None; pr_order_by := []; pr_window := Everything |} b).
  { constructor; cbn; try reflexivity; try tauto.
    - repeat split; try assumption. destruct cs; [congruence|discriminate].
    - apply (withs_some x ga sub sb w [] []); try assumption. constructor.
    - constructor; [exact Ht|constructor].
    - constructor.
    - exists None. split; [exact I|reflexivity].
    - constructor. }
  assert (R := program_responds _ _ s P H g db).
  replace (means (Query b) db nothing) with
    (map (fun r => map (as_row (query_columns (Query sb)) r) cs) (means (Query sb) db nothing)) in R; [exact R|].
  symmetry. rewrite (means_body b db nothing eq_refl eq_refl). unfold body_rows, b, nth_body.
  cbn [q_prefix q_with q_distinct_on q_distinct q_items q_from q_joins q_where q_group_by q_having q_order_by q_limit
         q_offset q_suffix grouped btake bskip bsorted bchosen with_tables].
  rewrite not_aggregated, !all_true, !map_map. cbn [fst snd bfrom bjoins with_row].
  rewrite Ex, name_eqb_refl. cbn [snd fst].
  rewrite !map_map. apply map_ext. intro r. rewrite columns_value. unfold at_names. cbn [fst]. rewrite map_map.
  apply map_ext_in. intros c Ic. cbn [names_in find]. unfold with_row. cbn [fst snd]. rewrite Ex, name_eqb_refl. cbn [fst].
  replace (has_col (query_columns (Query sb)) c) with true; [reflexivity|]. symmetry. unfold has_col. apply existsb_exists.
  exists c. split; [apply Inc, Ic|apply String.eqb_refl].
Qed.
Print Assumptions C65_with.

(* ------------------------------------------------------------------------- *)
(* Windows, duplicates, groups                                                 *)
(* ------------------------------------------------------------------------- *)

(* Whatever the program is, Limit(n).Offset(k) shows this part of what it shows without them. *)
Theorem C65_window {O : Oracle} : forall (g : basis) (db : tabledb g) p b w s s',
  program_says (in_window_of p Everything) b -> window_ok w ->
  program_select (in_window_of p Everything) = Ok s -> program_select (in_window_of p w) = Ok s' ->
  exists all, responds db s all /\ responds db s' (in_window w all).
Proof.
  intros g db p b w s s' P W H H'.
  assert (R := program_responds _ _ s P H g db).
  exists (means (Query b) db nothing). split; [exact R|].
  destruct b as [pre wi don d l ts jl wh gb hv ob li ofs suf]. destruct P as [Pa Pd Pdo Pw Pf Pj Pc Pg Ph Po (_ & El & Eo) (E1 & E2)].
  cbn in Pa, Pd, Pdo, Pw, Pf, Pj, Pc, Pg, Ph, Po, El, Eo, E1, E2. subst li ofs pre suf.
  assert (P' : program_says (in_window_of p w) (nth_body don l d wi ts jl wh gb hv ob (window_first w) (window_skip w))).
  { constructor; cbn; try assumption; try reflexivity; repeat split; assumption. }
  assert (R' := program_responds _ _ s' P' H' g db).
  match goal with |- responds _ _ ?o => replace o with
    (means (Query (nth_body don l d wi ts jl wh gb hv ob (window_first w) (window_skip w))) db nothing) end; [exact R'|].
  unfold nth_body. cbn [means q_prefix q_suffix]. unfold body_rows.
  cbn [q_prefix q_with q_distinct_on q_distinct q_items q_from q_joins q_where q_group_by q_having q_order_by q_limit
         q_offset q_suffix].
  set (rows := if d then _ else _). clearbody rows. destruct w as [|n|n k]; cbn [window_first window_skip btake bskip in_window]; try reflexivity.
  - rewrite Z_N_nat. reflexivity.
  - rewrite Z_N_nat. destruct (Z.eqb_spec k 0) as [->|N]; [reflexivity|]. cbn [bskip]. rewrite Z_N_nat. reflexivity.
Qed.
Print Assumptions C65_window.

(* Whatever the program is, Distinct() shows the rows that it shows without, each of them once. *)
Theorem C65_distinct {O : Oracle} : forall (g : basis) (db : tabledb g) p b s s',
  equivalence (g := g) -> pr_window p = Everything ->
  program_says (with_distinct_rows p false) b ->
  program_select (with_distinct_rows p false) = Ok s -> program_select (with_distinct_rows p true) = Ok s' ->
  exists all out, responds db s all /\ responds db s' out
    /\ ForallOrdPairs (fun r r' => same_values r r' = false) out
    /\ (forall r, In r out -> In r all)
    /\ (forall r, In r all -> exists r', In r' out /\ same_values r' r = true).
Proof.
  intros g db p b s s' E Ew P H H'.
  assert (R := program_responds _ _ s P H g db).
  exists (means (Query b) db nothing), (firsts (fun r => r) (means (Query b) db nothing)). split; [exact R|]. split.
  - destruct b as [pre wi don d l ts jl wh gb hv ob li ofs suf]. destruct P as [Pa Pd Pdo Pw Pf Pj Pc Pg Ph Po (Pwi & El & Eo) (E1 & E2)].
    cbn in Pa, Pd, Pdo, Pw, Pf, Pj, Pc, Pg, Ph, Po, Pwi, El, Eo, E1, E2. rewrite Ew in Pwi, El, Eo. cbn in El, Eo. subst d li ofs pre suf.
    assert (P' : program_says (with_distinct_rows p true) (nth_body don l true wi ts jl wh gb hv ob None None)).
    { constructor; cbn; try rewrite Ew; try assumption; try reflexivity; repeat split; assumption. }
    exact (program_responds _ _ s' P' H' g db).
  - split; [exact (firsts_apart (fun r => r) _)|]. split; [exact (firsts_in (fun r => r) _)|]. exact (firsts_cover E (fun r => r) _).
Qed.
Print Assumptions C65_distinct.

(* Select(c1, ..., Count("*"))....GroupBy(c1, ...): one row for each combination of values that the
   program shows without groups, with the number of its rows; the numbers add up. *)
Theorem C65_group {O : Oracle} : forall (g : basis) (db : tabledb g) p b ns args gs a s s',
  equivalence (g := g) ->
  pr_distinct p = false -> pr_distinct_on p = [] -> pr_having p = None -> pr_order_by p = [] -> pr_window p = Everything -> pr_group_by p = [] ->
  program_says p b -> q_items b = columns_item ns ->
  args <> [] -> args_say (m := Bound) args (columns_item ns ++ [ItAgg "COUNT" false "*" a]) ->
  gs <> [] -> columns_args gs ns ->
  program_select p = Ok s -> program_select (grouped_by p args gs) = Ok s' ->
  exists all keys, responds db s all
    /\ responds db s' (map (fun k => (k ++ [bnumber g (List.length (filter (same_values k) all))])%list) keys)
    /\ ForallOrdPairs (fun k k' => same_values k k' = false) keys
    /\ (forall k, In k keys -> In k all)
    /\ (forall r, In r all -> exists k, In k keys /\ same_values k r = true)
    /\ list_sum (map (fun k => List.length (filter (same_values k) all)) keys) = List.length all.
Proof.
  intros g db p b ns args gs a s s' E Ed Edo Eh Eo Ew Eg P Ei Na Ha Ng Hg H H'.
  assert (R := program_responds _ _ s P H g db).
  exists (means (Query b) db nothing), (firsts (fun k => k) (means (Query b) db nothing)). split; [exact R|].
  split; [|split; [exact (firsts_apart (fun r => r) _)|split; [exact (firsts_in (fun r => r) _)|split; [exact (firsts_cover E (fun r => r) _)|exact (sizes_sum E _ _ (le_n _))]]]].
  destruct p as [args0 d ds ws froms js c gs0 h os wi]. destruct b as [pre wth don d' l ts jl wh gb hv ob li ofs suf].
  cbn in Ed, Edo, Eh, Eo, Ew, Eg, Ei. subst d ds h os wi gs0 l.
  destruct P as [(Pa & Pa1 & Pa2) Pd Pdo Pw Pf Pj Pc Pg Ph Po (Pwi & El & Ef) (E1 & E2)].
  cbn in Pa, Pa1, Pa2, Pd, Pdo, Pw, Pf, Pj, Pc, Pg, Ph, Po, Pwi, El, Ef, E1, E2. destruct hv as [hv|]; [contradiction|].
  inversion Po; subst ob. subst d' li ofs pre suf don gb.
  assert (Nn : ns <> []) by (intro Z; subst ns; exact (Pa2 eq_refl)).
  set (b' := nth_body [] (columns_item ns ++ [ItAgg "COUNT" false "*" a])%list false wth ts jl wh ns None [] None None).
  assert (P' : program_says (grouped_by {| pr_args := args0; pr_distinct := false; pr_distinct_on := []; pr_with := ws; pr_from := froms; pr_joins := js;
     pr_conditions := c; pr_group_by := []; pr_having := None; pr_order_by := []; pr_window := Everything |} args gs) b').
  { constructor; cbn; try assumption; try reflexivity; try tauto.
    - repeat split; try assumption. destruct (columns_item ns); discriminate.
    - destruct gs; [congruence|exact Hg]. }
  assert (R' := program_responds _ _ s' P' H' g db).
  match goal with |- responds _ _ ?o => replace o with (means (Query b') db nothing) end; [exact R'|].
  unfold b', nth_body. cbn [means q_prefix q_suffix]. unfold body_rows.
  cbn [q_prefix q_with q_distinct_on q_distinct q_items q_from q_joins q_where q_group_by q_having q_order_by q_limit
         q_offset q_suffix btake bskip bsorted].
  set (db' := with_tables _ _ _ _ _ _). set (rows := filter _ (map _ (bfrom _ _ _ _ _ _))). clearbody rows.
  cbn [bchosen]. rewrite !all_true, !map_map. cbn [fst snd]. cbn [grouped]. rewrite not_aggregated. rewrite !map_map.
  destruct ns as [|n ns]; [congruence|]. cbn [grouped]. unfold groups. rewrite !map_map.
  set (key := fun v : bnaming g => map v (n :: ns)).
  assert (Em : map (fun v => bitems g means db' (columns_item (n :: ns)) (v, [v])) rows = map key rows).
  { apply map_ext. intro v. rewrite columns_value. reflexivity. }
  rewrite Em. rewrite <- firsts_map, map_map. apply map_ext. intro v. rewrite columns_count. cbn [fst snd].
  change (at_names (n :: ns) v) with (key v).
  f_equal. f_equal. f_equal. change (fun u => same_values (map v (n :: ns)) (map u (n :: ns))) with (fun u => same_values (key v) (key u)).
  clear. induction rows as [|u rows IH]; [reflexivity|]. cbn [map filter].
  destruct (same_values (key v) (key u)); cbn [List.length]; rewrite IH; reflexivity.
Qed.
Print Assumptions C65_group.


(* ------------------------------------------------------------------------- *)
(* Statements that stand alone, DISTINCT ON, HAVING, ORDER BY                  *)
(* ------------------------------------------------------------------------- *)

(* The subqueries of the theorems above: those whose names all stand for columns of their own
   tables. *)
Theorem C65_stands_alone : forall (g : basis) (db : tabledb g) b, stands_alone db b -> uncorrelated db b.
Proof.
  intros g db b (n & H) v. apply (closed_agree n (Query b) db (fun t => fst (db t)) (fun _ => false)); [reflexivity|exact H|].
  intros m Hm. discriminate.
Qed.
Print Assumptions C65_stands_alone.

Lemma name_eqb_eq : forall a b, name_eqb a b = true <-> a = b.
Proof. intros a b. unfold name_eqb. destruct (list_eq_dec string_dec a b); split; congruence. Qed.

Section More.
  Context {g : basis}.

  Lemma value_at_name : forall ns (v : bnaming g) more n, In n ns -> value_at ns (at_names ns v ++ more)%list n = v n.
  Proof.
    intros ns v more n. unfold value_at. induction ns as [|m ns IH]; intro H; [destruct H|]. cbn [at_names map app combine find fst].
    destruct (name_eqb m n) eqn:E; [apply name_eqb_eq in E; subst m; reflexivity|].
    destruct H as [->|H]; [rewrite (proj2 (name_eqb_eq n n) eq_refl) in E; discriminate|]. exact (IH H).
  Qed.
  Lemma value_at_only : forall ns (v : bnaming g) n, In n ns -> value_at ns (at_names ns v) n = v n.
  Proof. intros ns v n H. rewrite <- (app_nil_r (at_names ns v)). apply value_at_name, H. Qed.

  Lemma over_columns : forall ns (v : bnaming g) n, NoDup (map column_of ns) -> In n ns ->
    over_items g (map item_column (columns_item ns)) (at_names ns v) v n = v n.
  Proof.
    intros ns v n N I. destruct n as [|c [|c' n]]; try reflexivity. cbn [over_items].
    induction ns as [|m ns IH]; [destruct I|]. cbn [columns_item map column_value at_names item_column].
    cbn [map] in N. inversion N as [|? ? N1 N2]; subst. destruct (String.eqb_spec c (last m "")) as [E|E].
    - destruct I as [->|I]; [reflexivity|]. exfalso. apply N1. change (column_of m) with (last m ""). rewrite <- E.
      change c with (column_of [c]). apply in_map, I.
    - destruct I as [->|I]; [exfalso; apply E; reflexivity|]. apply IH; assumption.
  Qed.

  Lemma firsts_key_map {A B} (f : A -> B) (key : B -> list (bdatum g)) : forall l,
    map f (firsts (fun x => key (f x)) l) = firsts key (map f l).
  Proof.
    induction l as [|x l IH]; [reflexivity|]. cbn [firsts map]. f_equal. rewrite <- IH.
    generalize (firsts (fun x => key (f x)) l). intro m. induction m as [|y m IHm]; [reflexivity|]. cbn [map filter].
    destruct (negb (same_values (key (f x)) (key (f y)))); cbn [map]; rewrite IHm; reflexivity.
  Qed.
  Lemma firsts_key_ext {A} (key key' : A -> list (bdatum g)) : forall l, (forall x, In x l -> key x = key' x) -> firsts key l = firsts key' l.
  Proof.
    induction l as [|x l IH]; intro H; [reflexivity|]. cbn [firsts]. rewrite <- IH by (intros y Iy; apply H; right; exact Iy).
    f_equal. apply filter_ext_in. intros y Iy. apply firsts_in in Iy. rewrite (H x (or_introl eq_refl)), (H y (or_intror Iy)). reflexivity.
  Qed.

  Lemma nth_all {A} : forall l : list A, flat_map (fun i => match nth_error l i with Some x => [x] | None => [] end) (seq 0 (List.length l)) = l.
  Proof.
    induction l as [|x l IH]; [reflexivity|]. cbn [List.length seq flat_map nth_error app]. f_equal.
    rewrite <- seq_shift, flat_map_concat_map, map_map, <- flat_map_concat_map. exact IH.
  Qed.
  Lemma flat_map_permutation {A B} (f : A -> list B) : forall l l', Permutation l l' -> Permutation (flat_map f l) (flat_map f l').
  Proof. intros l l' H. apply Permutation_flat_map, H. Qed.
End More.

(* DistinctOn(ds...) shows one row for each combination of values of ds. *)
Theorem C65_distinct_on {O : Oracle} : forall (g : basis) (db : tabledb g) p b ns ds ks s s',
  equivalence (g := g) ->
  pr_distinct p = false -> pr_order_by p = [] -> pr_window p = Everything ->
  program_says (with_distinct_on p []) b -> q_items b = columns_item ns -> NoDup (map column_of ns) ->
  ds <> [] -> columns_args ds ks -> ks <> [] -> incl ks ns ->
  program_select (with_distinct_on p []) = Ok s -> program_select (with_distinct_on p ds) = Ok s' ->
  exists all out, responds db s all /\ responds db s' out
    /\ (forall r, In r out -> In r all)
    /\ ForallOrdPairs (fun r r' => same_values (map (value_at ns r) ks) (map (value_at ns r') ks) = false) out
    /\ (forall r, In r all -> exists r', In r' out /\ same_values (map (value_at ns r') ks) (map (value_at ns r) ks) = true).
Proof.
  intros g db p b ns ds ks s s' E Ed Eo Ew P Ei Nd Nds Hds Nk Inc H H'.
  assert (R := program_responds _ _ s P H g db).
  set (key := fun r : list (bdatum g) => map (value_at ns r) ks).
  exists (means (Query b) db nothing), (firsts key (means (Query b) db nothing)). split; [exact R|].
  split; [|split; [exact (firsts_in key _)|split; [exact (firsts_apart key _)|exact (firsts_cover E key _)]]].
  destruct p as [args0 d ds0 ws froms js c gs h os wi]. destruct b as [pre wth don d' l ts jl wh gb hv ob li ofs suf].
  cbn in Ed, Eo, Ew, Ei. subst d os wi l.
  destruct P as [Pa Pd Pdo Pw Pf Pj Pc Pg Ph Po (Pwi & El & Ef) (E1 & E2)].
  cbn in Pa, Pd, Pdo, Pw, Pf, Pj, Pc, Pg, Ph, Po, Pwi, El, Ef, E1, E2. inversion Po; subst ob. subst d' li ofs pre suf don.
  assert (P' : program_says (with_distinct_on {| pr_args := args0; pr_distinct := false; pr_distinct_on := ds0; pr_with := ws; pr_from := froms;
     pr_joins := js; pr_conditions := c; pr_group_by := gs; pr_having := h; pr_order_by := []; pr_window := Everything |} ds)
     (nth_body ks (columns_item ns) false wth ts jl wh gb hv [] None None)).
  { constructor; cbn; try assumption; try reflexivity; try tauto. destruct ds; [congruence|exact Hds]. }
  assert (R' := program_responds _ _ s' P' H' g db).
  match goal with |- responds _ _ ?o => replace o with
    (means (Query (nth_body ks (columns_item ns) false wth ts jl wh gb hv [] None None)) db nothing) end; [exact R'|].
  unfold nth_body. cbn [means q_prefix q_suffix]. unfold body_rows.
  cbn [q_prefix q_with q_distinct_on q_distinct q_items q_from q_joins q_where q_group_by q_having q_order_by q_limit
         q_offset q_suffix btake bskip bsorted].
  set (db' := with_tables _ _ _ _ _ _). set (kept := filter _ (grouped _ _ _ _ _)). clearbody kept.
  destruct ks as [|k0 ks']; [congruence|]. set (kk := k0 :: ks') in *.
  rewrite <- (firsts_key_map (fun x : bnaming g * list (bdatum g) => snd x) key). f_equal.
  apply firsts_key_ext. intros x Ix. apply in_map_iff in Ix as (gr & <- & _). cbn [fst snd]. unfold key. rewrite columns_value.
  apply map_ext_in. intros n In_. rewrite (over_columns ns (fst gr) n Nd (Inc n In_)), (value_at_only ns (fst gr) n (Inc n In_)). reflexivity.
Qed.
Print Assumptions C65_distinct_on.

(* Having(h), with h about columns that are shown, keeps the rows of which h is true. *)
Theorem C65_having {O : Oracle} : forall (g : basis) (db : tabledb g) p b ns more h f n s s',
  pr_distinct p = false -> pr_distinct_on p = [] -> pr_with p = [] -> pr_order_by p = [] -> pr_window p = Everything ->
  program_says (with_having p None) b -> q_items b = (columns_item ns ++ more)%list ->
  says (m := Bound) h f -> formula_closed (closed n) (fun t => fst (db t)) (fun x => existsb (name_eqb x) ns) f = true ->
  program_select (with_having p None) = Ok s -> program_select (with_having p (Some h)) = Ok s' ->
  exists all, responds db s all
    /\ responds db s' (filter (fun r => is_true (btruth means db (value_at ns r) f)) all).
Proof.
  intros g db p b ns more h f n s s' Ed Edo Ewi Eo Ew P Ei Hf Cf H H'.
  assert (R := program_responds _ _ s P H g db). exists (means (Query b) db nothing). split; [exact R|].
  destruct p as [args0 d ds0 ws froms js c gs h0 os wi]. destruct b as [pre wth don d' l ts jl wh gb hv ob li ofs suf].
  cbn in Ed, Edo, Ewi, Eo, Ew, Ei. subst d ds0 ws os wi l.
  destruct P as [Pa Pd Pdo Pw Pf Pj Pc Pg Ph Po (Pwi & El & Ef) (E1 & E2)].
  cbn in Pa, Pd, Pdo, Pw, Pf, Pj, Pc, Pg, Ph, Po, Pwi, El, Ef, E1, E2. inversion Po; subst ob. inversion Pw; subst wth.
  destruct hv as [hv|]; [contradiction|]. subst d' li ofs pre suf don.
  assert (P' : program_says (with_having {| pr_args := args0; pr_distinct := false; pr_distinct_on := []; pr_with := []; pr_from := froms;
     pr_joins := js; pr_conditions := c; pr_group_by := gs; pr_having := h0; pr_order_by := []; pr_window := Everything |} (Some h))
     (nth_body [] (columns_item ns ++ more)%list false [] ts jl wh gb (Some f) [] None None)).
  { constructor; cbn; try assumption; try reflexivity; try tauto. }
  assert (R' := program_responds _ _ s' P' H' g db).
  match goal with |- responds _ _ ?o => replace o with
    (means (Query (nth_body [] (columns_item ns ++ more)%list false [] ts jl wh gb (Some f) [] None None)) db nothing) end; [exact R'|].
  unfold nth_body. rewrite !(means_body _ db nothing) by reflexivity. unfold body_rows.
  cbn [q_prefix q_with q_distinct_on q_distinct q_items q_from q_joins q_where q_group_by q_having q_order_by q_limit
         q_offset q_suffix btake bskip bsorted with_tables].
  set (gr := grouped _ _ _ _ _). clearbody gr. cbn [bchosen]. rewrite all_true, !map_map. cbn [fst snd].
  induction gr as [|(v & l) gr IH]; [reflexivity|]. cbn [filter map fst snd].
  assert (Ev : is_true (btruth means db (value_at ns (bitems g means db (columns_item ns ++ more)%list (v, l))) f) = is_true (btruth means db v f)).
  { f_equal. apply (truth_agree means (closed n)) with (cols := fun t => fst (db t)) (known := fun x => existsb (name_eqb x) ns).
    - intros q db0 cols known u u' Hdb Hq A. exact (closed_agree n q db0 cols known u u' Hdb Hq A).
    - reflexivity.
    - intros m Hm. apply existsb_exists in Hm as (m' & Im & Em). apply name_eqb_eq in Em. subst m'.
      unfold bitems. rewrite map_app. change (map _ (columns_item ns)) with (bitems g means db (columns_item ns) (v, l)).
      rewrite columns_value. apply value_at_name, Im.
    - exact Cf. }
  rewrite Ev. destruct (is_true (btruth means db v f)); cbn [map]; rewrite IH; reflexivity.
Qed.
Print Assumptions C65_having.

(* OrderBy(os...) shows the same rows, in the order that the engine gives to their keys. *)
Theorem C65_order {O : Oracle} : forall (g : basis) (db : tabledb g) p b os o s s',
  (forall dirs keys, Permutation (bsort g dirs keys) (seq 0 (List.length keys))) ->
  pr_distinct p = false -> pr_distinct_on p = [] -> pr_window p = Everything ->
  program_says (with_order p []) b -> Forall2 order_says os o ->
  program_select (with_order p []) = Ok s -> program_select (with_order p os) = Ok s' ->
  exists all out, responds db s all /\ responds db s' out /\ Permutation out all.
Proof.
  intros g db p b os o s s' Perm Ed Edo Ew P Ho H H'.
  assert (R := program_responds _ _ s P H g db).
  destruct p as [args0 d ds0 ws froms js c gs h os0 wi]. destruct b as [pre wth don d' l ts jl wh gb hv ob li ofs suf].
  cbn in Ed, Edo, Ew. subst d ds0 wi.
  destruct P as [Pa Pd Pdo Pw Pf Pj Pc Pg Ph Po (Pwi & El & Ef) (E1 & E2)].
  cbn in Pa, Pd, Pdo, Pw, Pf, Pj, Pc, Pg, Ph, Po, Pwi, El, Ef, E1, E2. inversion Po; subst ob. subst d' li ofs pre suf don.
  assert (P' : program_says (with_order {| pr_args := args0; pr_distinct := false; pr_distinct_on := []; pr_with := ws; pr_from := froms;
     pr_joins := js; pr_conditions := c; pr_group_by := gs; pr_having := h; pr_order_by := os0; pr_window := Everything |} os)
     (nth_body [] l false wth ts jl wh gb hv o None None)).
  { constructor; cbn; try assumption; try reflexivity; try tauto. }
  eexists. eexists. split; [exact R|]. split; [exact (program_responds _ _ s' P' H' g db)|].
  unfold nth_body. rewrite !(means_body _ db nothing) by reflexivity. unfold body_rows.
  cbn [q_prefix q_with q_distinct_on q_distinct q_items q_from q_joins q_where q_group_by q_having q_order_by q_limit
         q_offset q_suffix btake bskip].
  apply Permutation_map. set (shown := map _ (filter _ (grouped _ _ _ _ _))). clearbody shown. clear - Perm.
  destruct o as [|o0 o]; [apply Permutation_refl|]. cbn [bsorted].
  eapply Permutation_trans; [apply flat_map_permutation, Perm|]. rewrite map_length, nth_all. apply Permutation_refl.
Qed.
Print Assumptions C65_order.

(* With(name, sub) and all its columns: what sub shows on its own. *)
Lemma means_lengths {g} : forall b (db : tabledb g) v r, q_prefix b = [] -> q_suffix b = [] -> In r (means (Query b) db v) ->
  List.length r = List.length (q_items b).
Proof.
  intros b db v r E1 E2 H. rewrite (means_body b db v E1 E2) in H. unfold body_rows in H.
  assert (T : forall (k : option N) (l : list (list (bdatum g))), In r (btake k l) -> In r l).
  { intros [k|] l I; [|exact I]. cbn [btake] in I. revert I. generalize (N.to_nat k). clear. intro k. revert l.
    induction k as [|k IH]; intros [|x l] I; try destruct I. - left. assumption. - right. apply IH. assumption. }
  assert (S : forall (k : option N) (l : list (list (bdatum g))), In r (bskip k l) -> In r l).
  { intros [k|] l I; [|exact I]. cbn [bskip] in I. revert I. generalize (N.to_nat k). clear. intro k. revert l.
    induction k as [|k IH]; intros [|x l] I; try exact I. right. apply IH. exact I. }
  apply T, S in H. clear T S.
  set (shown := map _ (filter _ (grouped _ _ _ _ _))) in H.
  assert (L : forall x, In x shown -> List.length (snd x) = List.length (q_items b)).
  { intros x Ix. apply in_map_iff in Ix as (gr & <- & _). cbn [snd]. unfold bitems. apply map_length. }
  clearbody shown.
  assert (H1 : exists x, In x (bsorted g (q_order_by b) shown) /\ r = snd x).
  { assert (H1 : In r (map snd (match q_distinct_on b with [] => bsorted g (q_order_by b) shown
                        | ns => firsts (fun x => map (fst x) ns) (bsorted g (q_order_by b) shown) end))).
    { destruct (q_distinct b); [exact (firsts_in _ _ _ H)|exact H]. }
    apply in_map_iff in H1 as (x & <- & Ix). exists x. split; [|reflexivity].
    destruct (q_distinct_on b); [exact Ix|exact (firsts_in _ _ _ Ix)]. }
  destruct H1 as (x & Ix & ->). apply L. unfold bsorted in Ix. destruct (q_order_by b); [exact Ix|].
  apply in_flat_map in Ix as (i & _ & Ix). destruct (nth_error shown i) as [y|] eqn:Ey; [|destruct Ix].
  destruct Ix as [->|[]]. exact (nth_error_In _ _ Ey).
Qed.

Theorem C65_with_all {O : Oracle} : forall (g : basis) (db : tabledb g) args x from t sub sb ga w s,
  args <> [] -> args_say (m := Bound) args (columns_item (map (fun c => [c]) (query_columns (Query sb)))) ->
  NoDup (query_columns (Query sb)) -> q_prefix sb = [] -> q_suffix sb = [] ->
  bare x = true -> table_says from t -> tb_name t = [x] ->
  sub_arg sub ga -> sel_says (m := Bound) sub sb -> finished sub sb -> lk_with x ga = Ok w ->
  program_select {| pr_args := args; pr_distinct := false; pr_distinct_on := []; pr_with := [w]; pr_from := [from]; pr_joins := [];
    pr_conditions := None; pr_group_by := []; pr_having := None; pr_order_by := []; pr_window := Everything |} = Ok s ->
  exists found, responds db sub found /\ responds db s found.
Proof.
  intros g db args x from t sub sb ga w s Na Ha Nd E1 E2 Bx Ht Ex Sa Ss Fs Hw H.
  assert (Nc : query_columns (Query sb) <> []).
  { destruct Fs as [Nq _]. cbn [query_columns]. destruct (q_items sb); [congruence|discriminate]. }
  destruct (C65_with g db args (query_columns (Query sb)) x from t sub sb ga w s Na Ha Nc Bx Ht Ex Sa Ss Fs Hw (incl_refl _) H) as (found & F & R).
  exists found. split; [exact F|].
  assert (F' := sub_responds db sub sb Ss Fs). assert (E := responds_once _ _ _ _ _ F F'). subst found.
  replace (map _ (means (Query sb) db nothing)) with (means (Query sb) db nothing) in R; [exact R|].
  symmetry. rewrite <- (map_id (means (Query sb) db nothing)) at 2. apply map_ext_in. intros r Ir.
  pose proof (means_lengths sb db nothing r E1 E2 Ir) as L. cbn [query_columns] in *.
  assert (L' : List.length r = List.length (map item_column (q_items sb))) by (rewrite map_length; exact L).
  clear - L' Nd. revert r L'. generalize dependent (map item_column (q_items sb)). intros cs Nd.
  assert (X : forall cs (r : list (bdatum g)), NoDup cs -> List.length r = List.length cs -> map (as_row cs r) cs = r); [|intros r L; exact (X cs r Nd L)].
  clear. induction cs as [|c cs IH]; intros [|d r] N L; try discriminate; [reflexivity|]. inversion N; subst.
  cbn [map]. unfold as_row at 1. cbn [column_value]. rewrite String.eqb_refl. f_equal.
  rewrite <- (IH r) at 2; [|assumption|cbn in L; congruence]. apply map_ext_in. intros c' I. unfold as_row. cbn [column_value].
  destruct (String.eqb_spec c' c) as [->|]; [contradiction|reflexivity].
Qed.
Print Assumptions C65_with_all.

(* ------------------------------------------------------------------------- *)
(* Examples                                                                    *)
(* ------------------------------------------------------------------------- *)

Section Examples.
  #[local] Existing Instance go_oracle.
  #[local] Existing Instance Bound.

  Inductive cell := CNull | CInt (z : Z) | CStr (s : string) | CBool (b : bool).
  Definition cell_of (v : gval) : cell :=
    match v with GInt _ z => CInt z | GStr s => CStr s | GBool b => CBool b | _ => CNull end.
  Definition cell_eqb (a b : cell) : bool :=
    match a, b with
    | CNull, CNull => true
    | CInt x, CInt y => (x =? y)%Z
    | CStr x, CStr y => String.eqb x y
    | CBool x, CBool y => Bool.eqb x y
    | _, _ => false
    end.
  Definition cell_compares (op : string) (a b : cell) : option bool :=
    match op, a, b with
    | "=", CNull, _ | "=", _, CNull => None
    | "=", x, y => Some (cell_eqb x y)
    | ">", CInt x, CInt y => Some (y <? x)%Z
    | ">=", CInt x, CInt y => Some (y <=? x)%Z
    | "<=", CInt x, CInt y => Some (x <=? y)%Z
    | _, _, _ => None
    end.
  Definition bx : basis := {|
    bdatum := cell; bnull := CNull; bis_null := fun c => match c with CNull => true | _ => false end; bsame := cell_eqb;
    bnumber := fun n => CInt (Z.of_nat n); bboolean := CBool; benter := cell_of; bcompares := cell_compares;
    bcall := fun f _ _ => CStr f;
    baggregate := fun _ _ l => hd CNull l;
    bsort := fun o l => match o with "DESC" :: _ => rev (seq 0 (List.length l)) | _ => seq 0 (List.length l) end;
    bother := fun _ _ => [] |}.

  Lemma cell_eqb_eq : forall a b, cell_eqb a b = true <-> a = b.
  Proof.
    intros [|x|x|x] [|y|y|y]; cbn [cell_eqb]; split; intro H; try discriminate; try reflexivity.
    - apply Z.eqb_eq in H. congruence.
    - injection H as <-. apply Z.eqb_refl.
    - apply String.eqb_eq in H. congruence.
    - injection H as <-. apply String.eqb_refl.
    - apply Bool.eqb_prop in H. congruence.
    - injection H as <-. apply Bool.eqb_reflx.
  Qed.
  Lemma bx_equivalence : equivalence (g := bx).
  Proof.
    split; [|split].
    - intro a. exact (proj2 (cell_eqb_eq a a) eq_refl).
    - intros a b H. apply cell_eqb_eq in H. subst b. exact (proj2 (cell_eqb_eq a a) eq_refl).
    - intros a b c H H'. apply cell_eqb_eq in H. subst b. exact H'.
  Qed.
  Lemma bx_null : forall d, bcompares bx "=" d (bnull bx) = None.
  Proof. intros []; reflexivity. Qed.

  Definition cells (cs : list string) (ds : list cell) : brow bx := as_row (g := bx) cs ds.
  Definition board (more : list (list cell)) : tabledb bx := fun t =>
    match t with
    | ["users"] => (["id"; "name"], map (cells ["id"; "name"]) [[CInt 1; CStr "a"]; [CInt 2; CStr "b"]; [CInt 3; CStr "c"]])
    | ["news"] => (["user_id"; "title"], map (cells ["user_id"; "title"])
        ([[CInt 1; CStr "x"]; [CInt 1; CStr "y"]; [CInt 3; CStr "y"]; [CInt 3; CStr "y"]] ++ more)%list)
    | _ => ([], [])
    end.

  Definition news : tableref := {| tb_only := false; tb_name := ["news"]; tb_alias := [] |}.
  Definition users : tableref := {| tb_only := false; tb_name := ["users"]; tb_alias := [] |}.
  Lemma news_says : table_says (GStr "news") news.
  Proof. apply (table_string "news"). reflexivity. Qed.
  Lemma users_says : table_says (GStr "users") users.
  Proof. apply (table_string "users"). reflexivity. Qed.
  Lemma user_id_says : args_say [GStr "user_id"] (columns_item [["user_id"]]).
  Proof. apply args_items. exact (strings_say "user_id" ["user_id"] [] [] eq_refl eq_refl items_none). Qed.
  Lemma name_says : args_say [GStr "name"] (columns_item [["name"]]).
  Proof. apply args_items. exact (strings_say "name" ["name"] [] [] eq_refl eq_refl items_none). Qed.

  (* Select("user_id").From("news").Where(Condition("title").Equal("y")) *)
  Definition title_y : expr := EInfix (lk_condition (GStr "title")) (Some "=") (EValue (GStr "y")).
  Definition f_y : formula := FCmp (MName ["title"]) "=" (MVal (GStr "y")).
  Lemma title_y_says : says title_y f_y.
  Proof. apply (says_cmp "title" OpEqual (GStr "y")); [reflexivity|apply operand_value, value_bound; reflexivity|reflexivity]. Qed.
  Definition sub_program : program := plain_program [GStr "user_id"] [GStr "news"] [] (Some title_y).
  Definition sub_body : body := plain_body [["user_id"]] [news] [] (Some f_y).
  Lemma sub_says : program_says sub_program sub_body.
  Proof.
    apply plain_says; [discriminate|apply user_id_says|discriminate|constructor; [apply news_says|constructor]|constructor|apply title_y_says].
  Qed.
  Definition the_sub : select := match program_select sub_program with Ok s => s | _ => new_select end.
  Lemma the_sub_made : program_select sub_program = Ok the_sub.
  Proof. vm_compute. reflexivity. Qed.
  Lemma the_sub_says : sel_says the_sub sub_body.
  Proof. exact (program_described sub_program sub_body the_sub sub_says the_sub_made). Qed.
  Lemma the_sub_finished : finished the_sub sub_body.
  Proof. split; [discriminate|vm_compute; reflexivity]. Qed.
  Lemma the_sub_uncorrelated : forall more, more = [] \/ more = [[CNull; CStr "y"]] -> uncorrelated (board more) sub_body.
  Proof. intros more [->| ->] v; vm_compute; reflexivity. Qed.

  Definition given (p : program) (db : tabledb bx) : option (list (list cell)) :=
    match program_select p with Ok s => PropsEffect.sent (StSelect s) (answer db) | _ => None end.
  Definition in_sub : expr := match expr_in (lk_condition (GStr "id")) [g_select the_sub] with Ok e => e | _ => ENil end.
  Definition not_in_sub : expr := match expr_not_in (lk_condition (GStr "id")) [g_select the_sub] with Ok e => e | _ => ENil end.
  Definition exists_sub : expr := match lk_exists (g_select the_sub) with Ok e => e | _ => ENil end.
  Definition not_exists_sub : expr := match lk_not_exists (g_select the_sub) with Ok e => e | _ => ENil end.
  Definition greater_sub : expr := match cmp_expr (lk_condition (GStr "id")) OpGreaterThan (g_select the_sub) with Ok e => e | _ => ENil end.
  Definition names_where (e : expr) : program := plain_program [GStr "name"] [GStr "users"] [] (Some e).

  Example C65_sub_ex : given sub_program (board []) = Some [[CInt 1]; [CInt 3]; [CInt 3]].
  Proof. vm_compute. reflexivity. Qed.
  Example C65_in_ex : expr_in (lk_condition (GStr "id")) [g_select the_sub] = Ok in_sub
    /\ given (names_where in_sub) (board []) = Some [[CStr "a"]; [CStr "c"]].
  Proof. split; vm_compute; reflexivity. Qed.
  Example C65_not_in_ex : expr_not_in (lk_condition (GStr "id")) [g_select the_sub] = Ok not_in_sub
    /\ given (names_where not_in_sub) (board []) = Some [[CStr "b"]]
    /\ given (names_where not_in_sub) (board [[CNull; CStr "y"]]) = Some [].
  Proof. split; [|split]; vm_compute; reflexivity. Qed.
  Example C65_exists_ex : lk_exists (g_select the_sub) = Ok exists_sub /\ lk_not_exists (g_select the_sub) = Ok not_exists_sub
    /\ given (names_where exists_sub) (board []) = Some [[CStr "a"]; [CStr "b"]; [CStr "c"]]
    /\ given (names_where not_exists_sub) (board []) = Some [].
  Proof. repeat split; vm_compute; reflexivity. Qed.
  Example C65_compare_ex : cmp_expr (lk_condition (GStr "id")) OpGreaterThan (g_select the_sub) = Ok greater_sub
    /\ takes_subquery OpGreaterThan = true
    /\ given (names_where greater_sub) (board []) = Some [[CStr "b"]; [CStr "c"]].
  Proof. repeat split; vm_compute; reflexivity. Qed.

  Definition with_sub : withq := match lk_with "recent" (g_select the_sub) with Ok w => w | _ => {| wq_name := ""; wq_sub := ENil |} end.
  Definition recent_program : program :=
    {| pr_args := [GStr "user_id"]; pr_distinct := false; pr_distinct_on := []; pr_with := [with_sub]; pr_from := [GStr "recent"]; pr_joins := [];
       pr_conditions := None; pr_group_by := []; pr_having := None; pr_order_by := []; pr_window := Everything |}.
  Example C65_with_ex : lk_with "recent" (g_select the_sub) = Ok with_sub
    /\ incl ["user_id"] (query_columns (Query sub_body))
    /\ given recent_program (board []) = Some [[CInt 1]; [CInt 3]; [CInt 3]].
  Proof. split; [vm_compute; reflexivity|]. split; [intros c [<-|[]]; left; reflexivity|vm_compute; reflexivity]. Qed.

  Example C65_window_ex : given (in_window_of sub_program (Page 2 1)) (board []) = Some [[CInt 3]; [CInt 3]].
  Proof. vm_compute. reflexivity. Qed.
  Example C65_distinct_ex : given (with_distinct_rows sub_program true) (board []) = Some [[CInt 1]; [CInt 3]].
  Proof. vm_compute. reflexivity. Qed.
  Lemma count_says : args_say [GStr "user_id"; GSel (lk_count "*")] (columns_item [["user_id"]] ++ [ItAgg "COUNT" false "*" ""]).
  Proof.
    apply args_items. apply (strings_say "user_id" ["user_id"] [GSel (lk_count "*")] [ItAgg "COUNT" false "*" ""]); [reflexivity|reflexivity|].
    apply (items_agg _ _ _ _ _ _ _ (agg_count "*" eq_refl) items_none).
  Qed.
  Lemma by_user_says : columns_args [GStr "user_id"] [["user_id"]].
  Proof. apply columns_each. apply (columns_string "user_id" ["user_id"] [] []); [apply items_split; reflexivity|repeat constructor|apply columns_none]. Qed.
  Example C65_group_ex : given (grouped_by sub_program [GStr "user_id"; GSel (lk_count "*")] [GStr "user_id"]) (board [[CNull; CStr "y"]])
    = Some [[CInt 1; CInt 1]; [CInt 3; CInt 2]; [CNull; CInt 1]].
  Proof. vm_compute. reflexivity. Qed.

  (* All the hypotheses are met. *)
  Lemma the_sub_arg : sub_arg the_sub (g_select the_sub).
  Proof. exact (sub_builder the_sub). Qed.
  Definition in_select : select := match program_select (names_where in_sub) with Ok s => s | _ => new_select end.
  Example C65_in_met : exists found, responds (board []) the_sub found
    /\ responds (board []) in_select (map (at_names (g := bx) [["name"]]) (filter (fun v =>
         existsb (fun r => is_true (cell_compares "=" (v ["id"]) (hd CNull r))) found) (combinations (g := bx) (board []) [users] []))).
  Proof.
    apply (C65_in bx (board []) [GStr "name"] [["name"]] [GStr "users"] [users] [] [] "id" the_sub sub_body (g_select the_sub) in_sub);
      try discriminate; try (vm_compute; reflexivity).
    - exact name_says.
    - constructor; [exact users_says|constructor].
    - constructor.
    - exact the_sub_arg.
    - exact the_sub_says.
    - exact the_sub_finished.
  Qed.
  Definition counts : list gval := [GStr "user_id"; GSel (lk_count "*")].
  Definition grouped_select : select := match program_select (grouped_by sub_program counts [GStr "user_id"]) with Ok s => s | _ => new_select end.
  Example C65_group_met : exists all keys, responds (board []) the_sub all
    /\ responds (board []) grouped_select (map (fun k => (k ++ [CInt (Z.of_nat (List.length (filter (same_values (g := bx) k) all)))])%list) keys)
    /\ list_sum (map (fun k => List.length (filter (same_values (g := bx) k) all)) keys) = List.length all.
  Proof.
    destruct (C65_group bx (board []) sub_program sub_body [["user_id"]] counts [GStr "user_id"] "" the_sub grouped_select)
      as (all & keys & H1 & H2 & _ & _ & _ & H3); try discriminate; try reflexivity.
    - exact bx_equivalence.
    - exact sub_says.
    - exact count_says.
    - exact by_user_says.
    - exists all, keys. auto.
  Qed.

  Example C65_stands_alone_ex : stands_alone (board []) sub_body.
  Proof. exists 1. vm_compute. reflexivity. Qed.
  (* A subquery that mentions a table outside does not: users.id is not a column of news. *)
  Example C65_correlated_ex : forall n, closed n (fun t => fst (board [] t)) (fun _ => false)
    (Query (plain_body [["user_id"]] [news] [] (Some (FCmp (MName ["user_id"]) "=" (MName ["users"; "id"]))))) = false.
  Proof. intros [|n]; vm_compute; reflexivity. Qed.

  Definition titles : program := plain_program [GStr "title"; GStr "user_id"] [GStr "news"] [] None.
  Example C65_distinct_on_ex : given titles (board []) = Some [[CStr "x"; CInt 1]; [CStr "y"; CInt 1]; [CStr "y"; CInt 3]; [CStr "y"; CInt 3]]
    /\ given (with_distinct_on titles [GStr "user_id"]) (board []) = Some [[CStr "x"; CInt 1]; [CStr "y"; CInt 3]]
    /\ NoDup (map column_of [["title"]; ["user_id"]]).
  Proof.
    split; [|split]; [vm_compute; reflexivity..|]. constructor; [intros [H|[]]; discriminate|]. constructor; [intros []|constructor].
  Qed.

  Definition user_3 : expr := match cmp_expr (lk_condition (GStr "user_id")) OpEqual (GInt KInt 3) with Ok e => e | _ => ENil end.
  Definition f_user_3 : formula := FCmp (MName ["user_id"]) "=" (MVal (GInt KInt 3)).
  Lemma user_3_says : says user_3 f_user_3.
  Proof. apply (says_cmp "user_id" OpEqual (GInt KInt 3)); [reflexivity|apply operand_value, value_bound; reflexivity|reflexivity]. Qed.
  Definition groups_y : program := grouped_by sub_program counts [GStr "user_id"].
  Example C65_having_ex : given (with_having groups_y (Some user_3)) (board []) = Some [[CInt 3; CInt 2]]
    /\ formula_closed (closed 0) (fun t => fst (board [] t)) (fun x => existsb (name_eqb x) [["user_id"]]) f_user_3 = true.
  Proof. split; vm_compute; reflexivity. Qed.

  Definition by_title : order := column_order (lk_column "title") "DESC".
  Lemma by_title_says : order_says by_title ("title", "DESC").
  Proof. apply order_column; [reflexivity|right; left; reflexivity]. Qed.
  Lemma bx_sorts : forall dirs keys, Permutation (bsort bx dirs keys) (seq 0 (List.length keys)).
  Proof.
    intros dirs keys. cbn [bsort bx].
    assert (X : forall b : bool, Permutation (if b then rev (seq 0 (List.length keys)) else seq 0 (List.length keys)) (seq 0 (List.length keys))).
    { intros []; [apply Permutation_sym, Permutation_rev|apply Permutation_refl]. }
    destruct dirs as [|d dirs]; [exact (X false)|].
    repeat match goal with |- Permutation (match ?y with _ => _ end) _ => destruct y as [|[[] [] [] [] [] [] [] []] ?]; try exact (X false) end.
    exact (X true).
  Qed.
  Example C65_order_ex : given (with_order titles [by_title]) (board [])
    = Some [[CStr "y"; CInt 3]; [CStr "y"; CInt 3]; [CStr "y"; CInt 1]; [CStr "x"; CInt 1]].
  Proof. vm_compute. reflexivity. Qed.

  Definition recent_select : select := match program_select recent_program with Ok s => s | _ => new_select end.
  Example C65_with_all_ex : exists found, responds (board []) the_sub found /\ responds (board []) recent_select found.
  Proof.
    apply (C65_with_all bx (board []) [GStr "user_id"] "recent" (GStr "recent") {| tb_only := false; tb_name := ["recent"]; tb_alias := [] |}
             the_sub sub_body (g_select the_sub) with_sub recent_select); try discriminate; try reflexivity.
    - exact user_id_says.
    - constructor; [intros []|constructor].
    - apply (table_string "recent"). reflexivity.
    - exact the_sub_arg.
    - exact the_sub_says.
    - exact the_sub_finished.
  Qed.
End Examples.
