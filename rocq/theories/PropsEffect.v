(* C62: carried out by a database, the statements on one table select, remove, change and add
   exactly the rows that the calls describe. *)
From Verif Require Import AssignP.
From Verif Require Import EffectP GrammarReadP PropsGrammar PropsGrammarDml.
From Verif Require Import AddRowsP.

(* ------------------------------------------------------------------------- *)
(* Lemmas                                                                      *)
(* ------------------------------------------------------------------------- *)

Lemma plain_data {g} (db : database g) : forall l r, plain_items l = true -> items_value db l r = Some (data db l r).
Proof.
  intros l r. unfold items_value, plain_items. induction l as [|i l IH]; intro H; [reflexivity|].
  cbn [counts existsb negb] in H. destruct i; [| discriminate |]; cbn [orb] in H; cbn [map item_value all_some];
    (rewrite (IH H); reflexivity).
Qed.
Lemma plain_data_rows {g} (db : database g) : forall l, plain_items l = true -> forall rows,
  all_some (map (items_value db l) rows) = Some (map (data db l) rows).
Proof.
  intros l H. induction rows as [|r rows IH]; [reflexivity|]. cbn [map all_some]. rewrite (plain_data db l r H), IH. reflexivity.
Qed.
Lemma plain_returned {g} (db : database g) : forall (ret : list gval) l rows, plain_items l = true -> l <> [] ->
  returns db (match ret with [] => [] | _ => l end) rows = Some (returned db ret l rows).
Proof.
  intros ret l rows H N. destruct ret as [|x ret]; [reflexivity|]. unfold returns, returned. destruct l; [congruence|].
  apply (plain_data_rows db _ H).
Qed.

Lemma replace_same {g} (db : database g) : forall t rows, replace db t rows t = rows.
Proof. intros t rows. unfold replace, name_eqb. destruct (list_eq_dec string_dec t t); [reflexivity|congruence]. Qed.
Lemma replace_other {g} (db : database g) : forall t t' rows, t <> t' -> replace db t rows t' = db t'.
Proof. intros t t' rows N. unfold replace, name_eqb. destruct (list_eq_dec string_dec t t'); [congruence|reflexivity]. Qed.

Lemma no_sub_value {g} (db db' : database g) : forall a r, no_sub_term a = true -> datum_in db r a = datum_in db' r a.
Proof. intros [] r H; try reflexivity. discriminate. Qed.
Lemma no_sub_values {g} (db db' : database g) : forall l r, forallb no_sub_term l = true ->
  map (datum_in db r) l = map (datum_in db' r) l.
Proof.
  induction l as [|a l IH]; intros r H; [reflexivity|]. cbn [forallb] in H. apply andb_true_iff in H as [Ha H].
  cbn [map]. rewrite (no_sub_value db db' a r Ha), (IH r H). reflexivity.
Qed.
Lemma no_sub_truth {g} (db db' : database g) : forall f r, no_sub f = true -> truth_of db r f = truth_of db' r f.
Proof.
  induction f as [l op x|n l vs|n l q|n l a b|n q|f1 IH1 f2 IH2|f1 IH1 f2 IH2]; intros r H; cbn [no_sub] in H;
    try discriminate; rewrite ?andb_true_iff in H; cbn [truth_of].
  - destruct H as [H1 H2]. rewrite (no_sub_value db db' l r H1), (no_sub_value db db' x r H2). reflexivity.
  - destruct H as [H1 H2]. rewrite (no_sub_value db db' l r H1), (no_sub_values db db' vs r H2). reflexivity.
  - destruct H as [[H1 H2] H3]. rewrite (no_sub_value db db' l r H1), (no_sub_value db db' a r H2), (no_sub_value db db' b r H3). reflexivity.
  - destruct H as [H1 H2]. rewrite (IH1 r H1), (IH2 r H2). reflexivity.
  - destruct H as [H1 H2]. rewrite (IH1 r H1), (IH2 r H2). reflexivity.
Qed.
Lemma no_subs_meets {g} (db db' : database g) : forall fs r, no_subs fs = true -> meets db fs r = meets db' fs r.
Proof.
  intros [[f l]|] r H; [|reflexivity]. cbn [no_subs] in H. apply andb_true_iff in H as [Hf Hl]. unfold meets. f_equal.
  rewrite (no_sub_truth db db' f r Hf). generalize (truth_of db' r f). revert Hl.
  induction l as [|[c h] l IH]; intros Hl a; [reflexivity|]. cbn [forallb snd] in Hl. apply andb_true_iff in Hl as [Hh Hl].
  cbn [fold_left fst snd]. rewrite (no_sub_truth db db' h r Hh). apply (IH Hl).
Qed.

Lemma skip_more {A} : forall a b (l : list A), skipn b (skipn a l) = skipn (a + b) l.
Proof. induction a as [|a IH]; intros b l; [reflexivity|]. destruct l; [cbn [skipn Nat.add]; apply skipn_nil|]. cbn [skipn Nat.add]. apply IH. Qed.
Lemma take_more {A} : forall a b (l : list A), firstn (a + b) l = (firstn a l ++ firstn b (skipn a l))%list.
Proof. induction a as [|a IH]; intros b l; [reflexivity|]. destruct l; [cbn; destruct b; reflexivity|]. cbn [skipn firstn Nat.add app]. f_equal. apply IH. Qed.

Lemma filter_none {A} (p : A -> bool) : forall l, filter p (filter (fun a => negb (p a)) l) = [].
Proof. induction l as [|a l IH]; [reflexivity|]. cbn [filter]. destruct (p a) eqn:E; cbn [negb]; [exact IH|]. cbn [filter]. rewrite E. exact IH. Qed.
Lemma filter_again {A} (p : A -> bool) : forall l, filter p (filter p l) = filter p l.
Proof. induction l as [|a l IH]; [reflexivity|]. cbn [filter]. destruct (p a) eqn:E; [cbn [filter]; rewrite E, IH; reflexivity|exact IH]. Qed.
Lemma filter_split {A} (p : A -> bool) : forall l,
  List.length l = List.length (filter (fun a => negb (p a)) l) + List.length (filter p l).
Proof. induction l as [|a l IH]; [reflexivity|]. cbn [filter]. destruct (p a); cbn [negb List.length]; lia. Qed.

Section Effects.
  Context {O : Oracle}.
  #[local] Existing Instance Bound.

  Lemma count_answers : forall {g : engine} (db : database g) table t c fs s,
    table_says table t -> conditions_say c fs ->
    select_program [GSel (lk_count "*")] table c [] Everything = Ok s ->
    select_answers db s [[number g (List.length (filter (meets db fs) (db (tb_name t))))]].
  Proof.
    intros g db table t c fs s Ht Hc H.
    destruct (select_count table t c fs s _ _ Ht Hc (agg_count "*" eq_refl) H) as (text & values & Q & R).
    exists text, values. split; [exact Q|]. apply R.
  Qed.
End Effects.

(* ------------------------------------------------------------------------- *)
(* Select                                                                      *)
(* ------------------------------------------------------------------------- *)

(* Select(args...).From(table).Where(...)...OrderBy(...).Limit(n).Offset(k) shows the items of the
   rows that meet the conditions, in the order asked for, and of these the asked window. *)
Theorem C62_select {O : Oracle} : forall (g : engine) (db : database g) args l table t c fs os o p s,
  args <> [] -> args_say (m := Bound) args l -> l <> [] -> plain_items l = true ->
  table_says table t -> conditions_say c fs -> Forall2 order_says os o -> window_ok p ->
  select_program args table c os p = Ok s ->
  select_answers db s (map (data db l) (in_window p (in_sql_order o (filter (meets db fs) (db (tb_name t)))))).
Proof.
  intros g db args l table t c fs os o p s Na Ha Nl Pl Ht Hc Ho Hp H.
  destruct (select_rows args l table t c fs os o p s Na Ha Nl Pl Ht Hc Ho Hp H) as (text & values & Q & R).
  exists text, values. split; [exact Q|]. rewrite R. apply (plain_data_rows db l Pl).
Qed.
Print Assumptions C62_select.

(* Pages of n rows, one after the other, are the first rows of the whole answer: no row is lost
   between two pages, and none is shown twice. *)
Theorem C62_pages {O : Oracle} : forall (g : engine) (db : database g) args l table t c fs os o s n count page,
  args <> [] -> args_say (m := Bound) args l -> l <> [] -> plain_items l = true ->
  table_says table t -> conditions_say c fs -> Forall2 order_says os o ->
  (0 < n)%Z -> int_ok KInt64 n = true -> int_ok KInt64 (n * Z.of_nat count) = true ->
  select_program args table c os Everything = Ok s ->
  (forall i, i < count -> select_program args table c os (Page n (n * Z.of_nat i)) = Ok (page i)) ->
  exists all out, select_answers db s all
    /\ (forall i, i < count -> select_answers db (page i) (out i))
    /\ List.concat (map out (seq 0 count)) = firstn (count * Z.to_nat n) all.
Proof.
  intros g db args l table t c fs os o s n count page Na Ha Nl Pl Ht Hc Ho Hn On Om Hs Hp.
  pose proof (C62_select g db args l table t c fs os o Everything s Na Ha Nl Pl Ht Hc Ho I Hs) as A.
  cbn [in_window] in A. set (rows := in_sql_order o (filter (meets db fs) (db (tb_name t)))) in *.
  exists (map (data db l) rows), (fun i => map (data db l) (firstn (Z.to_nat n) (skipn (Z.to_nat n * i) rows))).
  split; [exact A|]. split.
  - intros i Hi. assert (W : window_ok (Page n (n * Z.of_nat i))).
    { cbn [window_ok]. split; [exact Hn|]. split; [exact On|]. split; [nia|].
      unfold int_ok in *. rewrite ?andb_true_iff, ?Z.leb_le in *. destruct Om as [_ Om]. split; [|nia].
      apply Z.le_trans with 0%Z; [discriminate|nia]. }
    pose proof (C62_select g db args l table t c fs os o _ (page i) Na Ha Nl Pl Ht Hc Ho W (Hp i Hi)) as B.
    cbn [in_window] in B. replace (Z.to_nat (n * Z.of_nat i)) with (Z.to_nat n * i) in B by nia. exact B.
  - rewrite firstn_map. generalize (Z.to_nat n) as k. intro k.
    assert (G : forall m from, List.concat (map (fun i => map (data db l) (firstn k (skipn (k * i) rows))) (seq from m))
                = map (data db l) (firstn (m * k) (skipn (k * from) rows))).
    { induction m as [|m IH]; intro from; [reflexivity|]. cbn [seq map List.concat]. rewrite (IH (S from)), <- map_app. f_equal.
      replace (k * S from) with (k * from + k) by lia. rewrite <- skip_more. symmetry. apply (take_more k (m * k)). }
    rewrite G, Nat.mul_0_r. reflexivity.
Qed.
Print Assumptions C62_pages.

(* Select(Count("*")).From(table).Where(...)... counts the rows that meet the conditions. *)
Theorem C62_count {O : Oracle} : forall (g : engine) (db : database g) table t c fs s,
  table_says table t -> conditions_say c fs ->
  select_program [GSel (lk_count "*")] table c [] Everything = Ok s ->
  select_answers db s [[number g (List.length (filter (meets db fs) (db (tb_name t))))]].
Proof. intros g db. exact (count_answers db). Qed.
Print Assumptions C62_count.

(* ------------------------------------------------------------------------- *)
(* Delete                                                                      *)
(* ------------------------------------------------------------------------- *)

(* Delete(table).Where(...)...Returning(ret...) removes the rows that meet the conditions, returns
   them, and leaves every other row and every other table as they were. *)
Theorem C62_delete {O : Oracle} : forall (g : engine) (db : database g) table t c fs ret l d,
  table_says table t -> conditions_say c fs -> args_say (m := Bound) ret l -> (ret <> [] -> l <> []) -> plain_items l = true ->
  delete_program table c ret = Ok d ->
  exists db', delete_answers db d (returned db ret l (filter (meets db fs) (db (tb_name t)))) db'
    /\ db' (tb_name t) = filter (fun r => negb (meets db fs r)) (db (tb_name t))
    /\ forall t', t' <> tb_name t -> db' t' = db t'.
Proof.
  intros g db table t c fs ret l d Ht Hc Hr Nl Pl H.
  destruct (delete_runs table t c fs ret l d Ht Hc Hr H) as (text & values & Q & R).
  exists (replace db (tb_name t) (filter (fun r => negb (meets db fs r)) (db (tb_name t)))).
  split; [|split; [apply replace_same|intros t' N; apply replace_other; congruence]].
  exists text, values. split; [exact Q|]. rewrite R.
  assert (E : returns db (match ret with [] => [] | _ => l end) (filter (meets db fs) (db (tb_name t)))
              = Some (returned db ret l (filter (meets db fs) (db (tb_name t))))).
  { destruct ret as [|x ret]; [reflexivity|]. apply (plain_returned db (x :: ret) l _ Pl). apply Nl. discriminate. }
  rewrite E. reflexivity.
Qed.
Print Assumptions C62_delete.

(* The Select with the same conditions shows beforehand what the Delete will remove and return,
   and Count("*") how many rows that is. *)
Theorem C62_preview {O : Oracle} : forall (g : engine) (db : database g) args l table t c fs s n d,
  args <> [] -> args_say (m := Bound) args l -> l <> [] -> plain_items l = true ->
  table_says table t -> conditions_say c fs ->
  select_program args table c [] Everything = Ok s ->
  select_program [GSel (lk_count "*")] table c [] Everything = Ok n ->
  delete_program table c args = Ok d ->
  exists out db', select_answers db s out /\ delete_answers db d out db'
    /\ select_answers db n [[number g (List.length out)]]
    /\ List.length (db (tb_name t)) = List.length (db' (tb_name t)) + List.length out.
Proof.
  intros g db args l table t c fs s n d Na Ha Nl Pl Ht Hc Hs Hn Hd.
  destruct (C62_delete g db table t c fs args l d Ht Hc Ha (fun _ => Nl) Pl Hd) as (db' & D & E & _).
  exists (map (data db l) (filter (meets db fs) (db (tb_name t)))), db'. split; [|split; [|split]].
  - exact (C62_select g db args l table t c fs [] [] Everything s Na Ha Nl Pl Ht Hc (Forall2_nil _) I Hs).
  - unfold returned in D. destruct args; [congruence|]. exact D.
  - rewrite map_length. exact (C62_count g db table t c fs n Ht Hc Hn).
  - rewrite E, map_length. apply filter_split.
Qed.
Print Assumptions C62_preview.

(* Afterwards, if the conditions have no subqueries, no row meets them: the Select shows nothing,
   and the same Delete changes nothing. *)
Theorem C62_delete_twice {O : Oracle} : forall (g : engine) (db : database g) args l table t c fs s d out db',
  args <> [] -> args_say (m := Bound) args l -> l <> [] -> plain_items l = true ->
  table_says table t -> conditions_say c fs -> no_subs fs = true ->
  select_program args table c [] Everything = Ok s -> delete_program table c args = Ok d ->
  delete_answers db d out db' ->
  select_answers db' s [] /\ exists db'', delete_answers db' d [] db'' /\ forall t', db'' t' = db' t'.
Proof.
  intros g db args l table t c fs s d out db' Na Ha Nl Pl Ht Hc Ns Hs Hd D.
  destruct (C62_delete g db table t c fs args l d Ht Hc Ha (fun _ => Nl) Pl Hd) as (db1 & D1 & E1 & O1).
  assert (db' = db1).
  { destruct D as (x & v & Q & R), D1 as (x' & v' & Q' & R'). rewrite Q in Q'. injection Q' as <- <-. congruence. }
  subst db1.
  assert (N : filter (meets db' fs) (db' (tb_name t)) = []).
  { rewrite E1, (filter_ext _ _ (fun r => no_subs_meets db' db fs r Ns)). apply filter_none. }
  split.
  - pose proof (C62_select g db' args l table t c fs [] [] Everything s Na Ha Nl Pl Ht Hc (Forall2_nil _) I Hs) as S.
    cbn [in_sql_order in_window] in S. rewrite N in S. exact S.
  - destruct (C62_delete g db' table t c fs args l d Ht Hc Ha (fun _ => Nl) Pl Hd) as (db2 & D2 & E2 & O2).
    rewrite N in D2. exists db2. split; [destruct args; exact D2|]. intro t'.
    destruct (list_eq_dec string_dec t' (tb_name t)) as [->|X]; [|apply O2, X].
    rewrite E2. rewrite E1 at 1 2. rewrite (filter_ext _ _ (fun r => f_equal negb (no_subs_meets db' db fs r Ns))). apply filter_again.
Qed.
Print Assumptions C62_delete_twice.

(* ------------------------------------------------------------------------- *)
(* Update                                                                      *)
(* ------------------------------------------------------------------------- *)

(* A row after an assignment of columns: each column has the last value given to it, computed from
   the row as it was, and a column that is not assigned is as it was. *)
Definition written {g} (db : database g) (l : list (name * term)) (r r' : row g) : Prop :=
  forall c, r' c = match last_value c l with Some a => datum_in db r a | None => r c end.

(* Update(table).Set(...).Set(...).Where(...)...Returning(ret...) writes the assigned columns of the
   rows that meet the conditions, and returns these rows as they are now; everything else is as
   it was. *)
Theorem C62_update {O : Oracle} : forall (g : engine) (db : database g) table t sets ls c fs ret l u,
  sort_contract o_sort -> table_says table t ->
  Forall2 (pairs_say (m := Bound)) sets ls -> List.concat ls <> [] -> simple_names (List.concat ls) = true ->
  conditions_say c fs -> args_say (m := Bound) ret l -> (ret <> [] -> l <> []) -> plain_items l = true ->
  update_program table sets c ret = Ok u ->
  exists db' after,
    update_answers db u (returned db ret l (map after (filter (meets db fs) (db (tb_name t))))) db'
    /\ (forall r, written db (List.concat ls) r (after r))
    /\ db' (tb_name t) = map (fun r => if meets db fs r then after r else r) (db (tb_name t))
    /\ forall t', t' <> tb_name t -> db' t' = db t'.
Proof.
  intros g db table t sets ls c fs ret l u C Ht Hs Ns Ss Hc Hr Nl Pl H.
  pose proof (update_described table t sets ls c fs ret l u Ht Hs Hc Hr H) as S.
  assert (A : assigns_something (SetEach (assign_all [] (List.concat ls)))).
  { cbn [assigns_something]. pose proof (GrammarDmlP.assign_all_nonempty _ [] Ns) as X.
    destruct (assign_all [] (List.concat ls)); [congruence|exact I]. }
  destruct (update_runs u _ t _ fs _ C S eq_refl A) as (text & values & Q & R).
  set (after := fun r : row g => overwrite r (evaluated (datum_in db r) (assign_all [] (List.concat ls)))).
  exists (replace db (tb_name t) (map (fun r => if meets db fs r then after r else r) (db (tb_name t)))), after.
  split; [|split; [|split; [apply replace_same|intros t' N; apply replace_other; congruence]]].
  - exists text, values. split; [exact Q|]. rewrite R.
    rewrite (exec_update_body db t _ fs _ _ (fun r => assigned_each db _ r Ss)). fold after.
    assert (E : forall rows, returns db (match ret with [] => [] | _ => l end) rows = Some (returned db ret l rows)).
    { intro rows. destruct ret as [|x ret]; [reflexivity|]. apply (plain_returned db (x :: ret) l _ Pl). apply Nl. discriminate. }
    rewrite E. reflexivity.
  - intros r col. unfold after. apply (overwrite_each (datum_in db r) _ r col Ss).
Qed.
Print Assumptions C62_update.

(* Values, as opposed to columns, functions and subqueries. *)
Definition fixed_values (l : list (name * term)) : bool :=
  forallb (fun na => match snd na with MVal _ | MNull => true | _ => false end) l.
Lemma fixed_last : forall l c a, fixed_values l = true -> last_value c l = Some a ->
  forall g (db db' : database g) r r', datum_in db r a = datum_in db' r' a.
Proof.
  intros l c a F L g db db' r r'.
  assert (X : exists n, In (n, a) l).
  { unfold last_value in L. rewrite <- fold_left_rev_right in L.
    assert (X : exists n, In (n, a) (rev l)).
    { clear F. induction (rev l) as [|[n b] k IH]; [discriminate|]. cbn [fold_right fst snd] in L.
      destruct (String.eqb c (column_of n)); [injection L as <-; exists n; left; reflexivity|].
      destruct (IH L) as (n' & I). exists n'. right. exact I. }
    destruct X as (n & I). exists n. apply in_rev, I. }
  destruct X as (n & I). unfold fixed_values in F. rewrite forallb_forall in F. specialize (F _ I). cbn [snd] in F.
  destruct a; try discriminate; reflexivity.
Qed.

(* Sent again, an Update of values changes nothing. *)
Theorem C62_update_twice {O : Oracle} : forall (g : engine) (db : database g) table t sets ls c fs u out db',
  sort_contract o_sort -> table_says table t ->
  Forall2 (pairs_say (m := Bound)) sets ls -> List.concat ls <> [] -> simple_names (List.concat ls) = true ->
  conditions_say c fs -> no_subs fs = true -> fixed_values (List.concat ls) = true ->
  update_program table sets c [] = Ok u -> update_answers db u out db' ->
  exists db'', update_answers db' u [] db''
    /\ Forall2 (fun r r' : row g => forall c, r' c = r c) (db' (tb_name t)) (db'' (tb_name t))
    /\ forall t', t' <> tb_name t -> db'' t' = db' t'.
Proof.
  intros g db table t sets ls c fs u out db' C Ht Hs Ns Ss Hc Nf Fv Hu U.
  pose proof (fun d => C62_update g d table t sets ls c fs [] [] u C Ht Hs Ns Ss Hc (args_items [] [] items_none) ltac:(congruence) eq_refl Hu) as X.
  destruct (X db) as (db1 & after & U1 & W & E1 & _).
  assert (db' = db1).
  { destruct U as (x & v & Q & R), U1 as (x' & v' & Q' & R'). rewrite Q in Q'. injection Q' as <- <-. congruence. }
  subst db1. destruct (X db') as (db'' & after' & U2 & W' & E2 & O2).
  exists db''. split; [exact U2|]. split; [|exact O2]. rewrite E2, E1, map_map.
  generalize (db (tb_name t)). intro all. induction all as [|r rows IH]; [constructor|]. cbn [map]. constructor; [|exact IH].
  destruct (meets db fs r) eqn:M.
  - intro k. destruct (meets db' fs (after r)); [|reflexivity]. rewrite (W' (after r) k).
    destruct (last_value k (List.concat ls)) as [a|] eqn:L; [|reflexivity].
    rewrite (W r k), L. apply (fixed_last _ _ _ Fv L).
  - rewrite (no_subs_meets db' db fs r Nf), M. reflexivity.
Qed.
Print Assumptions C62_update_twice.

Lemma last_none : forall c l o, existsb (String.eqb c) (map (fun na => column_of (fst na)) l) = false ->
  fold_left (fun o (na : name * term) => if String.eqb c (column_of (fst na)) then Some (snd na) else o) l o = o.
Proof.
  intros c l. induction l as [|[n a] l IH]; intros o H; [reflexivity|]. cbn [map existsb fst] in H. apply orb_false_iff in H as [H1 H2].
  cbn [fold_left fst snd]. rewrite H1. apply IH, H2.
Qed.

Lemma paired_lookup {A} (F : term -> A) : forall c ns l, no_repeat (map column_of ns) = true -> List.length ns = List.length l ->
  lookup_col c (combine (map column_of ns) (map F l)) = option_map F (last_value c (combine ns l)).
Proof.
  intros c. induction ns as [|n ns IH]; intros [|a l] N L; try reflexivity; try discriminate.
  cbn [map combine lookup_col]. cbn [map no_repeat] in N. apply andb_true_iff in N as [N1 N]. cbn in L. injection L as L.
  unfold last_value. cbn [fold_left fst snd]. destruct (String.eqb_spec c (column_of n)) as [->|X].
  - rewrite last_none; [reflexivity|]. apply negb_true_iff in N1.
    assert (M : map (fun na : name * term => column_of (fst na)) (combine ns l) = map column_of ns).
    { clear - L. revert l L. induction ns as [|n ns IH]; intros [|a l] L; try reflexivity; try discriminate.
      cbn [combine map fst]. f_equal. apply IH. cbn in L. injection L as L. exact L. }
    rewrite M. exact N1.
  - apply (IH l N L).
Qed.

(* Update(table).Set(columns...).Using(values...).Where(...)...: the same, with the first value for
   the first column, and so on. *)
Theorem C62_update_using {O : Oracle} : forall (g : engine) (db : database g) table t cols ns vs ts c fs ret l u,
  sort_contract o_sort -> table_says table t ->
  columns_say cols ns -> settable ns = true -> Forall2 (value_says (m := Bound)) vs ts -> ts <> [] -> List.length ns = List.length ts ->
  conditions_say c fs -> args_say (m := Bound) ret l -> (ret <> [] -> l <> []) -> plain_items l = true ->
  using_program table cols vs c ret = Ok u ->
  exists db' after,
    update_answers db u (returned db ret l (map after (filter (meets db fs) (db (tb_name t))))) db'
    /\ (forall r, written db (combine ns ts) r (after r))
    /\ db' (tb_name t) = map (fun r => if meets db fs r then after r else r) (db (tb_name t))
    /\ forall t', t' <> tb_name t -> db' t' = db t'.
Proof.
  intros g db table t cols ns vs ts c fs ret l u C Ht Hs Ss Hv Nv Ln Hc Hr Nl Pl H.
  pose proof (using_described table t cols ns vs ts c fs ret l u Ht Hs Hv Hc Hr H) as S.
  assert (A : assigns_something (SetList ns (SValues ts))) by (destruct ts; [congruence|exact I]).
  destruct (update_runs u _ t _ fs _ C S eq_refl A) as (text & values & Q & R).
  set (write := fun r : row g => combine (map column_of ns) (map (datum_in db r) ts)).
  assert (W : forall r, assigned db (SetList ns (SValues ts)) r = Some (write r)).
  { intro r. unfold assigned. rewrite Ss, Ln, Nat.eqb_refl. reflexivity. }
  exists (replace db (tb_name t) (map (fun r => if meets db fs r then overwrite r (write r) else r) (db (tb_name t)))),
         (fun r => overwrite r (write r)).
  split; [|split; [|split; [apply replace_same|intros t' N; apply replace_other; congruence]]].
  - exists text, values. split; [exact Q|]. rewrite R, (exec_update_body db t _ fs _ _ W).
    assert (E : forall rows, returns db (match ret with [] => [] | _ => l end) rows = Some (returned db ret l rows)).
    { intro rows. destruct ret as [|x ret]; [reflexivity|]. apply (plain_returned db (x :: ret) l _ Pl). apply Nl. discriminate. }
    rewrite E. reflexivity.
  - intros r col. unfold overwrite, write. unfold settable in Ss. apply andb_true_iff in Ss as [_ Ss].
    rewrite (paired_lookup _ col ns ts Ss Ln). destruct (last_value col (combine ns ts)); reflexivity.
Qed.
Print Assumptions C62_update_using.

(* ------------------------------------------------------------------------- *)
(* Insert                                                                      *)
(* ------------------------------------------------------------------------- *)

(* Of a new row, a row of the table: they cannot stand beside each other, because of a constraint on these
   columns; of any constraint if there are none. *)
Definition clashing {g} (t : name) (cols : list name) (new old : row g) : bool := clash g t (map column_of cols) old new.

Lemma insert_rows_exec {O : Oracle} : forall (g : engine) (db : database g) i t ns ls k ret l,
  sort_contract o_sort -> ns <> [] -> ls <> [] -> (ret <> [] -> l <> []) -> plain_items l = true ->
  ins_says (m := Bound) i (ins_body t ns ls k (match ret with [] => [] | _ => l end)) -> forall news,
  all_some (map (new_row db (tb_name t) ns) ls) = Some news ->
  exists text values, query (StInsert i) = Ok (text, values)
    /\ run_insert db text values
       = match on_clash_with db (conflict_body k) with
         | Some (unique, what) =>
           match add_to (fun new old : row g => clash g (tb_name t) unique old new) what news (db (tb_name t)) with
           | Some (rows, out) => Some (returned db ret l out, replace db (tb_name t) rows)
           | None => None
           end
         | None => None
         end.
Proof.
  intros g db i t ns ls k ret l C Nn Nl0 Nl Pl S news M.
  destruct (insert_runs i _ C S) as (text & values & Q & R).
  exists text, values. split; [exact Q|]. rewrite R. unfold exec_insert, ins_body.
  cbn [in_table in_columns in_rows in_conflict in_returning].
  destruct ns as [|n0 ns]; [congruence|]. destruct ls as [|l0 ls]; [congruence|]. rewrite M.
  destruct (on_clash_with _ _) as [[unique what]|]; [|reflexivity]. destruct (add_to _ _ _ _) as [[out1 out]|]; [|reflexivity].
  assert (G : returns db (match ret with [] => [] | _ => l end) out = Some (returned db ret l out)).
  { destruct ret as [|y ret]; [reflexivity|]. apply (plain_returned db (y :: ret) l _ Pl). apply Nl. discriminate. }
  rewrite G. reflexivity.
Qed.

Lemma insert_set_effect {O : Oracle} : forall (g : engine) (db : database g) table t args m con k ret l i,
  sort_contract o_sort -> table_says table t -> pairs_say (m := Bound) args m -> m <> [] -> simple_names m = true ->
  on_conflict_says con k -> args_say (m := Bound) ret l -> (ret <> [] -> l <> []) -> plain_items l = true ->
  insert_set_program table args con ret = Ok i ->
  exists new text values, written db m (fresh (tb_name t)) new
    /\ query (StInsert i) = Ok (text, values)
    /\ run_insert db text values
       = match on_clash_with db (conflict_body k) with
         | Some (unique, what) =>
           match add_to (fun new old : row g => clash g (tb_name t) unique old new) what [new] (db (tb_name t)) with
           | Some (rows, out) => Some (returned db ret l out, replace db (tb_name t) rows)
           | None => None
           end
         | None => None
         end.
Proof.
  intros g db table t args m con k ret l i C Ht Hp Nm Sm Hc Hr Nl Pl H.
  pose proof (insert_set_described table t args m con k ret l i Ht Hp Nm Hc Hr H) as S.
  pose proof (GrammarDmlP.assign_all_nonempty m [] Nm) as X.
  assert (Y : map fst (assign_all [] m) <> []) by (destruct (assign_all [] m); [congruence|discriminate]).
  destruct (insert_rows_exec g db i t (map fst (assign_all [] m)) [map snd (assign_all [] m)] k ret l C Y ltac:(discriminate) Nl Pl S
    [overwrite (fresh (tb_name t)) (evaluated (datum_in db (fresh (tb_name t))) (assign_all [] m))])
    as (text & values & Q & R).
  { cbn [map all_some]. rewrite (new_row_each db (tb_name t) m Sm). reflexivity. }
  exists (overwrite (fresh (tb_name t)) (evaluated (datum_in db (fresh (tb_name t))) (assign_all [] m))), text, values.
  split; [intro col; apply (overwrite_each _ m _ col Sm)|]. split; assumption.
Qed.

(* Insert(table).Set(...).Returning(ret...) adds one row: each column has the last value given to it,
   the others their defaults. It fails if a constraint refuses the row. *)
Theorem C62_insert {O : Oracle} : forall (g : engine) (db : database g) table t args m ret l i,
  sort_contract o_sort -> table_says table t -> pairs_say (m := Bound) args m -> m <> [] -> simple_names m = true ->
  args_say (m := Bound) ret l -> (ret <> [] -> l <> []) -> plain_items l = true ->
  insert_set_program table args [] ret = Ok i ->
  exists new, written db m (fresh (tb_name t)) new
    /\ if existsb (clashing (tb_name t) [] new) (db (tb_name t)) then insert_fails db i
       else exists db', insert_answers db i (returned db ret l [new]) db'
            /\ db' (tb_name t) = (db (tb_name t) ++ [new])%list
            /\ forall t', t' <> tb_name t -> db' t' = db t'.
Proof.
  intros g db table t args m ret l i C Ht Hp Nm Sm Hr Nl Pl H.
  destruct (insert_set_effect g db table t args m [] None ret l i C Ht Hp Nm Sm conflict_none Hr Nl Pl H)
    as (new & text & values & W & Q & R).
  exists new. split; [exact W|]. cbn [conflict_body on_clash_with] in R.
  change (fun new old : row g => clash g (tb_name t) [] old new) with (clashing (g := g) (tb_name t) []) in R.
  destruct (existsb (clashing (tb_name t) [] new) (db (tb_name t))) eqn:B.
  - rewrite add_not_accepted in R by (intros [B' _]; unfold barred in B'; congruence).
    exists text, values. split; assumption.
  - rewrite add_accepted in R by (split; [exact B|exact I]).
    eexists. split; [exists text, values; split; [exact Q|exact R]|].
    split; [apply replace_same|intros t' N; apply replace_other; congruence].
Qed.
Print Assumptions C62_insert.

(* With OnConflict(columns..., DoNothing()) a refused row is left out, and nothing changes. *)
Theorem C62_do_nothing {O : Oracle} : forall (g : engine) (db : database g) table t args m targets ns ret l i,
  sort_contract o_sort -> table_says table t -> pairs_say (m := Bound) args m -> m <> [] -> simple_names m = true ->
  Forall2 key_says targets ns ->
  args_say (m := Bound) ret l -> (ret <> [] -> l <> []) -> plain_items l = true ->
  insert_set_program table args (targets ++ [lk_do_nothing]) ret = Ok i ->
  exists new db', written db m (fresh (tb_name t)) new
    /\ (let added := if existsb (clashing (tb_name t) ns new) (db (tb_name t)) then [] else [new] in
        insert_answers db i (returned db ret l added) db' /\ db' (tb_name t) = (db (tb_name t) ++ added)%list)
    /\ forall t', t' <> tb_name t -> db' t' = db t'.
Proof.
  intros g db table t args m targets ns ret l i C Ht Hp Nm Sm Hk Hr Nl Pl H.
  destruct (insert_set_effect g db table t args m _ _ ret l i C Ht Hp Nm Sm (conflict_nothing targets ns Hk) Hr Nl Pl H)
    as (new & text & values & W & Q & R).
  cbn [conflict_body on_clash_with] in R. rewrite add_kept in R.
  change (fun new old : row g => clash g (tb_name t) (map column_of ns) old new) with (clashing (g := g) (tb_name t) ns) in R.
  cbn [kept_rows] in R. unfold barred in R.
  exists new. eexists. split; [exact W|]. cbv zeta. split; [split; [exists text, values; split; [exact Q|exact R]|]|].
  - apply replace_same.
  - intros t' N. apply replace_other. congruence.
Qed.
Print Assumptions C62_do_nothing.

(* With OnConflict(columns..., DoUpdate(...)) the rows in the way of a refused row are written as by
   an Update with these assignments. *)
Theorem C62_do_update {O : Oracle} : forall (g : engine) (db : database g) table t args m targets ns sets k x ret l i,
  sort_contract o_sort -> table_says table t -> pairs_say (m := Bound) args m -> m <> [] -> simple_names m = true ->
  Forall2 key_says targets ns -> pairs_say (m := Bound) sets k -> k <> [] -> simple_names k = true -> lk_do_update sets = Ok x ->
  args_say (m := Bound) ret l -> (ret <> [] -> l <> []) -> plain_items l = true ->
  insert_set_program table args (targets ++ [x]) ret = Ok i ->
  exists new db' after, written db m (fresh (tb_name t)) new
    /\ (forall r, written db k r (after r))
    /\ (let rows := db (tb_name t) in
        match filter (clashing (tb_name t) ns new) rows with
        | [] => insert_answers db i (returned db ret l [new]) db' /\ db' (tb_name t) = (rows ++ [new])%list
        | found => insert_answers db i (returned db ret l (map after found)) db'
                   /\ db' (tb_name t) = map (fun old => if clashing (tb_name t) ns new old then after old else old) rows
        end)
    /\ forall t', t' <> tb_name t -> db' t' = db t'.
Proof.
  intros g db table t args m targets ns sets k x ret l i C Ht Hp Nm Sm Hk Hs Nk Sk Hx Hr Nl Pl H.
  destruct (insert_set_effect g db table t args m _ _ ret l i C Ht Hp Nm Sm (conflict_update targets ns sets k x Hk Hs Nk Hx) Hr Nl Pl H)
    as (new & text & values & W & Q & R).
  cbn [conflict_body on_clash_with] in R. rewrite (assign_all_settable k Sk) in R.
  set (after := fun r : row g => overwrite r (evaluated (datum_in db r) (assign_all [] k))).
  assert (A : forall r : row g, written db k r (after r)).
  { intros r col. apply (overwrite_each (datum_in db r) k r col Sk). }
  match type of R with context [add_to ?h ?w ?n ?d] =>
    change (add_to h w n d) with (add_to (clashing (g := g) (tb_name t) ns) (Rewrites (fun _ => after)) n d) in R end.
  rewrite add_one_rewriting in R.
  exists new. cbv zeta. destruct (filter (clashing (tb_name t) ns new) (db (tb_name t))) as [|r0 found];
    (eexists; exists after; split; [exact W|]; split; [exact A|]; split;
     [split; [exists text, values; split; [exact Q|exact R]|apply replace_same]|intros t' N; apply replace_other; congruence]).
Qed.
Print Assumptions C62_do_update.

Lemma insert_rows_effect {O : Oracle} : forall (g : engine) (db : database g) table t cols ns x rows ls con k ret l i,
  sort_contract o_sort -> table_says table t -> cols <> [] -> columns_args cols ns -> settable ns = true -> ns <> [] ->
  Rows.batch x rows -> rows <> [] -> Forall2 (row_says (m := Bound)) rows ls ->
  Forall (fun vs => List.length ns = List.length vs) ls -> on_conflict_says con k ->
  args_say (m := Bound) ret l -> (ret <> [] -> l <> []) -> plain_items l = true ->
  insert_rows_program table cols x con ret = Ok i ->
  exists news text values, Forall2 (fun vs new => written db (combine ns vs) (fresh (tb_name t)) new) ls news
    /\ query (StInsert i) = Ok (text, values)
    /\ run_insert db text values
       = match on_clash_with db (conflict_body k) with
         | Some (unique, what) =>
           match add_to (fun new old : row g => clash g (tb_name t) unique old new) what news (db (tb_name t)) with
           | Some (rows, out) => Some (returned db ret l out, replace db (tb_name t) rows)
           | None => None
           end
         | None => None
         end.
Proof.
  intros g db table t cols ns x rows ls con k ret l i C Ht Nc Hn Sn Nn Hb Nr Hl Ll Hk Hr Nl Pl H.
  pose proof (insert_rows_described table t cols ns x rows ls con k ret l i Ht Nc Hn Hb Nr Hl Hk Hr H) as S.
  set (news := map (fun vs => overwrite (fresh (tb_name t)) (combine (map column_of ns) (map (datum_in db (fresh (tb_name t))) vs))) ls).
  assert (M : all_some (map (new_row db (tb_name t) ns) ls) = Some news).
  { unfold news. clear - Sn Ll. induction Ll as [|vs ls L Ll IH]; [reflexivity|]. cbn [map all_some].
    unfold new_row at 1. rewrite Sn, L, Nat.eqb_refl. cbn [andb]. rewrite IH. reflexivity. }
  assert (Y : ls <> []) by (intros ->; inversion Hl; congruence).
  destruct (insert_rows_exec g db i t ns ls k ret l C Nn Y Nl Pl S news M) as (text & values & Q & R).
  exists news, text, values. split; [|split; assumption].
  unfold news. clear - Sn Ll. induction Ll as [|vs ls L Ll IH]; [constructor|]. cbn [map]. constructor; [|exact IH].
  intro col. unfold overwrite. unfold settable in Sn. apply andb_true_iff in Sn as [_ Sn].
  rewrite (paired_lookup _ col ns vs Sn L). destruct (last_value col (combine ns vs)); reflexivity.
Qed.

(* Insert(table).Columns(columns...).Values([][]T{...}).Returning(ret...) adds the rows in the given
   order, in each the first value for the first column, and so on; or none of them, if a constraint
   refuses one. *)
Theorem C62_insert_rows {O : Oracle} : forall (g : engine) (db : database g) table t cols ns x rows ls ret l i,
  sort_contract o_sort -> table_says table t -> cols <> [] -> columns_args cols ns -> settable ns = true -> ns <> [] ->
  Rows.batch x rows -> rows <> [] -> Forall2 (row_says (m := Bound)) rows ls ->
  Forall (fun vs => List.length ns = List.length vs) ls ->
  args_say (m := Bound) ret l -> (ret <> [] -> l <> []) -> plain_items l = true ->
  insert_rows_program table cols x [] ret = Ok i ->
  exists news, Forall2 (fun vs new => written db (combine ns vs) (fresh (tb_name t)) new) ls news
    /\ (accepted (clashing (tb_name t) []) (db (tb_name t)) news ->
        exists db', insert_answers db i (returned db ret l news) db'
          /\ db' (tb_name t) = (db (tb_name t) ++ news)%list
          /\ forall t', t' <> tb_name t -> db' t' = db t')
    /\ (~ accepted (clashing (tb_name t) []) (db (tb_name t)) news -> insert_fails db i).
Proof.
  intros g db table t cols ns x rows ls ret l i C Ht Nc Hn Sn Nn Hb Nr Hl Ll Hr Nl Pl H.
  destruct (insert_rows_effect g db table t cols ns x rows ls [] None ret l i C Ht Nc Hn Sn Nn Hb Nr Hl Ll conflict_none Hr Nl Pl H)
    as (news & text & values & W & Q & R).
  exists news. split; [exact W|]. cbn [conflict_body on_clash_with] in R.
  change (fun new old : row g => clash g (tb_name t) [] old new) with (clashing (g := g) (tb_name t) []) in R. split; intro A.
  - rewrite (add_accepted _ _ _ A) in R. eexists. split; [exists text, values; split; [exact Q|exact R]|].
    split; [apply replace_same|intros t' N; apply replace_other; congruence].
  - rewrite (add_not_accepted _ _ _ A) in R. exists text, values. split; [exact Q|exact R].
Qed.
Print Assumptions C62_insert_rows.

(* With OnConflict(columns..., DoNothing()) the refused rows are left out and the others added. *)
Theorem C62_rows_do_nothing {O : Oracle} : forall (g : engine) (db : database g) table t cols ns x rows ls targets ks ret l i,
  sort_contract o_sort -> table_says table t -> cols <> [] -> columns_args cols ns -> settable ns = true -> ns <> [] ->
  Rows.batch x rows -> rows <> [] -> Forall2 (row_says (m := Bound)) rows ls ->
  Forall (fun vs => List.length ns = List.length vs) ls -> Forall2 key_says targets ks ->
  args_say (m := Bound) ret l -> (ret <> [] -> l <> []) -> plain_items l = true ->
  insert_rows_program table cols x (targets ++ [lk_do_nothing]) ret = Ok i ->
  exists news db', Forall2 (fun vs new => written db (combine ns vs) (fresh (tb_name t)) new) ls news
    /\ (let added := kept_rows (clashing (tb_name t) ks) (db (tb_name t)) news in
        insert_answers db i (returned db ret l added) db' /\ db' (tb_name t) = (db (tb_name t) ++ added)%list)
    /\ forall t', t' <> tb_name t -> db' t' = db t'.
Proof.
  intros g db table t cols ns x rows ls targets ks ret l i C Ht Nc Hn Sn Nn Hb Nr Hl Ll Hk Hr Nl Pl H.
  destruct (insert_rows_effect g db table t cols ns x rows ls _ _ ret l i C Ht Nc Hn Sn Nn Hb Nr Hl Ll (conflict_nothing targets ks Hk) Hr Nl Pl H)
    as (news & text & values & W & Q & R).
  cbn [conflict_body on_clash_with] in R. rewrite add_kept in R.
  change (fun new old : row g => clash g (tb_name t) (map column_of ks) old new) with (clashing (g := g) (tb_name t) ks) in R.
  exists news. eexists. split; [exact W|]. split; [split; [exists text, values; split; [exact Q|exact R]|]|].
  - apply replace_same.
  - intros t' N. apply replace_other. congruence.
Qed.
Print Assumptions C62_rows_do_nothing.

(* With OnConflict(columns..., DoUpdate(...)), if no row has to be written twice: every row of the table that is
   in the way of a new row is written as by an Update with these assignments, the new rows with none in the
   way are added, and the written rows are returned in the order of the new rows. *)
Theorem C62_rows_do_update {O : Oracle} : forall (g : engine) (db : database g) table t cols ns x rows ls targets ks sets k a ret l i,
  sort_contract o_sort -> table_says table t -> cols <> [] -> columns_args cols ns -> settable ns = true -> ns <> [] ->
  Rows.batch x rows -> rows <> [] -> Forall2 (row_says (m := Bound)) rows ls ->
  Forall (fun vs => List.length ns = List.length vs) ls -> Forall2 key_says targets ks ->
  pairs_say (m := Bound) sets k -> k <> [] -> simple_names k = true -> lk_do_update sets = Ok a ->
  args_say (m := Bound) ret l -> (ret <> [] -> l <> []) -> plain_items l = true ->
  insert_rows_program table cols x (targets ++ [a]) ret = Ok i ->
  exists news after, Forall2 (fun vs new => written db (combine ns vs) (fresh (tb_name t)) new) ls news
    /\ (forall r, written db k r (after r))
    /\ let old := db (tb_name t) in
       let way := clashing (tb_name t) ks in
       (one_each way (fun _ => after) old news -> exists db',
          insert_answers db i (returned db ret l (flat_map (fun new =>
            match filter (way new) old with [] => [new] | found => map after found end) news)) db'
          /\ db' (tb_name t) = (map (fun r => if existsb (fun new => way new r) news then after r else r) old
                                ++ filter (fun new => negb (existsb (way new) old)) news)%list
          /\ forall t', t' <> tb_name t -> db' t' = db t').
Proof.
  intros g db table t cols ns x rows ls targets ks sets k a ret l i C Ht Nc Hn Sn Nn Hb Nr Hl Ll Hk Hs Nk Sk Ha Hr Nl Pl H.
  destruct (insert_rows_effect g db table t cols ns x rows ls _ _ ret l i C Ht Nc Hn Sn Nn Hb Nr Hl Ll
              (conflict_update targets ks sets k a Hk Hs Nk Ha) Hr Nl Pl H)
    as (news & text & values & W & Q & R).
  cbn [conflict_body on_clash_with] in R. rewrite (assign_all_settable k Sk) in R.
  set (after := fun r : row g => overwrite r (evaluated (datum_in db r) (assign_all [] k))).
  exists news, after.
  split; [exact W|]. split; [intros r col; apply (overwrite_each (datum_in db r) k r col Sk)|]. cbv zeta. intro One.
  match type of R with context [add_to ?h ?w ?n ?d] =>
    change (add_to h w n d) with (add_to (clashing (g := g) (tb_name t) ks) (Rewrites (fun _ => after)) n d) in R end.
  rewrite add_rewriting in R by exact One.
  eexists. split; [exists text, values; split; [exact Q|exact R]|].
  split; [|intros t' N; apply replace_other; congruence].
  rewrite replace_same. unfold barred. f_equal. apply map_ext. intro r. exact (find_or_none (fun new => clashing (tb_name t) ks new r) (after r) r news).
Qed.
Print Assumptions C62_rows_do_update.

(* ------------------------------------------------------------------------- *)
(* One statement after another                                                 *)
(* ------------------------------------------------------------------------- *)

(* A row inserted with a value in a column is found by the Select that asks for this value, if the
   database finds the value equal to itself. *)
Theorem C62_insert_then_select {O : Oracle} :
  forall (g : engine) (db : database g) table t args m i out db' k v a e items l s,
  sort_contract o_sort -> table_says table t -> pairs_say (m := Bound) args m -> m <> [] -> simple_names m = true ->
  insert_set_program table args [] [] = Ok i -> insert_answers db i out db' ->
  (* a column k got the value v *)
  plain_name k = true -> bound_as (m := Bound) v = Some a -> last_value (column_of (parts_of k)) m = Some a ->
  compares g "=" (datum_in db (fresh (tb_name t)) a) (datum_in db (fresh (tb_name t)) a) = Some true ->
  (* Select(items...).From(table).Where(Condition(k).Equal(v)) *)
  cmp_expr (lk_condition (GStr k)) OpEqual v = Ok e ->
  items <> [] -> args_say (m := Bound) items l -> l <> [] -> plain_items l = true ->
  select_program items table (Some (e, [])) [] Everything = Ok s ->
  exists new shown, written db m (fresh (tb_name t)) new
    /\ select_answers db' s shown /\ In (data db' l new) shown.
Proof.
  intros g db table t args m i out db' k v a e items l s C Ht Hp Nm Sm Hi Ai Pk Ba La Eq He Ni Hl Nl Pl Hs.
  destruct (C62_insert g db table t args m [] [] i C Ht Hp Nm Sm (args_items [] [] items_none) ltac:(congruence) eq_refl Hi) as (new & W & X).
  destruct (existsb (clashing (tb_name t) [] new) (db (tb_name t))).
  { exfalso. destruct X as (tx & vs & Q & R), Ai as (tx' & vs' & Q' & R'). rewrite Q in Q'. injection Q' as <- <-. congruence. }
  destruct X as (db1 & A1 & E1 & _).
  assert (db1 = db').
  { destruct A1 as (tx & vs & Q & R), Ai as (tx' & vs' & Q' & R'). rewrite Q in Q'. injection Q' as <- <-. congruence. }
  subst db1.
  assert (Hc : conditions_say (Some (e, [])) (Some (FCmp (MName (parts_of k)) (sql_op OpEqual) a, []))).
  { split; [|constructor]. apply (says_cmp k OpEqual v a e Pk); [|exact He]. apply operand_value, value_bound, Ba. }
  pose proof (C62_select g db' items l table t _ _ [] [] Everything s Ni Hl Nl Pl Ht Hc (Forall2_nil _) I Hs) as S.
  cbn [in_sql_order in_window] in S.
  exists new, (map (data db' l) (filter (meets db' (Some (FCmp (MName (parts_of k)) (sql_op OpEqual) a, []))) (db' (tb_name t)))).
  split; [exact W|]. split; [exact S|]. apply in_map. apply filter_In. split.
  - rewrite E1. apply in_or_app. right. left. reflexivity.
  - cbn [meets fold_left truth_of datum_in]. rewrite (W (column_of (parts_of k))), La.
    assert (D : datum_in db' new a = datum_in db (fresh (tb_name t)) a).
    { unfold bound_as in Ba. destruct (stands_for v) as [w|]; [|discriminate]. unfold shown in Ba.
      destruct w; injection Ba as <-; reflexivity. }
    rewrite D. change (sql_op OpEqual) with "=". rewrite Eq. reflexivity.
Qed.
Print Assumptions C62_insert_then_select.

(* ------------------------------------------------------------------------- *)
(* Examples                                                                    *)
(* ------------------------------------------------------------------------- *)

Section Examples.
  #[local] Existing Instance go_oracle.
  #[local] Existing Instance Bound.

  (* A small engine: data are Go values, integers and strings can be compared, the column active
     has the default true, and the column id of the table users is unique. *)
  Definition ex_compare (op : string) (x y : gval) : option bool :=
    match op, x, y with
    | "IS", GNil, GNil => Some true
    | "IS", _, GNil => Some false
    | "=", GInt _ a, GInt _ b => Some (a =? b)%Z
    | ">", GInt _ a, GInt _ b => Some (b <? a)%Z
    | "=", GStr a, GStr b => Some (String.eqb a b)
    | _, _, _ => None
    end.
  Definition ex : engine := {|
    datum := gval; null := GNil; number := fun n => GInt KInt64 (Z.of_nat n); boolean := GBool;
    enter := fun v => v; compares := ex_compare; call := fun f _ _ => GStr f;
    default_of := fun _ c => if String.eqb c "active" then GBool true else GNil;
    clash := fun _ _ old new => match old "id", new "id" with GInt _ a, GInt _ b => (a =? b)%Z | _, _ => false end;
    sort_rows := fun o rows => match o with (_, "DESC") :: _ => rev rows | _ => rows end;
    subquery := fun _ _ _ => [] |}.
  Definition person (id : Z) (name : gval) : row ex :=
    fun c => if String.eqb c "id" then GInt KInt id else if String.eqb c "name" then name else GNil.
  Definition people : database ex := fun t =>
    match t with
    | ["users"] => [person 1 (GStr "a"); person 2 (GStr "b"); person 3 GNil; person 4 (GStr "d")]
    | ["logs"] => [person 9 GNil]
    | _ => []
    end.
  Definition ids (rows : list (row ex)) : list gval := map (fun r => r "id") rows.
  Definition names_of (rows : list (row ex)) : list gval := map (fun r => r "name") rows.

  Definition users : tableref := {| tb_only := false; tb_name := ["users"]; tb_alias := [] |}.
  Lemma users_table : table_says (GStr "users") users.
  Proof. apply (table_string "users"). reflexivity. Qed.

  (* Where(Condition("id").GreaterThan(2)).And(Condition("name").Equal("d")).Or(Condition("id").Equal(1)) *)
  Definition over_two : expr := EInfix (lk_condition (GStr "id")) (Some ">") (EValue (GInt KInt 2)).
  Definition named_d : expr := EInfix (lk_condition (GStr "name")) (Some "=") (EValue (GStr "d")).
  Definition is_one : expr := EInfix (lk_condition (GStr "id")) (Some "=") (EValue (GInt KInt 1)).
  Definition ex_conds : conditions := Some (over_two, [(ByAnd, named_d); (ByOr, is_one)]).
  Definition ex_fs : formulas := Some (FCmp (MName ["id"]) ">" (MVal (GInt KInt 2)),
    [(ByAnd, FCmp (MName ["name"]) "=" (MVal (GStr "d"))); (ByOr, FCmp (MName ["id"]) "=" (MVal (GInt KInt 1)))]).
  Lemma ex_conds_say : conditions_say ex_conds ex_fs.
  Proof.
    split; [|constructor; [|constructor; [|constructor]]].
    - apply (says_cmp "id" OpGreaterThan (GInt KInt 2)); [reflexivity|apply operand_value, value_bound; reflexivity|reflexivity].
    - split; [reflexivity|]. apply (says_cmp "name" OpEqual (GStr "d")); [reflexivity|apply operand_value, value_bound; reflexivity|reflexivity].
    - split; [reflexivity|]. apply (says_cmp "id" OpEqual (GInt KInt 1)); [reflexivity|apply operand_value, value_bound; reflexivity|reflexivity].
  Qed.
  Lemma id_name_say : args_say [GStr "id, name"] [ItName ["id"] []; ItName ["name"] []].
  Proof. apply args_items. exact (strings_say "id, name" ["id"; " name"] [] [] eq_refl eq_refl items_none). Qed.

  (* What the database does with a statement. *)
  Definition sent {A} (st : stmt) (run : string -> list gval -> option A) : option A :=
    match query st with Ok (text, values) => run text values | _ => None end.

  Example C62_select_ex : exists s,
    select_program [GStr "id, name"] (GStr "users") ex_conds [lk_order "id" ["DESC"]] (First 1) = Ok s
    /\ sent (StSelect s) (run_select people) = Some [[GInt KInt 4; GStr "d"]].
  Proof. eexists. split; [vm_compute; reflexivity|]. vm_compute. reflexivity. Qed.
  (* without conditions, rows 2 and 3 of 4: pages of two rows, or of three *)
  Example C62_pages_ex : exists p0 p1 p2,
    select_program [GStr "id"] (GStr "users") None [] (Page 2 0) = Ok p0
    /\ select_program [GStr "id"] (GStr "users") None [] (Page 2 2) = Ok p1
    /\ select_program [GStr "id"] (GStr "users") None [] (Page 3 3) = Ok p2
    /\ sent (StSelect p0) (run_select people) = Some [[GInt KInt 1]; [GInt KInt 2]]
    /\ sent (StSelect p1) (run_select people) = Some [[GInt KInt 3]; [GInt KInt 4]]
    /\ sent (StSelect p2) (run_select people) = Some [[GInt KInt 4]].
  Proof. do 3 eexists. repeat (split; [vm_compute; reflexivity|]). vm_compute. reflexivity. Qed.
  Example C62_delete_ex : exists d s n,
    delete_program (GStr "users") ex_conds [GStr "id, name"] = Ok d
    /\ select_program [GStr "id, name"] (GStr "users") ex_conds [] Everything = Ok s
    /\ select_program [GSel (lk_count "*")] (GStr "users") ex_conds [] Everything = Ok n
    /\ no_subs ex_fs = true
    /\ sent (StSelect s) (run_select people) = Some [[GInt KInt 1; GStr "a"]; [GInt KInt 4; GStr "d"]]
    /\ sent (StSelect n) (run_select people) = Some [[GInt KInt64 2]]
    /\ option_map (fun p => (fst p, ids (snd p ["users"]), ids (snd p ["logs"]))) (sent (StDelete d) (run_delete people))
       = Some ([[GInt KInt 1; GStr "a"]; [GInt KInt 4; GStr "d"]], [GInt KInt 2; GInt KInt 3], [GInt KInt 9]).
  Proof. do 3 eexists. repeat (split; [vm_compute; reflexivity|]). vm_compute. reflexivity. Qed.

  (* Update("users").Set(Map{"name": "x", "active": true}).Set(Pair("name", nil)).Where(...)...Returning("id, name") *)
  Definition ex_sets : list (list gval) :=
    [[GMapAny [("name", GStr "x"); ("active", GBool true)]]; [GPair (GStr "name") GNil]].
  Definition ex_assigned : list (list (name * term)) :=
    [[(["name"], MVal (GStr "x")); (["active"], MVal (GBool true))]; [(["name"], MNull)]].
  Lemma ex_sets_say : Forall2 pairs_say ex_sets ex_assigned.
  Proof.
    constructor; [|constructor; [|constructor]].
    - apply (pairs_any _ [(["name"], MVal (GStr "x")); (["active"], MVal (GBool true))] [] []); [|apply pairs_none].
      constructor; [|constructor; [|constructor]]; (split; [|apply source_value, value_bound; reflexivity]).
      + apply (key_string "name"). reflexivity.
      + apply (key_string "active"). reflexivity.
    - apply pairs_pair; [|apply pairs_none]. split; [apply (key_string "name"); reflexivity|apply source_value, value_bound; reflexivity].
  Qed.
  Example C62_update_ex : sort_contract o_sort /\ exists u,
    update_program (GStr "users") ex_sets ex_conds [GStr "id, name"] = Ok u
    /\ simple_names (List.concat ex_assigned) = true
    /\ option_map (fun p => (fst p, names_of (snd p ["users"]), map (fun r => r "active") (snd p ["users"])))
         (sent (StUpdate u) (run_update people))
       = Some ([[GInt KInt 1; GNil]; [GInt KInt 4; GNil]], [GNil; GStr "b"; GNil; GNil], [GBool true; GNil; GNil; GBool true]).
  Proof. split; [exact insertion_contract|]. eexists. repeat (split; [vm_compute; reflexivity|]). vm_compute. reflexivity. Qed.
  Example C62_update_twice_ex : no_subs ex_fs = true /\ fixed_values (List.concat ex_assigned) = true /\ exists u,
    update_program (GStr "users") ex_sets ex_conds [] = Ok u
    /\ match sent (StUpdate u) (run_update people) with
       | Some (_, db') => option_map (fun p => names_of (snd p ["users"])) (sent (StUpdate u) (run_update db'))
                          = Some (names_of (db' ["users"])) /\ names_of (db' ["users"]) <> names_of (people ["users"])
       | None => False
       end.
  Proof. split; [reflexivity|]. split; [reflexivity|]. eexists. split; [vm_compute; reflexivity|]. vm_compute. split; [reflexivity|discriminate]. Qed.
  (* Update("users").Set("name, active").Using("x", true).Where(...) *)
  Example C62_update_using_ex : exists u,
    using_program (GStr "users") [GStr "name, active"] [GStr "x"; GBool true] ex_conds [] = Ok u
    /\ settable [["name"]; ["active"]] = true
    /\ option_map (fun p => (fst p, names_of (snd p ["users"]))) (sent (StUpdate u) (run_update people))
       = Some ([], [GStr "x"; GStr "b"; GNil; GStr "x"]).
  Proof. eexists. repeat (split; [vm_compute; reflexivity|]). vm_compute. reflexivity. Qed.

  (* Insert("users").Set(Pair("id", k), Pair("name", "e")), then with DoNothing() and with DoUpdate(Pair("name", "f")) *)
  Definition ex_new (k : Z) : list gval := [GPair (GStr "id") (GInt KInt k); GPair (GStr "name") (GStr "e")].
  Lemma ex_new_says : forall k, pairs_say (ex_new k) [(["id"], MVal (GInt KInt k)); (["name"], MVal (GStr "e"))].
  Proof.
    intro k. apply pairs_pair; [split; [apply (key_string "id"); reflexivity|apply source_value, value_bound; reflexivity]|].
    apply pairs_pair; [split; [apply (key_string "name"); reflexivity|apply source_value, value_bound; reflexivity]|]. apply pairs_none.
  Qed.
  Definition after_insert (i : insert) : option (list (list gval) * list gval * list gval * list gval) :=
    option_map (fun p => (fst p, ids (snd p ["users"]), names_of (snd p ["users"]), map (fun r => r "active") (snd p ["users"])))
      (sent (StInsert i) (run_insert people)).
  Example C62_insert_ex : exists i j n u x,
    insert_set_program (GStr "users") (ex_new 5) [] [GStr "id"] = Ok i
    /\ insert_set_program (GStr "users") (ex_new 2) [] [] = Ok j
    /\ insert_set_program (GStr "users") (ex_new 2) [GStr "id"; lk_do_nothing] [GStr "id"] = Ok n
    /\ lk_do_update [GPair (GStr "name") (GStr "f")] = Ok x
    /\ insert_set_program (GStr "users") (ex_new 2) [GStr "id"; x] [GStr "id"] = Ok u
    /\ after_insert i = Some ([[GInt KInt 5]], [GInt KInt 1; GInt KInt 2; GInt KInt 3; GInt KInt 4; GInt KInt 5],
                              [GStr "a"; GStr "b"; GNil; GStr "d"; GStr "e"], [GNil; GNil; GNil; GNil; GBool true])
    /\ after_insert j = None
    /\ after_insert n = Some ([], [GInt KInt 1; GInt KInt 2; GInt KInt 3; GInt KInt 4],
                              [GStr "a"; GStr "b"; GNil; GStr "d"], [GNil; GNil; GNil; GNil])
    /\ after_insert u = Some ([[GInt KInt 2]], [GInt KInt 1; GInt KInt 2; GInt KInt 3; GInt KInt 4],
                              [GStr "a"; GStr "f"; GNil; GStr "d"], [GNil; GNil; GNil; GNil]).
  Proof. do 5 eexists. repeat (split; [vm_compute; reflexivity|]). vm_compute. reflexivity. Qed.

  (* Insert("users").Columns("name, id").Values([][]interface{}{{"e", 5}, {nil, 6}}) *)
  Example C62_insert_rows_ex : exists i,
    insert_rows_program (GStr "users") [GStr "name, id"] (GAnyss [[GStr "e"; GInt KInt 5]; [GNil; GInt KInt 6]]) [] [] = Ok i
    /\ Forall2 row_says [[GStr "e"; GInt KInt 5]; [GNil; GInt KInt 6]] [[MVal (GStr "e"); MVal (GInt KInt 5)]; [MNull; MVal (GInt KInt 6)]]
    /\ option_map (fun p => (ids (snd p ["users"]), names_of (snd p ["users"]))) (sent (StInsert i) (run_insert people))
       = Some ([GInt KInt 1; GInt KInt 2; GInt KInt 3; GInt KInt 4; GInt KInt 5; GInt KInt 6],
               [GStr "a"; GStr "b"; GNil; GStr "d"; GStr "e"; GNil]).
  Proof.
    eexists. split; [vm_compute; reflexivity|]. split; [|vm_compute; reflexivity].
    constructor; [|constructor; [|constructor]]; (split; [discriminate|]; split; [reflexivity|repeat constructor]).
  Qed.

  (* Values([][]interface{}{{"e", 5}, {"f", 2}}), then also {"g", 5}, with DoNothing() and with DoUpdate(Pair("name", "h")) *)
  Definition ex_rows : list (list gval) := [[GStr "e"; GInt KInt 5]; [GStr "f"; GInt KInt 2]].
  Definition ex_batch (rows : list (list gval)) (con : list gval) : res insert :=
    insert_rows_program (GStr "users") [GStr "name, id"] (GAnyss rows) con [GStr "id, name"].
  Definition after_batch (rows : list (list gval)) (con : list gval) : option (list (list gval) * list gval * list gval) :=
    match ex_batch rows con with
    | Ok i => option_map (fun p => (fst p, ids (snd p ["users"]), names_of (snd p ["users"]))) (sent (StInsert i) (run_insert people))
    | _ => None
    end.
  Example C62_rows_conflict_ex : exists x, lk_do_update [GPair (GStr "name") (GStr "h")] = Ok x
    /\ after_batch ex_rows [] = None
    /\ after_batch ex_rows [GStr "id"; lk_do_nothing]
       = Some ([[GInt KInt 5; GStr "e"]], [GInt KInt 1; GInt KInt 2; GInt KInt 3; GInt KInt 4; GInt KInt 5],
               [GStr "a"; GStr "b"; GNil; GStr "d"; GStr "e"])
    /\ after_batch (ex_rows ++ [[GStr "g"; GInt KInt 5]])%list [GStr "id"; lk_do_nothing] = after_batch ex_rows [GStr "id"; lk_do_nothing]
    /\ after_batch ex_rows [GStr "id"; x]
       = Some ([[GInt KInt 5; GStr "e"]; [GInt KInt 2; GStr "h"]], [GInt KInt 1; GInt KInt 2; GInt KInt 3; GInt KInt 4; GInt KInt 5],
               [GStr "a"; GStr "h"; GNil; GStr "d"; GStr "e"])
    /\ after_batch (ex_rows ++ [[GStr "g"; GInt KInt 5]])%list [GStr "id"; x] = None.
  Proof. eexists. repeat (split; [vm_compute; reflexivity|]). vm_compute. reflexivity. Qed.
  Example C62_one_each_ex : let news := [person 5 (GStr "e"); person 2 (GStr "f")] in
    one_each (clashing (g := ex) ["users"] [["id"]]) (fun _ (r : row ex) c => if String.eqb c "name" then GStr "h" else r c) (people ["users"]) news.
  Proof.
    constructor; [|constructor; constructor]. constructor; [|constructor]. split; [reflexivity|].
    intros old I F. cbn in I. repeat destruct I as [<-|I]; try discriminate F. elim I.
  Qed.

  (* The hypotheses of C62_insert_then_select: the row with id 5 is found by Condition("id").Equal(5). *)
  Example C62_insert_then_select_ex : exists i out db' e s,
    insert_set_program (GStr "users") (ex_new 5) [] [] = Ok i /\ insert_answers people i out db'
    /\ bound_as (GInt KInt 5) = Some (MVal (GInt KInt 5))
    /\ last_value (column_of (parts_of "id")) [(["id"], MVal (GInt KInt 5)); (["name"], MVal (GStr "e"))] = Some (MVal (GInt KInt 5))
    /\ cmp_expr (lk_condition (GStr "id")) OpEqual (GInt KInt 5) = Ok e
    /\ select_program [GStr "id, name"] (GStr "users") (Some (e, [])) [] Everything = Ok s
    /\ sent (StSelect s) (run_select db') = Some [[GInt KInt 5; GStr "e"]].
  Proof.
    do 5 eexists. split; [vm_compute; reflexivity|]. split; [do 2 eexists; split; [vm_compute; reflexivity|vm_compute; reflexivity]|].
    repeat (split; [vm_compute; reflexivity|]). vm_compute. reflexivity.
  Qed.
End Examples.
