(* C66: carried out by a database, Update, Delete and Insert with From, With, Using and subqueries
   change the rows that the calls say, as the calls say. *)
From Verif Require Import GrammarReadP PropsGrammar PropsGrammarDml EffectP TablesP MeaningP ClosedP ChangesP.
From Verif Require Export Closed Changes.
From Verif Require AssignP PropsEffect PropsTables PropsMeaning.
From Verif Require Import AddRowsP.
Import PropsMeaning.

Section Words.
  Context {g : basis}.

  (* A row of t meets the conditions beside the given rows of other tables. *)
  Definition meets_with (db : tabledb g) (fs : formulas) (t : tableref) (r : brow g) (sc : bscope g) : bool :=
    bchosen g means db (all_conditions fs) (next_to db t r sc).
  (* ... on its own. *)
  Definition meets_alone (db : tabledb g) (fs : formulas) (t : tableref) (r : brow g) : bool := meets_with db fs t r [].

  (* r' is r with the last of the values assigned to each column, computed where the names mean v. *)
  Definition overwritten (db : tabledb g) (l : list (name * term)) (v : bnaming g) (r r' : brow g) : Prop :=
    forall c, r' c = match last_value c l with Some a => bterm g means db v a | None => r c end.

  (* The tables other than t are as they were, and t has the same columns. *)
  Definition only_rows_of (t : name) (db db' : tabledb g) : Prop :=
    fst (db' t) = fst (db t) /\ forall t', t' <> t -> db' t' = db t'.

  (* The data of rows that RETURNING shows. *)
  Definition shown_of (db : tabledb g) (t : tableref) (l : list item) (rows : list (brow g)) : list (list (bdatum g)) :=
    return_all db l (map (fun r => next_to db t r []) rows).

  (* The tables when With(...) has named its statements. *)
  Definition with_names (db : tabledb g) (wl : list (string * squery)) : tabledb g := with_tables g means query_columns wl db nothing.
End Words.

(* ------------------------------------------------------------------------- *)
(* Update                                                                      *)
(* ------------------------------------------------------------------------- *)

(* Update(table).With(...).Set(...).From(other).Where(...)...Returning(...): every row of the table
   that meets the conditions with a row of the other table gets the assigned values, as they are
   with one such row; the rows that meet them with none are as they were, and so is every other
   table. Each changed row is returned once. *)
Theorem C66_update {O : Oracle} : forall (g : basis) (db : tabledb g) c t wl l ts fs rl u,
  sort_contract o_sort -> table_says (ch_table c) t -> withs_say (m := Bound) (ch_with c) wl ->
  set_says (ch_set c) l -> l <> [] -> simple_names l = true ->
  from_says (ch_from c) ts -> conditions_say (ch_conditions c) fs ->
  returning_says (ch_returning c) rl -> aggregated rl = false -> named_with wl (tb_name t) = false ->
  change_update c = Ok u ->
  let db1 := with_names db wl in
  exists db' rows, (* each row after the statement, with the row of the other table if it was changed *)
    Forall2 (fun r x => match snd x with
                        | None => fst x = r /\ forall sc, In sc (others db1 ts) -> meets_with db1 fs t r sc = false
                        | Some sc => In sc (others db1 ts) /\ meets_with db1 fs t r sc = true
                                     /\ overwritten db1 l (next_to db1 t r sc) r (fst x)
                        end) (snd (db (tb_name t))) rows
    /\ updates db u (return_all db1 rl (flat_map (fun x => match snd x with Some sc => [next_to db1 t (fst x) sc] | None => [] end) rows)) db'
    /\ snd (db' (tb_name t)) = map fst rows
    /\ only_rows_of (tb_name t) db db'.
Proof.
  intros g db c t wl l ts fs rl u C Ht Hw Hs Nl Sl Hf Hc Hr Al Nw H db1.
  destruct (set_described (ch_set c) l Hs Nl Sl) as (s & A & D & V).
  pose proof (change_described c t wl s ts fs rl u Ht Hw D Hf Hc Hr H) as S.
  destruct (update_done db (update_body wl t s ts (all_conditions fs) rl) (fun v c => option_map (bterm g means db1 v) (last_value c l))
              (V g db1) Nw Al) as (rows & F & E).
  exists (put_table db (tb_name t) (map fst rows)), rows. split; [|split; [|split; [|split]]].
  - cbn [update_body up_table up_from up_where up_with] in F. clear E. revert F. generalize (snd (db (tb_name t))). intros rs F.
    induction F as [|r x rs rows S1 F IH]; [constructor|]. constructor; [|exact IH]. revert S1. unfold step.
    destruct (snd x) as [sc|]; [|exact (fun x => x)]. intros (I & M & X). split; [exact I|]. split; [exact M|].
    intro col. rewrite X. destruct (last_value col l); reflexivity.
  - exact (update_sent u _ C S A g db _ _ E).
  - rewrite put_same. reflexivity.
  - rewrite put_same. reflexivity.
  - intros t' N. apply put_other, N.
Qed.
Print Assumptions C66_update.

(* Without With and From: the rows that meet the conditions are changed, the others are not. *)
Theorem C66_update_rows {O : Oracle} : forall (g : basis) (db : tabledb g) c t l fs rl u,
  sort_contract o_sort -> table_says (ch_table c) t -> ch_with c = [] -> ch_from c = None ->
  set_says (ch_set c) l -> l <> [] -> simple_names l = true -> conditions_say (ch_conditions c) fs ->
  returning_says (ch_returning c) rl -> aggregated rl = false ->
  change_update c = Ok u ->
  exists db',
    updates db u (shown_of db t rl (map snd (filter (fun x => meets_alone db fs t (fst x))
                                               (combine (snd (db (tb_name t))) (snd (db' (tb_name t))))))) db'
    /\ Forall2 (fun r r' => if meets_alone db fs t r then overwritten db l (next_to db t r []) r r' else r' = r)
         (snd (db (tb_name t))) (snd (db' (tb_name t)))
    /\ only_rows_of (tb_name t) db db'.
Proof.
  intros g db c t l fs rl u C Ht Ew Ef Hs Nl Sl Hc Hr Al H.
  assert (Hw : withs_say (m := Bound) (ch_with c) []) by (rewrite Ew; constructor).
  assert (Hf : from_says (ch_from c) []) by (rewrite Ef; reflexivity).
  destruct (C66_update g db c t [] l [] fs rl u C Ht Hw Hs Nl Sl Hf Hc Hr Al eq_refl H) as (db' & rows & F & U & E & Y).
  cbn [with_names with_tables] in F, U. unfold with_names in F, U. cbn [with_tables] in F, U.
  assert (G : Forall2 (fun r r' => if meets_alone db fs t r then overwritten db l (next_to db t r []) r r' else r' = r)
                (snd (db (tb_name t))) (map fst rows)
              /\ flat_map (fun x : brow g * option (bscope g) => match snd x with Some sc => [next_to db t (fst x) sc] | None => [] end) rows
                 = map (fun r => next_to db t r []) (map snd (filter (fun x => meets_alone db fs t (fst x)) (combine (snd (db (tb_name t))) (map fst rows))))).
  { clear U E. revert F. generalize (snd (db (tb_name t))). intros rs F. induction F as [|r [r' o] rs rows S F [IH1 IH2]].
    - split; [constructor|reflexivity].
    - cbn [map fst snd combine filter flat_map] in *. unfold meets_alone in *. destruct o as [sc|].
      + destruct S as ([<-|[]] & M & X). rewrite M. split; [constructor; [rewrite M; exact X|exact IH1]|]. cbn [map app snd]. f_equal. exact IH2.
      + destruct S as [-> X]. rewrite (X [] (or_introl eq_refl)). split; [constructor; [rewrite (X [] (or_introl eq_refl)); reflexivity|exact IH1]|].
        exact IH2. }
  exists db'. rewrite E. destruct G as [G1 G2]. split; [|split; [exact G1|exact Y]]. unfold shown_of. rewrite <- G2. exact U.
Qed.
Print Assumptions C66_update_rows.

(* Where(Condition(x).In(sub)): the rows whose x is among what sub shows on its own. *)
Lemma in_meets {O : Oracle} {g : basis} : forall (db : tabledb g) x sb, uncorrelated db sb ->
  forall t r, meets_alone db (Some (FInSub false (MName (parts_of x)) (Query sb), [])) t r
  = existsb (fun y => is_true (bcompares g "=" (next_to db t r [] (parts_of x)) (hd (bnull g) y))) (means (Query sb) db nothing).
Proof.
  intros db x sb U t r. unfold meets_alone, meets_with. cbn [all_conditions fold_left bchosen btruth negated bterm].
  rewrite (U _), among_some. generalize (means (Query sb) db nothing). intro m.
  induction m as [|y m IH]; [reflexivity|]. cbn [map existsb]. rewrite IH. reflexivity.
Qed.
Lemma not_in_meets {O : Oracle} {g : basis} : forall (db : tabledb g) x sb, uncorrelated db sb ->
  forall t r, meets_alone db (Some (FInSub true (MName (parts_of x)) (Query sb), [])) t r
  = forallb (fun y => is_false (bcompares g "=" (next_to db t r [] (parts_of x)) (hd (bnull g) y))) (means (Query sb) db nothing).
Proof.
  intros db x sb U t r. unfold meets_alone, meets_with. cbn [all_conditions fold_left bchosen btruth negated bterm].
  rewrite (U _), among_none. generalize (means (Query sb) db nothing). intro m.
  induction m as [|y m IH]; [reflexivity|]. cbn [map forallb]. rewrite IH. reflexivity.
Qed.

(* Update(table).Set(...).Where(Condition(x).In(sub)) changes the rows whose x equals the first
   column of some row that sub shows on its own, and no others. *)
Theorem C66_update_in {O : Oracle} : forall (g : basis) (db : tabledb g) c t l x sub sb ga e u,
  sort_contract o_sort -> table_says (ch_table c) t -> ch_with c = [] -> ch_from c = None ->
  set_says (ch_set c) l -> l <> [] -> simple_names l = true ->
  plain_name x = true -> sub_arg sub ga -> sel_says (m := Bound) sub sb -> finished sub sb -> uncorrelated db sb ->
  expr_in (lk_condition (GStr x)) [ga] = Ok e -> ch_conditions c = Some (e, []) -> ch_returning c = [] ->
  change_update c = Ok u ->
  exists found db', responds db sub found /\ updates db u [] db'
    /\ Forall2 (fun r r' => if existsb (fun y => is_true (bcompares g "=" (next_to db t r [] (parts_of x)) (hd (bnull g) y))) found
                            then overwritten db l (next_to db t r []) r r' else r' = r)
         (snd (db (tb_name t))) (snd (db' (tb_name t)))
    /\ only_rows_of (tb_name t) db db'.
Proof.
  intros g db c t l x sub sb ga e u C Ht Ew Ef Hs Nl Sl Px Sa Ss Fs U He Ec Er H.
  assert (Hc : conditions_say (ch_conditions c) (Some (FInSub false (MName (parts_of x)) (Query sb), []))).
  { rewrite Ec. split; [|constructor]. exact (says_in_sub x ga sub sb e Px Sa Ss Fs He). }
  assert (Hr : returning_says (ch_returning c) []) by (rewrite Er; reflexivity).
  destruct (C66_update_rows g db c t l _ [] u C Ht Ew Ef Hs Nl Sl Hc Hr eq_refl H) as (db' & X & F & Y).
  exists (means (Query sb) db nothing), db'. split; [apply sub_responds; assumption|]. split; [exact X|]. split; [|exact Y].
  clear X Y. induction F as [|r r' rs rs' S F IH]; constructor; [|exact IH]. rewrite (in_meets db x sb U t r) in S. exact S.
Qed.
Print Assumptions C66_update_in.

(* Set(Pair(column, sub)): the column gets the value that sub shows on its own. *)
Theorem C66_set_sub {O : Oracle} : forall (g : basis) (db : tabledb g) c t col sub sb ga fs u,
  sort_contract o_sort -> table_says (ch_table c) t -> ch_with c = [] -> ch_from c = None ->
  plain_name (trim_space col) = true -> parts_of (trim_space col) = [trim_space col] ->
  sub_arg sub ga -> sel_says (m := Bound) sub sb -> finished sub sb -> uncorrelated db sb ->
  ch_set c = SetPairs [[GPair (GStr col) ga]] -> conditions_say (ch_conditions c) fs -> ch_returning c = [] ->
  change_update c = Ok u ->
  exists found db', responds db sub found /\ updates db u [] db'
    /\ Forall2 (fun r r' => forall cl, r' cl = if (meets_alone db fs t r && String.eqb cl (trim_space col))%bool
                                               then bvalue found else r cl)
         (snd (db (tb_name t))) (snd (db' (tb_name t)))
    /\ only_rows_of (tb_name t) db db'.
Proof.
  intros g db c t col sub sb ga fs u C Ht Ew Ef Pc Pp Sa Ss Fs U Es Hc Er H.
  assert (Hs : set_says (ch_set c) [([trim_space col], MSub (Query sb))]).
  { rewrite Es. change [([trim_space col], MSub (Query sb))] with (List.concat [[([trim_space col], MSub (Query sb))]]).
    apply set_pairs. constructor; [|constructor]. apply pairs_pair; [|apply pairs_none]. split; cbn [fst snd].
    - rewrite <- Pp. apply key_string. exact Pc.
    - exact (source_sub ga sub sb Sa Ss Fs). }
  assert (Hr : returning_says (ch_returning c) []) by (rewrite Er; reflexivity).
  destruct (C66_update_rows g db c t _ fs [] u C Ht Ew Ef Hs ltac:(discriminate) eq_refl Hc Hr eq_refl H) as (db' & X & F & Y).
  exists (means (Query sb) db nothing), db'. split; [apply sub_responds; assumption|]. split; [exact X|]. split; [|exact Y].
  clear X Y. induction F as [|r r' rs rs' S F IH]; constructor; [|exact IH]. intro cl.
  destruct (meets_alone db fs t r); cbn [andb]; [|rewrite S; reflexivity]. specialize (S cl). rewrite S.
  unfold last_value. cbn [fold_left fst column_of last snd]. destruct (String.eqb cl (trim_space col)); [|reflexivity].
  cbn [bterm]. rewrite (U _). reflexivity.
Qed.
Print Assumptions C66_set_sub.

(* Set(columns...).Using(sub): the columns get the row that sub shows on its own, the first column
   the first value, and so on. *)
Theorem C66_using_sub {O : Oracle} : forall (g : basis) (db : tabledb g) c t cols ns sub sb ga fs u vs,
  sort_contract o_sort -> table_says (ch_table c) t -> ch_with c = [] -> ch_from c = None ->
  ch_set c = SetUsing cols [ga] -> columns_say cols ns -> settable ns = true ->
  sub_arg sub ga -> sel_says (m := Bound) sub sb -> finished sub sb -> uncorrelated db sb ->
  conditions_say (ch_conditions c) fs -> ch_returning c = [] ->
  change_update c = Ok u ->
  responds db sub [vs] -> List.length vs = List.length ns ->
  exists db', updates db u [] db'
    /\ Forall2 (fun r r' => forall cl, r' cl = match (if meets_alone db fs t r then column_value (map column_of ns) vs cl else None) with
                                               | Some d => d | None => r cl end)
         (snd (db (tb_name t))) (snd (db' (tb_name t)))
    /\ only_rows_of (tb_name t) db db'.
Proof.
  intros g db c t cols ns sub sb ga fs u vs C Ht Ew Ef Es Hn St Sa Ss Fs U Hc Er H R L.
  assert (Hw : withs_say (m := Bound) (ch_with c) []) by (rewrite Ew; constructor).
  assert (Hf : from_says (ch_from c) []) by (rewrite Ef; reflexivity).
  assert (Hr : returning_says (ch_returning c) []) by (rewrite Er; reflexivity).
  assert (D : forall u b u', upd_says (m := Bound) u b -> up_set b = SetEach [] -> upd_run u (set_calls (ch_set c)) = Ok u' ->
                upd_says (m := Bound) u' (put_set (SetList ns (SQuery (Query sb))) b)).
  { rewrite Es. exact (using_sub_described cols ns ga sub sb Hn Sa Ss Fs). }
  pose proof (change_described c t [] _ [] fs [] u Ht Hw D Hf Hc Hr H) as S.
  pose proof (responds_once _ _ _ _ _ R (sub_responds db sub sb Ss Fs)) as Em.
  destruct (update_done db (update_body [] t (SetList ns (SQuery (Query sb))) [] (all_conditions fs) [])
              (fun _ cl => column_value (map column_of ns) vs cl)) as (rows & F & E); [|reflexivity|reflexivity|].
  { intro v. cbn [update_body up_set up_with with_tables bassigned]. rewrite St, (U v), <- Em.
    rewrite <- L, Nat.eqb_refl. eexists. split; [reflexivity|]. intro cl. clear - L. revert vs L.
    induction ns as [|n ns IH]; intros [|d vs] L; try reflexivity; try discriminate. cbn [map combine lookup_col column_value].
    destruct (String.eqb cl (column_of n)); [reflexivity|]. apply IH. cbn in L. injection L as L. exact L. }
  exists (put_table db (tb_name t) (map fst rows)). split; [|split; [|split]].
  - exact (update_sent u _ C S I g db _ _ E).
  - rewrite put_same. cbn [snd]. apply step_alone in F as [_ F]. cbn [update_body up_table up_where up_with with_tables] in F.
    clear E. revert F. generalize (snd (db (tb_name t))). intros rs F. induction F as [|r x rs rows S1 F IH]; cbn [map]; constructor; [|exact IH].
    intro cl. unfold meets_alone, meets_with.
    change (if bchosen g means db (all_conditions fs) (next_to db t r [])
            then forall c, fst x c = match column_value (map column_of ns) vs c with Some d => d | None => r c end else fst x = r) in S1.
    destruct (bchosen g means db (all_conditions fs) (next_to db t r [])); [apply S1|exact (f_equal (fun f => f cl) S1)].
  - rewrite put_same. reflexivity.
  - intros t' N. apply put_other, N.
Qed.
Print Assumptions C66_using_sub.

(* Update(table).With(With(x, sub)).Set(...).From(x).Where(...): as C66_update, where the rows of x
   are those that sub shows on its own, under its column names. *)
Theorem C66_update_with {O : Oracle} : forall (g : basis) (db : tabledb g) c t x w xt l fs sub sb ga u,
  sort_contract o_sort -> table_says (ch_table c) t -> tb_name t <> [x] ->
  bare x = true -> sub_arg sub ga -> sel_says (m := Bound) sub sb -> finished sub sb ->
  lk_with x ga = Ok w -> ch_with c = [w] ->
  ch_from c = Some (GStr x) -> table_says (GStr x) xt -> tb_name xt = [x] ->
  set_says (ch_set c) l -> l <> [] -> simple_names l = true -> conditions_say (ch_conditions c) fs -> ch_returning c = [] ->
  change_update c = Ok u ->
  let row_of := fun p : list (bdatum g) => [(xt, query_columns (Query sb), as_row (query_columns (Query sb)) p)] in
  exists found db' db1, responds db sub found /\ updates db u [] db'
    /\ db1 [x] = (query_columns (Query sb), map (as_row (query_columns (Query sb))) found) /\ (forall t', t' <> [x] -> db1 t' = db t')
    /\ Forall2 (fun r r' =>
         (r' = r /\ forall p, In p found -> meets_with db1 fs t r (row_of p) = false)
         \/ exists p, In p found /\ meets_with db1 fs t r (row_of p) = true
              /\ overwritten db1 l (next_to db1 t r (row_of p)) r r')
         (snd (db (tb_name t))) (snd (db' (tb_name t)))
    /\ only_rows_of (tb_name t) db db'.
Proof.
  intros g db c t x w xt l fs sub sb ga u C Ht Nt Bx Sa Ss Fs Hw Ew Ef Hx Ex Hs Nl Sl Hc Er H row_of.
  assert (Ww : withs_say (m := Bound) (ch_with c) [(x, Query sb)]).
  { rewrite Ew. apply (withs_some x ga sub sb w [] []); try assumption. constructor. }
  assert (Wf : from_says (ch_from c) [xt]) by (rewrite Ef; exists xt; split; [exact Hx|reflexivity]).
  assert (Wr : returning_says (ch_returning c) []) by (rewrite Er; reflexivity).
  assert (Wn : named_with [(x, Query sb)] (tb_name t) = false).
  { unfold named_with. cbn [existsb fst]. rewrite orb_false_r. unfold name_eqb. destruct (list_eq_dec string_dec [x] (tb_name t)); [congruence|reflexivity]. }
  destruct (C66_update g db c t _ l _ fs [] u C Ht Ww Hs Nl Sl Wf Hc Wr eq_refl Wn H) as (db' & rows & F & U & E & Y).
  set (db1 := with_names db [(x, Query sb)]) in *.
  assert (D1 : db1 [x] = (query_columns (Query sb), map (as_row (query_columns (Query sb))) (means (Query sb) db nothing))).
  { unfold db1, with_names. cbn [with_tables]. rewrite name_eqb_refl. reflexivity. }
  exists (means (Query sb) db nothing), db', db1. split; [apply sub_responds; assumption|]. split; [exact U|]. split; [exact D1|]. split; [|split; [|exact Y]].
  - intros t' N. unfold db1, with_names. cbn [with_tables]. unfold name_eqb. destruct (list_eq_dec string_dec [x] t'); [congruence|reflexivity].
  - rewrite E. assert (Q : forall sc, In sc (others db1 [xt]) <-> exists p, In p (means (Query sb) db nothing) /\ sc = row_of p).
    { intro sc. unfold others. cbn [bfrom bjoins]. rewrite Ex, D1. cbn [snd]. rewrite map_map, in_map_iff. unfold with_row. rewrite Ex, D1. cbn [fst].
      split; intros (p & A & B); exists p; split; auto. }
    clear U E Y. revert F. generalize (snd (db (tb_name t))). intros rs F. induction F as [|r y rs rows S F IH]; cbn [map]; constructor; [|exact IH].
    destruct (snd y) as [sc|].
    + destruct S as (I & M & X). apply Q in I as (p & Ip & ->). right. exists p. auto.
    + destruct S as [S1 S2]. left. split; [exact S1|]. intros p Ip. apply S2, Q. exists p. auto.
Qed.
Print Assumptions C66_update_with.

(* ------------------------------------------------------------------------- *)
(* Delete                                                                      *)
(* ------------------------------------------------------------------------- *)

(* Delete(table).Using(others...).Where(...)...Returning(...) removes the rows of the table that meet
   the conditions with some rows of the others, and only them; each is returned once. *)
Theorem C66_delete {O : Oracle} : forall (g : basis) (db : tabledb g) c t us fs rl d,
  table_says (rm_table c) t -> Forall2 table_says (rm_using c) us -> conditions_say (rm_conditions c) fs ->
  returning_says (rm_returning c) rl -> aggregated rl = false -> removal_delete c = Ok d ->
  let taken := fun r => existsb (meets_with db fs t r) (others db us) in
  exists db' picked, removes db d (return_all db rl (map (fun x => next_to db t (fst x) (snd x)) picked)) db'
    /\ map fst picked = filter taken (snd (db (tb_name t)))
    /\ (forall r sc, In (r, sc) picked -> In sc (others db us) /\ meets_with db fs t r sc = true)
    /\ snd (db' (tb_name t)) = filter (fun r => negb (taken r)) (snd (db (tb_name t)))
    /\ only_rows_of (tb_name t) db db'.
Proof.
  intros g db c t us fs rl d Ht Hu Hc Hr Al H taken.
  pose proof (removal_described c t us fs rl d Ht Hu Hc Hr H) as S.
  set (b := delete_body t us (all_conditions fs) rl) in *.
  assert (T : forall r, goes db t b r = taken r).
  { intro r. unfold goes, taken, b. cbn [delete_body de_using de_where]. unfold partner, meets_with.
    generalize (others db us). intro l. induction l as [|sc l IH]; [reflexivity|]. cbn [find existsb].
    destruct (bchosen g means db (all_conditions fs) (next_to db t r sc)); [reflexivity|exact IH]. }
  set (picked := flat_map (fun r => match partner db t us (all_conditions fs) r with Some sc => [(r, sc)] | None => [] end) (snd (db (tb_name t)))).
  exists (put_table db (tb_name t) (filter (fun r => negb (goes db t b r)) (snd (db (tb_name t))))), picked.
  split; [|split; [|split; [|split; [|split]]]].
  - apply (delete_sent d b S g db). unfold bdelete, b. cbn [delete_body de_from de_using de_where de_returning]. unfold may_return. rewrite Al. cbn [negb].
    do 2 f_equal. unfold picked. f_equal. generalize (snd (db (tb_name t))). intro l. induction l as [|r l IH]; [reflexivity|]. cbn [flat_map].
    destruct (partner db t us (all_conditions fs) r); cbn [map app fst snd]; rewrite IH; reflexivity.
  - unfold picked. generalize (snd (db (tb_name t))). intro l. induction l as [|r l IH]; [reflexivity|]. cbn [flat_map filter].
    rewrite <- (T r). unfold goes. cbn [b delete_body de_using de_where]. destruct (partner db t us (all_conditions fs) r); cbn [map app fst]; rewrite IH; reflexivity.
  - intros r sc I. unfold picked in I. apply in_flat_map in I as (r' & _ & I). destruct (partner db t us (all_conditions fs) r') as [sc'|] eqn:Ep; [|destruct I].
    destruct I as [I|[]]. injection I as -> ->. unfold partner in Ep. exact (find_some _ _ Ep).
  - rewrite put_same. cbn [snd]. apply filter_ext. intro r. rewrite T. reflexivity.
  - rewrite put_same. reflexivity.
  - intros t' N. apply put_other, N.
Qed.
Print Assumptions C66_delete.

(* Without Using: the rows that meet the conditions on their own. *)
Theorem C66_delete_rows {O : Oracle} : forall (g : basis) (db : tabledb g) c t fs rl d,
  table_says (rm_table c) t -> rm_using c = [] -> conditions_say (rm_conditions c) fs ->
  returning_says (rm_returning c) rl -> aggregated rl = false -> removal_delete c = Ok d ->
  exists db', removes db d (shown_of db t rl (filter (meets_alone db fs t) (snd (db (tb_name t))))) db'
    /\ snd (db' (tb_name t)) = filter (fun r => negb (meets_alone db fs t r)) (snd (db (tb_name t)))
    /\ only_rows_of (tb_name t) db db'.
Proof.
  intros g db c t fs rl d Ht Eu Hc Hr Al H. assert (Hu : Forall2 table_says (rm_using c) []) by (rewrite Eu; constructor).
  destruct (C66_delete g db c t [] fs rl d Ht Hu Hc Hr Al H) as (db' & picked & R & P & I & E & Y).
  assert (T : forall r, existsb (meets_with db fs t r) (others db []) = meets_alone db fs t r).
  { intro r. unfold others. cbn [bfrom existsb]. apply orb_false_r. }
  exists db'. split; [|split; [|exact Y]].
  - replace (shown_of _ _ _ _) with (return_all db rl (map (fun x => next_to db t (fst x) (snd x)) picked)); [exact R|].
    unfold shown_of. f_equal. rewrite <- (filter_ext _ _ T), <- P, map_map. apply map_ext_in. intros [r sc] Ip. destruct (I r sc Ip) as [[<-|[]] _]. reflexivity.
  - rewrite E. apply filter_ext. intro r. rewrite T. reflexivity.
Qed.
Print Assumptions C66_delete_rows.

(* Delete(table).Where(Condition(x).In(sub)) removes the rows whose x equals the first column of some
   row that sub shows on its own. *)
Theorem C66_delete_in {O : Oracle} : forall (g : basis) (db : tabledb g) c t x sub sb ga e d,
  table_says (rm_table c) t -> rm_using c = [] -> rm_returning c = [] ->
  plain_name x = true -> sub_arg sub ga -> sel_says (m := Bound) sub sb -> finished sub sb -> uncorrelated db sb ->
  expr_in (lk_condition (GStr x)) [ga] = Ok e -> rm_conditions c = Some (e, []) -> removal_delete c = Ok d ->
  exists found db', responds db sub found /\ removes db d [] db'
    /\ snd (db' (tb_name t)) = filter (fun r => negb (existsb (fun y =>
         is_true (bcompares g "=" (next_to db t r [] (parts_of x)) (hd (bnull g) y))) found)) (snd (db (tb_name t)))
    /\ only_rows_of (tb_name t) db db'.
Proof.
  intros g db c t x sub sb ga e d Ht Eu Er Px Sa Ss Fs U He Ec H.
  assert (Hc : conditions_say (rm_conditions c) (Some (FInSub false (MName (parts_of x)) (Query sb), []))).
  { rewrite Ec. split; [|constructor]. exact (says_in_sub x ga sub sb e Px Sa Ss Fs He). }
  assert (Hr : returning_says (rm_returning c) []) by (rewrite Er; reflexivity).
  destruct (C66_delete_rows g db c t _ [] d Ht Eu Hc Hr eq_refl H) as (db' & X & F & Y).
  exists (means (Query sb) db nothing), db'. split; [apply sub_responds; assumption|]. split; [exact X|]. split; [|exact Y].
  rewrite F. apply filter_ext. intro r. f_equal. exact (in_meets db x sb U t r).
Qed.
Print Assumptions C66_delete_in.

(* Delete(table).Where(Condition(x).NotIn(sub)) keeps every row whose x is not known to differ from
   all that sub shows; with a NULL among it, every row. *)
Theorem C66_delete_not_in {O : Oracle} : forall (g : basis) (db : tabledb g) c t x sub sb ga e d,
  table_says (rm_table c) t -> rm_using c = [] -> rm_returning c = [] ->
  plain_name x = true -> sub_arg sub ga -> sel_says (m := Bound) sub sb -> finished sub sb -> uncorrelated db sb ->
  expr_not_in (lk_condition (GStr x)) [ga] = Ok e -> rm_conditions c = Some (e, []) -> removal_delete c = Ok d ->
  exists found db', responds db sub found /\ removes db d [] db'
    /\ snd (db' (tb_name t)) = filter (fun r => negb (forallb (fun y =>
         is_false (bcompares g "=" (next_to db t r [] (parts_of x)) (hd (bnull g) y))) found)) (snd (db (tb_name t)))
    /\ ((forall d, bcompares g "=" d (bnull g) = None) -> forall y, In y found -> hd (bnull g) y = bnull g ->
         snd (db' (tb_name t)) = snd (db (tb_name t)))
    /\ only_rows_of (tb_name t) db db'.
Proof.
  intros g db c t x sub sb ga e d Ht Eu Er Px Sa Ss Fs U He Ec H.
  assert (Hc : conditions_say (rm_conditions c) (Some (FInSub true (MName (parts_of x)) (Query sb), []))).
  { rewrite Ec. split; [|constructor]. exact (says_not_in_sub x ga sub sb e Px Sa Ss Fs He). }
  assert (Hr : returning_says (rm_returning c) []) by (rewrite Er; reflexivity).
  destruct (C66_delete_rows g db c t _ [] d Ht Eu Hc Hr eq_refl H) as (db' & X & F & Y).
  assert (Z : snd (db' (tb_name t)) = filter (fun r => negb (forallb (fun y =>
         is_false (bcompares g "=" (next_to db t r [] (parts_of x)) (hd (bnull g) y))) (means (Query sb) db nothing))) (snd (db (tb_name t)))).
  { rewrite F. apply filter_ext. intro r. f_equal. exact (not_in_meets db x sb U t r). }
  exists (means (Query sb) db nothing), db'. split; [apply sub_responds; assumption|]. split; [exact X|]. split; [exact Z|]. split; [|exact Y].
  intros Hn y Iy Ey. rewrite Z. rewrite <- (all_true (snd (db (tb_name t)))) at 2. apply filter_ext. intro r.
  destruct (forallb _ _) eqn:Ef; [|reflexivity]. rewrite forallb_forall in Ef. specialize (Ef y Iy). rewrite Ey, Hn in Ef. discriminate.
Qed.
Print Assumptions C66_delete_not_in.

(* The Select with the same table and conditions shows what the Delete returns, and as many rows as
   the Update changes: whatever the conditions, subqueries included. *)
Theorem C66_preview {O : Oracle} : forall (g : basis) (db : tabledb g) table t args l conds fs asg al s d u,
  sort_contract o_sort -> table_says table t -> args <> [] -> args_say (m := Bound) args l -> l <> [] -> aggregated l = false ->
  conditions_say conds fs -> set_says asg al -> al <> [] -> simple_names al = true ->
  program_select {| pr_args := args; pr_distinct := false; pr_distinct_on := []; pr_with := []; pr_from := [table]; pr_joins := [];
    pr_conditions := conds; pr_group_by := []; pr_having := None; pr_order_by := []; pr_window := Everything |} = Ok s ->
  removal_delete {| rm_table := table; rm_using := []; rm_conditions := conds; rm_returning := args |} = Ok d ->
  change_update {| ch_table := table; ch_with := []; ch_set := asg; ch_from := None; ch_conditions := conds; ch_returning := args |} = Ok u ->
  exists out out' db' db'', responds db s out /\ removes db d out db'
    /\ List.length (snd (db (tb_name t))) = List.length out + List.length (snd (db' (tb_name t)))
    /\ updates db u out' db'' /\ List.length out' = List.length out.
Proof.
  intros g db table t args l conds fs asg al s d u C Ht Na Ha Nl Al Hc Hs Ns Ss Hsel Hdel Hupd.
  assert (Hr : returning_says args l) by (destruct args; [congruence|split; assumption]).
  destruct (C66_delete_rows g db {| rm_table := table; rm_using := []; rm_conditions := conds; rm_returning := args |} t fs l d Ht eq_refl Hc Hr Al Hdel) as (db' & R & E & _).
  destruct (C66_update_rows g db {| ch_table := table; ch_with := []; ch_set := asg; ch_from := None; ch_conditions := conds; ch_returning := args |} t al fs l u C Ht eq_refl eq_refl
    Hs Ns Ss Hc Hr Al Hupd) as (db'' & U & F & _).
  exists (shown_of db t l (filter (meets_alone db fs t) (snd (db (tb_name t))))). eexists. exists db', db''. split; [|split; [exact R|split; [|split; [exact U|]]]].
  - set (b := nth_body [] l false [] [t] [] (all_conditions fs) [] None [] None None).
    assert (P : program_says {| pr_args := args; pr_distinct := false; pr_distinct_on := []; pr_with := []; pr_from := [table]; pr_joins := [];
      pr_conditions := conds; pr_group_by := []; pr_having := None; pr_order_by := []; pr_window := Everything |} b).
    { constructor; cbn; try reflexivity; try tauto; try (constructor; fail).
      - constructor; [exact Ht|constructor].
      - exists fs. split; [exact Hc|reflexivity]. }
    pose proof (program_responds _ b s P Hsel g db) as X. replace (shown_of _ _ _ _) with (means (Query b) db nothing); [exact X|].
    rewrite (means_body b db nothing eq_refl eq_refl). unfold body_rows, b.
    cbn [q_prefix q_with q_distinct_on q_distinct q_items q_from q_joins q_where q_group_by q_having q_order_by q_limit
         q_offset q_suffix nth_body with_tables grouped btake bskip bsorted bchosen bfrom bjoins].
    rewrite Al, all_true, !map_map. cbn [fst snd]. unfold shown_of, return_all. destruct l as [|i0 l0]; [congruence|].
    generalize (snd (db (tb_name t))). intro rows. rewrite map_map. induction rows as [|r rows IH]; [reflexivity|]. cbn [map filter].
    unfold meets_alone, meets_with. change (names_in nothing [with_row db t r]) with (next_to db t r []).
    destruct (bchosen g means db (all_conditions fs) (next_to db t r [])); cbn [map]; [f_equal|]; exact IH.
  - rewrite E. unfold shown_of, return_all. destruct l; [congruence|]. rewrite !map_length. generalize (snd (db (tb_name t))). intro rows.
    induction rows as [|r rows IH]; [reflexivity|]. cbn [filter]. destruct (meets_alone db fs t r); cbn [negb List.length]; lia.
  - unfold shown_of, return_all. destruct l; [congruence|]. rewrite !map_length. clear - F. induction F as [|r r' rs rs' S F IH]; [reflexivity|].
    cbn [combine filter fst]. destruct (meets_alone db fs t r); cbn [List.length]; lia.
Qed.
Print Assumptions C66_preview.

(* ------------------------------------------------------------------------- *)
(* Insert                                                                      *)
(* ------------------------------------------------------------------------- *)

(* Insert(table).Set(...).Returning(...) adds one row, unless a constraint refuses it: every column
   has the last value assigned to it, a subquery being what it shows, or its default. *)
Theorem C66_insert {O : Oracle} : forall (g : basis) (k : rules g) (db : tabledb g) table t args m ret l i,
  sort_contract o_sort -> table_says table t -> pairs_say (m := Bound) args m -> m <> [] -> simple_names m = true ->
  args_say (m := Bound) ret l -> (ret <> [] -> l <> []) -> aggregated l = false ->
  insert_set_program table args [] ret = Ok i ->
  exists new, overwritten db m nothing (bfresh k (tb_name t)) new
    /\ if existsb (fun old => rclash k (tb_name t) [] old new) (snd (db (tb_name t)))
       then exists text values, query (StInsert i) = Ok (text, values) /\ send_insert k db text values = None
       else exists db', inserts k db i (match ret with [] => [] | _ => shown_of db t l [new] end) db'
            /\ snd (db' (tb_name t)) = (snd (db (tb_name t)) ++ [new])%list
            /\ only_rows_of (tb_name t) db db'.
Proof.
  intros g k db table t args m ret l i C Ht Hp Nm Sm Hr Nl Al H.
  pose proof (insert_set_described table t args m [] None ret l i Ht Hp Nm conflict_none Hr H) as S.
  destruct (C52_insert_read_back i _ C S) as (text & values & Q & R).
  set (w := combine (map column_of (map fst (assign_all [] m))) (map (bterm g means db nothing) (map snd (assign_all [] m)))).
  assert (L : forall c, lookup_col c w = option_map (bterm g means db nothing) (last_value c m)).
  { intro c. unfold w. replace (combine _ _) with (evaluated (bterm g means db nothing) (assign_all [] m)).
    - rewrite (assign_all_lookup (bterm g means db nothing) c m [] Sm eq_refl). reflexivity.
    - unfold evaluated. generalize (assign_all [] m). intro a. induction a as [|[n x] a IH]; [reflexivity|]. cbn [map combine fst snd]. rewrite IH. reflexivity. }
  exists (bwrite (bfresh k (tb_name t)) w). split.
  { intro c. unfold bwrite. rewrite L. destruct (last_value c m); reflexivity. }
  assert (B : bnew k db (tb_name t) (map fst (assign_all [] m)) (map snd (assign_all [] m)) = Some (bwrite (bfresh k (tb_name t)) w)).
  { unfold bnew. rewrite (assign_all_settable m Sm), !map_length, Nat.eqb_refl. reflexivity. }
  assert (Ar : may_return (match ret with [] => [] | _ => l end) = true).
  { destruct ret; [reflexivity|]. unfold may_return. rewrite Al. reflexivity. }
  set (new := bwrite (bfresh k (tb_name t)) w) in *.
  assert (X : send_insert k db text values
    = if existsb (fun old => rclash k (tb_name t) [] old new) (snd (db (tb_name t))) then None
      else Some (return_all db (match ret with [] => [] | _ => l end) [next_to db t new []],
                 put_table db (tb_name t) (snd (db (tb_name t)) ++ [new])%list)).
  { unfold send_insert. rewrite R. unfold binsert, ins_body. cbn [in_table in_columns in_rows in_conflict in_returning conflict_body map all_some].
    rewrite B. cbn [option_map bclash]. rewrite Ar. cbn [negb].
    destruct (existsb (fun old => rclash k (tb_name t) [] old new) (snd (db (tb_name t)))) eqn:Cl.
    - rewrite add_not_accepted; [reflexivity|]. intros [F _]. unfold barred in F. congruence.
    - rewrite add_accepted by (split; [exact Cl|exact I]). reflexivity. }
  destruct (existsb _ _).
  - exists text, values. split; [exact Q|exact X].
  - eexists. split; [|split; [|split]].
    + exists text, values. split; [exact Q|]. rewrite X. destruct ret as [|r ret]; [reflexivity|].
      unfold shown_of. cbn [map]. reflexivity.
    + rewrite put_same. reflexivity.
    + rewrite put_same. reflexivity.
    + intros t' N. apply put_other, N.
Qed.
Print Assumptions C66_insert.

(* ------------------------------------------------------------------------- *)
(* Examples                                                                    *)
(* ------------------------------------------------------------------------- *)

Section Examples.
  #[local] Existing Instance go_oracle.
  #[local] Existing Instance Bound.

  (* The rows of a table, and what is returned. *)
  Definition after (t : name) (cs : list string) (x : option (list (list cell) * tabledb bx)) : option (list (list cell) * list (list cell)) :=
    match x with Some (out, db') => Some (out, map (fun r => map r cs) (snd (db' t))) | None => None end.
  Definition run_change (c : change) (db : tabledb bx) (t : name) (cs : list string) :=
    match change_update c with Ok u => after t cs (PropsEffect.sent (StUpdate u) (send_update db)) | _ => None end.
  Definition run_removal (c : removal) (db : tabledb bx) (t : name) (cs : list string) :=
    match removal_delete c with Ok d => after t cs (PropsEffect.sent (StDelete d) (send_delete db)) | _ => None end.

  Definition to_z : sets := SetPairs [[GPair (GStr "name") (GStr "z")]].
  Lemma to_z_says : set_says to_z [(["name"], MVal (GStr "z"))].
  Proof.
    apply (set_pairs _ [[(["name"], MVal (GStr "z"))]]). constructor; [|constructor]. apply pairs_pair; [|apply pairs_none].
    split; cbn [fst snd]; [apply (key_string "name"); reflexivity|apply source_value, value_bound; reflexivity].
  Qed.

  (* Update("users").Set(Pair("name", "z")).Where(Condition("id").In(sub)) *)
  Definition rename_in : change := {| ch_table := GStr "users"; ch_with := []; ch_set := to_z; ch_from := None;
    ch_conditions := Some (in_sub, []); ch_returning := [] |}.
  Example C66_update_in_ex : run_change rename_in (board []) ["users"] ["id"; "name"]
    = Some ([], [[CInt 1; CStr "z"]; [CInt 2; CStr "b"]; [CInt 3; CStr "z"]]).
  Proof. vm_compute. reflexivity. Qed.
  (* The hypotheses are met: what the theorem says of this statement. *)
  Example C66_update_in_met : forall u, change_update rename_in = Ok u ->
    exists found db', responds (board []) the_sub found /\ updates (board []) u [] db'
      /\ Forall2 (fun r r' => if existsb (fun y => is_true (cell_compares "=" (next_to (board []) users r [] ["id"]) (hd CNull y))) found
                              then overwritten (board []) [(["name"], MVal (GStr "z"))] (next_to (board []) users r []) r r' else r' = r)
           (snd (board [] ["users"])) (snd (db' ["users"]))
      /\ only_rows_of ["users"] (board []) db'.
  Proof.
    intros u H.
    apply (C66_update_in bx (board []) rename_in users [(["name"], MVal (GStr "z"))] "id" the_sub sub_body (g_select the_sub) in_sub u);
      try reflexivity; try discriminate.
    - exact AssignP.insertion_contract.
    - exact users_says.
    - exact to_z_says.
    - exact the_sub_arg.
    - exact the_sub_says.
    - exact the_sub_finished.
    - apply the_sub_uncorrelated. left. reflexivity.
    - exact H.
  Qed.

  (* Select("title").From("news").Where(Condition("title").Equal("x")): one row, one value *)
  Definition title_x : expr := EInfix (lk_condition (GStr "title")) (Some "=") (EValue (GStr "x")).
  Definition f_x : formula := FCmp (MName ["title"]) "=" (MVal (GStr "x")).
  Lemma title_x_says : says title_x f_x.
  Proof. apply (says_cmp "title" OpEqual (GStr "x")); [reflexivity|apply operand_value, value_bound; reflexivity|reflexivity]. Qed.
  Lemma title_arg_says : args_say [GStr "title"] (columns_item [["title"]]).
  Proof. apply args_items. exact (strings_say "title" ["title"] [] [] eq_refl eq_refl items_none). Qed.
  Definition one_program : program := plain_program [GStr "title"] [GStr "news"] [] (Some title_x).
  Definition one_body : body := plain_body [["title"]] [news] [] (Some f_x).
  Definition one : select := match program_select one_program with Ok s => s | _ => new_select end.
  Lemma one_says : sel_says one one_body.
  Proof.
    apply (program_described one_program one_body one); [|vm_compute; reflexivity].
    apply plain_says; [discriminate|apply title_arg_says|discriminate|constructor; [apply news_says|constructor]|constructor|apply title_x_says].
  Qed.
  Lemma one_finished : finished one one_body.
  Proof. split; [discriminate|vm_compute; reflexivity]. Qed.
  Lemma one_alone : stands_alone (board []) one_body.
  Proof. exists 1. vm_compute. reflexivity. Qed.

  (* Update("users").Set(Pair("name", one)).Where(Condition("id").In(sub)) *)
  Definition name_from : change := {| ch_table := GStr "users"; ch_with := []; ch_set := SetPairs [[GPair (GStr "name") (g_select one)]];
    ch_from := None; ch_conditions := Some (in_sub, []); ch_returning := [GStr "id"] |}.
  Example C66_set_sub_ex : run_change name_from (board []) ["users"] ["id"; "name"]
    = Some ([[CInt 1]; [CInt 3]], [[CInt 1; CStr "x"]; [CInt 2; CStr "b"]; [CInt 3; CStr "x"]]).
  Proof. vm_compute. reflexivity. Qed.
  Definition name_from_all : change := {| ch_table := GStr "users"; ch_with := []; ch_set := SetPairs [[GPair (GStr "name") (g_select one)]];
    ch_from := None; ch_conditions := None; ch_returning := [] |}.
  Example C66_set_sub_met : forall u, change_update name_from_all = Ok u ->
    exists found db', responds (board []) one found /\ updates (board []) u [] db'
      /\ Forall2 (fun r r' : brow bx => forall cl, r' cl = if String.eqb cl "name" then bvalue (g := bx) found else r cl)
           (snd (board [] ["users"])) (snd (db' ["users"]))
      /\ only_rows_of ["users"] (board []) db'.
  Proof.
    intros u H.
    refine (C66_set_sub bx (board []) name_from_all users "name" one one_body (g_select one) None u _ _ _ _ _ _ _ _ _ _ _ _ _ _);
      try reflexivity.
    - exact AssignP.insertion_contract.
    - exact users_says.
    - exact (sub_builder one).
    - exact one_says.
    - exact one_finished.
    - apply C65_stands_alone, one_alone.
    - exact H.
  Qed.
  Example C66_set_sub_all_ex : run_change name_from_all (board []) ["users"] ["id"; "name"]
    = Some ([], [[CInt 1; CStr "x"]; [CInt 2; CStr "x"]; [CInt 3; CStr "x"]]).
  Proof. vm_compute. reflexivity. Qed.

  (* Update("users").Set("name").Using(one).Where(Condition("id").In(sub)) *)
  Definition name_using : change := {| ch_table := GStr "users"; ch_with := []; ch_set := SetUsing [GStr "name"] [g_select one];
    ch_from := None; ch_conditions := Some (in_sub, []); ch_returning := [] |}.
  Example C66_using_sub_ex : run_change name_using (board []) ["users"] ["id"; "name"]
      = Some ([], [[CInt 1; CStr "x"]; [CInt 2; CStr "b"]; [CInt 3; CStr "x"]])
    /\ PropsEffect.sent (StSelect one) (answer (board [])) = Some [[CStr "x"]].
  Proof. split; vm_compute; reflexivity. Qed.
  Lemma using_says : columns_say [GStr "name"] [["name"]].
  Proof. apply (columns_string "name" ["name"] [] []); [apply items_split; reflexivity|repeat constructor|apply columns_none]. Qed.

  (* Update("users").Set(Pair("name", Raw("news.title"))).From("news")
       .Where(Condition("users.id").Equal(Raw("news.user_id"))).Returning("id", "name") *)
  Definition joined : expr := match cmp_expr (lk_condition (GStr "users.id")) OpEqual (GExpr (lk_raw "news.user_id")) with Ok e => e | _ => ENil end.
  Definition f_joined : formula := FCmp (MName ["users"; "id"]) "=" (MName ["news"; "user_id"]).
  Lemma joined_says : says joined f_joined.
  Proof.
    apply (says_cmp "users.id" OpEqual (GExpr (lk_raw "news.user_id"))); [reflexivity| |reflexivity].
    apply operand_value. exact (value_column "news.user_id" eq_refl).
  Qed.
  Definition from_news : change := {| ch_table := GStr "users"; ch_with := [];
    ch_set := SetPairs [[GPair (GStr "name") (GExpr (lk_raw "news.title"))]];
    ch_from := Some (GStr "news"); ch_conditions := Some (joined, []); ch_returning := [GStr "id"; GStr "name"] |}.
  Example C66_update_ex : run_change from_news (board []) ["users"] ["id"; "name"]
    = Some ([[CInt 1; CStr "x"]; [CInt 3; CStr "y"]], [[CInt 1; CStr "x"]; [CInt 2; CStr "b"]; [CInt 3; CStr "y"]]).
  Proof. vm_compute. reflexivity. Qed.
  Definition from_news_set : list (name * term) := [(["name"], MName ["news"; "title"])].
  Lemma from_news_set_says : set_says (ch_set from_news) from_news_set.
  Proof.
    apply (set_pairs _ [from_news_set]). constructor; [|constructor]. apply pairs_pair; [|apply pairs_none].
    split; cbn [fst snd]; [apply (key_string "name"); reflexivity|apply source_value; exact (value_column "news.title" eq_refl)].
  Qed.
  Definition id_name : list item := columns_item [["id"]; ["name"]].
  Lemma id_name_says : args_say [GStr "id"; GStr "name"] id_name.
  Proof.
    apply args_items. apply (strings_say "id" ["id"] [GStr "name"] (columns_item [["name"]])); [reflexivity|reflexivity|].
    exact (strings_say "name" ["name"] [] [] eq_refl eq_refl items_none).
  Qed.
  Example C66_update_met : forall u, change_update from_news = Ok u ->
    exists (db' : tabledb bx) rows,
      Forall2 (fun r x => match snd x with
                          | None => fst x = r /\ forall sc, In sc (others (board []) [news]) -> meets_with (board []) (Some (f_joined, [])) users r sc = false
                          | Some sc => In sc (others (board []) [news]) /\ meets_with (board []) (Some (f_joined, [])) users r sc = true
                              /\ overwritten (board []) from_news_set (next_to (board []) users r sc) r (fst x)
                          end) (snd (board [] ["users"])) rows
      /\ updates (board []) u (return_all (board []) id_name (flat_map (fun x => match snd x with Some sc => [next_to (board []) users (fst x) sc] | None => [] end) rows)) db'
      /\ snd (db' ["users"]) = map fst rows
      /\ only_rows_of ["users"] (board []) db'.
  Proof.
    intros u H.
    apply (C66_update bx (board []) from_news users [] from_news_set [news] (Some (f_joined, [])) id_name u);
      try reflexivity; try discriminate.
    - exact AssignP.insertion_contract.
    - exact users_says.
    - constructor.
    - exact from_news_set_says.
    - exists news. split; [exact news_says|reflexivity].
    - split; [exact joined_says|constructor].
    - split; [exact id_name_says|discriminate].
    - exact H.
  Qed.

  (* Update("users").With(With("recent", sub)).Set(Pair("name", "z")).From("recent")
       .Where(Condition("users.id").Equal(Raw("recent.user_id"))) *)
  Definition joined_recent : expr := match cmp_expr (lk_condition (GStr "users.id")) OpEqual (GExpr (lk_raw "recent.user_id")) with Ok e => e | _ => ENil end.
  Definition f_joined_recent : formula := FCmp (MName ["users"; "id"]) "=" (MName ["recent"; "user_id"]).
  Lemma joined_recent_says : says joined_recent f_joined_recent.
  Proof.
    apply (says_cmp "users.id" OpEqual (GExpr (lk_raw "recent.user_id"))); [reflexivity| |reflexivity].
    apply operand_value. exact (value_column "recent.user_id" eq_refl).
  Qed.
  Definition with_recent : change := {| ch_table := GStr "users"; ch_with := [with_sub]; ch_set := to_z;
    ch_from := Some (GStr "recent"); ch_conditions := Some (joined_recent, []); ch_returning := [] |}.
  Example C66_update_with_ex : run_change with_recent (board []) ["users"] ["id"; "name"]
    = Some ([], [[CInt 1; CStr "z"]; [CInt 2; CStr "b"]; [CInt 3; CStr "z"]]).
  Proof. vm_compute. reflexivity. Qed.
  Definition recent : tableref := {| tb_only := false; tb_name := ["recent"]; tb_alias := [] |}.
  Example C66_update_with_met : forall u, change_update with_recent = Ok u ->
    let row_of := fun p : list cell => [(recent, ["user_id"], as_row (g := bx) ["user_id"] p)] in
    exists found db' db1, responds (board []) the_sub found /\ updates (board []) u [] db'
      /\ db1 ["recent"] = (["user_id"], map (as_row ["user_id"]) found) /\ (forall t', t' <> ["recent"] -> db1 t' = board [] t')
      /\ Forall2 (fun r r' =>
           (r' = r /\ forall p, In p found -> meets_with db1 (Some (f_joined_recent, [])) users r (row_of p) = false)
           \/ exists p, In p found /\ meets_with db1 (Some (f_joined_recent, [])) users r (row_of p) = true
                /\ overwritten db1 [(["name"], MVal (GStr "z"))] (next_to db1 users r (row_of p)) r r')
           (snd (board [] ["users"])) (snd (db' ["users"]))
      /\ only_rows_of ["users"] (board []) db'.
  Proof.
    intros u H.
    apply (C66_update_with bx (board []) with_recent users "recent" with_sub recent [(["name"], MVal (GStr "z"))] (Some (f_joined_recent, []))
             the_sub sub_body (g_select the_sub) u); try reflexivity; try discriminate.
    - exact AssignP.insertion_contract.
    - exact users_says.
    - exact the_sub_arg.
    - exact the_sub_says.
    - exact the_sub_finished.
    - apply (table_string "recent"). reflexivity.
    - exact to_z_says.
    - split; [exact joined_recent_says|constructor].
    - exact H.
  Qed.

  Lemma sent_responds : forall (db : tabledb bx) s out, PropsEffect.sent (StSelect s) (answer db) = Some out -> responds db s out.
  Proof.
    intros db s out H. unfold PropsEffect.sent in H. unfold responds. destruct (query (StSelect s)) as [[text values]|]; [|discriminate].
    exists text, values. split; [reflexivity|exact H].
  Qed.

  (* Delete("users").Where(Condition("id").In(sub)) and NotIn(sub) *)
  Definition remove_where (e : expr) : removal := {| rm_table := GStr "users"; rm_using := []; rm_conditions := Some (e, []); rm_returning := [] |}.
  Example C66_delete_in_ex : run_removal (remove_where in_sub) (board []) ["users"] ["id"; "name"] = Some ([], [[CInt 2; CStr "b"]]).
  Proof. vm_compute. reflexivity. Qed.
  Example C66_delete_not_in_ex :
    run_removal (remove_where not_in_sub) (board []) ["users"] ["id"] = Some ([], [[CInt 1]; [CInt 3]])
    /\ run_removal (remove_where not_in_sub) (board [[CNull; CStr "y"]]) ["users"] ["id"] = Some ([], [[CInt 1]; [CInt 2]; [CInt 3]]).
  Proof. split; vm_compute; reflexivity. Qed.
  Example C66_delete_in_met : forall d, removal_delete (remove_where in_sub) = Ok d ->
    exists found db', responds (board []) the_sub found /\ removes (board []) d [] db'
      /\ snd (db' ["users"]) = filter (fun r => negb (existsb (fun y =>
           is_true (cell_compares "=" (next_to (board []) users r [] ["id"]) (hd CNull y))) found)) (snd (board [] ["users"]))
      /\ only_rows_of ["users"] (board []) db'.
  Proof.
    intros d H.
    apply (C66_delete_in bx (board []) (remove_where in_sub) users "id" the_sub sub_body (g_select the_sub) in_sub d); try reflexivity.
    - exact users_says.
    - exact the_sub_arg.
    - exact the_sub_says.
    - exact the_sub_finished.
    - apply the_sub_uncorrelated. left. reflexivity.
    - exact H.
  Qed.
  Example C66_delete_not_in_met : forall d, removal_delete (remove_where not_in_sub) = Ok d ->
    exists db', removes (board [[CNull; CStr "y"]]) d [] db' /\ snd (db' ["users"]) = snd (board [] ["users"]).
  Proof.
    intros d H.
    destruct (C66_delete_not_in bx (board [[CNull; CStr "y"]]) (remove_where not_in_sub) users "id" the_sub sub_body (g_select the_sub) not_in_sub d)
      as (found & db' & R & X & _ & N & _); try reflexivity.
    - exact users_says.
    - exact the_sub_arg.
    - exact the_sub_says.
    - exact the_sub_finished.
    - apply the_sub_uncorrelated. right. reflexivity.
    - exact H.
    - exists db'. split; [exact X|]. refine (N bx_null [CNull] _ eq_refl).
      assert (R' : responds (board [[CNull; CStr "y"]]) the_sub [[CInt 1]; [CInt 3]; [CInt 3]; [CNull]])
        by (apply sent_responds; vm_compute; reflexivity).
      rewrite (responds_once _ _ _ _ _ R R'). right. right. right. left. reflexivity.
  Qed.

  (* Delete("users").Using("news").Where(Condition("users.id").Equal(Raw("news.user_id"))).Returning("id", "name") *)
  Definition remove_using : removal := {| rm_table := GStr "users"; rm_using := [GStr "news"]; rm_conditions := Some (joined, []);
    rm_returning := [GStr "id"; GStr "name"] |}.
  Example C66_delete_ex : run_removal remove_using (board []) ["users"] ["id"; "name"]
    = Some ([[CInt 1; CStr "a"]; [CInt 3; CStr "c"]], [[CInt 2; CStr "b"]]).
  Proof. vm_compute. reflexivity. Qed.
  Example C66_delete_met : forall d, removal_delete remove_using = Ok d ->
    let taken := fun r => existsb (meets_with (board []) (Some (f_joined, [])) users r) (others (board []) [news]) in
    exists db' picked, removes (board []) d (return_all (board []) id_name (map (fun x => next_to (board []) users (fst x) (snd x)) picked)) db'
      /\ map fst picked = filter taken (snd (board [] ["users"]))
      /\ snd (db' ["users"]) = filter (fun r => negb (taken r)) (snd (board [] ["users"])).
  Proof.
    intros d H taken.
    destruct (C66_delete bx (board []) remove_using users [news] (Some (f_joined, [])) id_name d) as (db' & picked & X & P & _ & E & _);
      try reflexivity.
    - exact users_says.
    - constructor; [exact news_says|constructor].
    - split; [exact joined_says|constructor].
    - split; [exact id_name_says|discriminate].
    - exact H.
    - exists db', picked. auto.
  Qed.

  (* Select, Delete and Update with the same table and conditions. *)
  Definition same_select : program := {| pr_args := [GStr "id"; GStr "name"]; pr_distinct := false; pr_distinct_on := []; pr_with := [];
    pr_from := [GStr "users"]; pr_joins := []; pr_conditions := Some (in_sub, []); pr_group_by := []; pr_having := None; pr_order_by := [];
    pr_window := Everything |}.
  Definition same_delete : removal := {| rm_table := GStr "users"; rm_using := []; rm_conditions := Some (in_sub, []); rm_returning := [GStr "id"; GStr "name"] |}.
  Definition same_update : change := {| ch_table := GStr "users"; ch_with := []; ch_set := to_z; ch_from := None;
    ch_conditions := Some (in_sub, []); ch_returning := [GStr "id"; GStr "name"] |}.
  Example C66_preview_ex : given same_select (board []) = Some [[CInt 1; CStr "a"]; [CInt 3; CStr "c"]]
    /\ run_removal same_delete (board []) ["users"] ["id"] = Some ([[CInt 1; CStr "a"]; [CInt 3; CStr "c"]], [[CInt 2]])
    /\ run_change same_update (board []) ["users"] ["name"] = Some ([[CInt 1; CStr "z"]; [CInt 3; CStr "z"]], [[CStr "z"]; [CStr "b"]; [CStr "z"]]).
  Proof. split; [|split]; vm_compute; reflexivity. Qed.

  Example C66_preview_met : forall s d u, program_select same_select = Ok s -> removal_delete same_delete = Ok d -> change_update same_update = Ok u ->
    exists out out' db' db'', responds (board []) s out /\ removes (board []) d out db'
      /\ 3 = List.length out + List.length (snd (db' ["users"]))
      /\ updates (board []) u out' db'' /\ List.length out' = List.length out.
  Proof.
    intros s d u Hs Hd Hu.
    apply (C66_preview bx (board []) (GStr "users") users [GStr "id"; GStr "name"] id_name (Some (in_sub, []))
             (Some (FInSub false (MName ["id"]) (Query sub_body), [])) to_z [(["name"], MVal (GStr "z"))] s d u);
      try reflexivity; try discriminate.
    - exact AssignP.insertion_contract.
    - exact users_says.
    - exact id_name_says.
    - split; [|constructor]. exact (says_in_sub "id" (g_select the_sub) the_sub sub_body in_sub eq_refl the_sub_arg the_sub_says the_sub_finished eq_refl).
    - exact to_z_says.
    - exact Hs.
    - exact Hd.
    - exact Hu.
  Qed.
  Definition using_all : change := {| ch_table := GStr "users"; ch_with := []; ch_set := SetUsing [GStr "name"] [g_select one];
    ch_from := None; ch_conditions := None; ch_returning := [] |}.
  Example C66_using_sub_met : forall u, change_update using_all = Ok u ->
    exists db', updates (board []) u [] db'
      /\ Forall2 (fun r r' : brow bx => forall cl, r' cl = match column_value (g := bx) ["name"] [CStr "x"] cl with Some d => d | None => r cl end)
           (snd (board [] ["users"])) (snd (db' ["users"]))
      /\ only_rows_of ["users"] (board []) db'.
  Proof.
    intros u H.
    apply (C66_using_sub bx (board []) using_all users [GStr "name"] [["name"]] one one_body (g_select one) None u [CStr "x"]);
      try reflexivity; try discriminate.
    - exact AssignP.insertion_contract.
    - exact users_says.
    - exact using_says.
    - exact (sub_builder one).
    - exact one_says.
    - exact one_finished.
    - apply C65_stands_alone, one_alone.
    - exact H.
    - apply sent_responds. vm_compute. reflexivity.
  Qed.

  (* Insert("users").Set(Pair("name", one)).Returning("id", "name"); ids are 7 unless given, names are unique. *)
  Definition seven (n : name) (c : string) : bdatum bx := if String.eqb c "id" then CInt 7 else CNull.
  Definition same_name (n : name) (cols : list string) (a b : brow bx) : bool := cell_eqb (a "name") (b "name").
  Definition unique_names : rules bx := Build_rules bx seven same_name.
  Definition run_insert (args ret : list gval) :=
    match insert_set_program (GStr "users") args [] ret with Ok i => after ["users"] ["id"; "name"] (PropsEffect.sent (StInsert i) (send_insert unique_names (board []))) | _ => None end.
  Example C66_insert_ex : run_insert [GPair (GStr "name") (g_select one)] [GStr "id"; GStr "name"]
      = Some ([[CInt 7; CStr "x"]], [[CInt 1; CStr "a"]; [CInt 2; CStr "b"]; [CInt 3; CStr "c"]; [CInt 7; CStr "x"]])
    /\ run_insert [GPair (GStr "name") (GStr "b")] [GStr "id"; GStr "name"] = None.
  Proof. split; vm_compute; reflexivity. Qed.
End Examples.
