(* C66 for Insert with one row or many and with OnConflict: what DoNothing() and DoUpdate(...) do, with
   subqueries and with EXCLUDED. *)
From Verif Require Import GrammarReadP PropsGrammar PropsGrammarDml EffectP TablesP MeaningP ClosedP ChangesP AddRowsP.
From Verif Require Export Closed Changes.
From Verif Require AssignP PropsEffect PropsTables PropsMeaning PropsChanges.
Import PropsMeaning PropsChanges.

Section Given.
  Context {O : Oracle}.
  #[local] Existing Instance Bound.

  (* The rows given to an Insert, each by its columns and values: by Set(...), or by
     Columns(columns...).Values([][]T{...}). *)
  Inductive rows_given (table : gval) (con ret : list gval) (i : insert) : list (list (name * term)) -> Prop :=
  | by_set args m : pairs_say args m -> m <> [] -> simple_names m = true ->
      insert_set_program table args con ret = Ok i -> rows_given table con ret i [m]
  | by_values cols ns x rows ls : cols <> [] -> columns_args cols ns -> settable ns = true -> ns <> [] ->
      Rows.batch x rows -> rows <> [] -> Forall2 row_says rows ls -> Forall (fun vs => List.length ns = List.length vs) ls ->
      insert_rows_program table cols x con ret = Ok i -> rows_given table con ret i (map (combine ns) ls).
End Given.

Section Words.
  Context {g : basis} (k : rules g).
  (* Of a new row, a row of the table: they cannot stand beside each other, because of a constraint on these
     columns; of any constraint if there are none. *)
  Definition bars (t : name) (cols : list name) (new old : brow g) : bool := rclash k t (map column_of cols) old new.
  (* The new rows: the values given, and defaults. *)
  Definition are_new (db : tabledb g) (t : name) (ms : list (list (name * term))) (news : list (brow g)) : Prop :=
    Forall2 (fun m new => overwritten db m nothing (bfresh k t) new) ms news.
  Definition fails (db : tabledb g) {O : Oracle} (i : insert) : Prop :=
    exists text values, query (StInsert i) = Ok (text, values) /\ send_insert k db text values = None.
  (* The old row with the values of the new row in some columns. *)
  Definition takes_over (cs : list string) (new old r : brow g) : Prop :=
    forall c, r c = if existsb (String.eqb c) cs then new c else old c.
End Words.

(* ------------------------------------------------------------------------- *)
(* Lemmas                                                                      *)
(* ------------------------------------------------------------------------- *)

Section Lemmas.
  Context {O : Oracle} {g : basis} (k : rules g).
  #[local] Existing Instance Bound.

  Lemma assigned_lookup (db : tabledb g) (v : bnaming g) m : simple_names m = true -> forall c,
    lookup_col c (map (fun nt => (column_of (fst nt), bterm g means db v (snd nt))) (assign_all [] m))
    = option_map (bterm g means db v) (last_value c m).
  Proof. intros S c. exact (assign_all_lookup (bterm g means db v) c m [] S eq_refl). Qed.

  Lemma given_described : forall (db : tabledb g) table t con c ret l i ms,
    table_says table t -> rows_given table con ret i ms -> on_conflict_says con c -> args_say ret l ->
    exists ns ls news, ins_says i (ins_body t ns ls c (match ret with [] => [] | _ => l end))
      /\ all_some (map (bnew k db (tb_name t) ns) ls) = Some news
      /\ are_new k db (tb_name t) ms news.
  Proof.
    intros db table t con c ret l i ms Ht [args m Hp Nm Sm H|cols ns x rows ls Nc Hn Sn Nn Hb Nr Hl Ll H] Hc Hr.
    - exists (map fst (assign_all [] m)), [map snd (assign_all [] m)],
        [bwrite (bfresh k (tb_name t)) (map (fun nt => (column_of (fst nt), bterm g means db nothing (snd nt))) (assign_all [] m))].
      split; [exact (insert_set_described table t args m con c ret l i Ht Hp Nm Hc Hr H)|]. split.
      + cbn [map all_some]. unfold bnew. rewrite (assign_all_settable m Sm), !map_length, Nat.eqb_refl. cbn [andb option_map].
        do 3 f_equal. generalize (assign_all [] m). intro a. induction a as [|[n y] a IH]; [reflexivity|]. cbn [map combine fst snd].
        rewrite IH. reflexivity.
      + constructor; [|constructor]. intro col. unfold bwrite. rewrite (assigned_lookup db nothing m Sm).
        destruct (last_value col m); reflexivity.
    - exists ns, ls, (map (fun vs => bwrite (bfresh k (tb_name t)) (combine (map column_of ns) (map (bterm g means db nothing) vs))) ls).
      split; [exact (insert_rows_described table t cols ns x rows ls con c ret l i Ht Nc Hn Hb Nr Hl Hc Hr H)|]. split.
      + clear - Sn Ll. induction Ll as [|vs ls L Ll IH]; [reflexivity|]. cbn [map all_some].
        unfold bnew at 1. rewrite Sn, L, Nat.eqb_refl. cbn [andb]. rewrite IH. reflexivity.
      + clear - Sn Ll. unfold are_new. induction Ll as [|vs ls L Ll IH]; [constructor|]. cbn [map]. constructor; [|exact IH].
        intro col. unfold bwrite. unfold settable in Sn. apply andb_true_iff in Sn as [_ Sn].
        rewrite (PropsEffect.paired_lookup _ col ns vs Sn L). destruct (last_value col (combine ns vs)); reflexivity.
  Qed.

  Lemma insert_effect : forall (db : tabledb g) table t con c ret l i ms,
    sort_contract o_sort -> table_says table t -> rows_given table con ret i ms -> on_conflict_says con c ->
    args_say ret l -> (ret <> [] -> l <> []) -> aggregated l = false ->
    exists news text values, are_new k db (tb_name t) ms news
      /\ query (StInsert i) = Ok (text, values)
      /\ send_insert k db text values
         = match bclash db t (conflict_body c) with
           | Some (unique, what) =>
             match add_to (fun new old : brow g => rclash k (tb_name t) unique old new) what news (snd (db (tb_name t))) with
             | Some (rows, out) => Some (match ret with [] => [] | _ => shown_of db t l out end, put_table db (tb_name t) rows)
             | None => None
             end
           | None => None
           end.
  Proof.
    intros db table t con c ret l i ms C Ht Hg Hc Hr Nl Al.
    destruct (given_described db table t con c ret l i ms Ht Hg Hc Hr) as (ns & ls & news & S & N & A).
    destruct (C52_insert_read_back i _ C S) as (text & values & Q & R).
    exists news, text, values. split; [exact A|]. split; [exact Q|].
    unfold send_insert. rewrite R. unfold binsert, ins_body. cbn [in_table in_columns in_rows in_conflict in_returning].
    rewrite N. destruct (bclash db t (conflict_body c)) as [[unique what]|]; [|reflexivity].
    assert (Ar : may_return (match ret with [] => [] | _ => l end) = true).
    { destruct ret; [reflexivity|]. unfold may_return. rewrite Al. reflexivity. }
    rewrite Ar. cbn [negb]. destruct (add_to _ _ _ _) as [[rows out]|]; [|reflexivity].
    do 2 f_equal. destruct ret as [|r ret]; reflexivity.
  Qed.

  Lemma put_only : forall (db : tabledb g) t rows, only_rows_of t db (put_table db t rows).
  Proof. intros db t rows. split; [rewrite put_same; reflexivity|intros t' N; apply put_other, N]. Qed.
End Lemmas.

(* ------------------------------------------------------------------------- *)
(* Theorems                                                                    *)
(* ------------------------------------------------------------------------- *)

(* Without OnConflict all rows are added, in the given order; or none, if a constraint refuses one. *)
Theorem C66_insert_rows {O : Oracle} : forall (g : basis) (k : rules g) (db : tabledb g) table t ret l i ms,
  sort_contract o_sort -> table_says table t -> rows_given table [] ret i ms ->
  args_say (m := Bound) ret l -> (ret <> [] -> l <> []) -> aggregated l = false ->
  exists news, are_new k db (tb_name t) ms news
    /\ (accepted (bars k (tb_name t) []) (snd (db (tb_name t))) news ->
        exists db', inserts k db i (match ret with [] => [] | _ => shown_of db t l news end) db'
          /\ snd (db' (tb_name t)) = (snd (db (tb_name t)) ++ news)%list
          /\ only_rows_of (tb_name t) db db')
    /\ (~ accepted (bars k (tb_name t) []) (snd (db (tb_name t))) news -> fails k db i).
Proof.
  intros g k db table t ret l i ms C Ht Hg Hr Nl Al.
  destruct (insert_effect k db table t [] None ret l i ms C Ht Hg conflict_none Hr Nl Al) as (news & text & values & A & Q & R).
  exists news. split; [exact A|]. cbn [conflict_body bclash] in R.
  change (fun new old : brow g => rclash k (tb_name t) [] old new) with (bars k (tb_name t) []) in R. split; intro P.
  - rewrite (add_accepted _ _ _ P) in R. eexists. split; [exists text, values; split; [exact Q|exact R]|].
    split; [rewrite put_same; reflexivity|apply put_only].
  - rewrite (add_not_accepted _ _ _ P) in R. exists text, values. split; [exact Q|exact R].
Qed.
Print Assumptions C66_insert_rows.

(* With OnConflict(columns..., DoNothing()) a new row is left out if a row of the table is in its way, or an
   earlier new row; the others are added. *)
Theorem C66_do_nothing {O : Oracle} : forall (g : basis) (k : rules g) (db : tabledb g) table t targets ks ret l i ms,
  sort_contract o_sort -> table_says table t -> Forall2 key_says targets ks ->
  rows_given table (targets ++ [lk_do_nothing]) ret i ms ->
  args_say (m := Bound) ret l -> (ret <> [] -> l <> []) -> aggregated l = false ->
  exists news db', are_new k db (tb_name t) ms news
    /\ (let added := kept_rows (bars k (tb_name t) ks) (snd (db (tb_name t))) news in
        inserts k db i (match ret with [] => [] | _ => shown_of db t l added end) db'
        /\ snd (db' (tb_name t)) = (snd (db (tb_name t)) ++ added)%list)
    /\ only_rows_of (tb_name t) db db'.
Proof.
  intros g k db table t targets ks ret l i ms C Ht Hk Hg Hr Nl Al.
  destruct (insert_effect k db table t _ _ ret l i ms C Ht Hg (conflict_nothing targets ks Hk) Hr Nl Al) as (news & text & values & A & Q & R).
  cbn [conflict_body bclash] in R.
  change (fun new old : brow g => rclash k (tb_name t) (map column_of ks) old new) with (bars k (tb_name t) ks) in R.
  rewrite add_kept in R. exists news. eexists. split; [exact A|]. cbv zeta.
  split; [split; [exists text, values; split; [exact Q|exact R]|rewrite put_same; reflexivity]|apply put_only].
Qed.
Print Assumptions C66_do_nothing.

(* With OnConflict(columns..., DoUpdate(...)), if no row has to be written twice: every row of the table in the
   way of a new row gets the values assigned, computed beside the new row; the other new rows are added; the rows
   written are returned in the order of the new rows. *)
Theorem C66_do_update {O : Oracle} : forall (g : basis) (k : rules g) (db : tabledb g) table t targets ks sets a x ret l i ms,
  sort_contract o_sort -> table_says table t -> Forall2 key_says targets ks ->
  pairs_say (m := Bound) sets a -> a <> [] -> simple_names a = true -> lk_do_update sets = Ok x ->
  rows_given table (targets ++ [x]) ret i ms ->
  args_say (m := Bound) ret l -> (ret <> [] -> l <> []) -> aggregated l = false ->
  exists news after, are_new k db (tb_name t) ms news
    /\ (forall new old, overwritten db a (next_to db t old (excluded db (tb_name t) new)) old (after new old))
    /\ let old := snd (db (tb_name t)) in
       let way := bars k (tb_name t) ks in
       (one_each way after old news -> exists db',
          inserts k db i (match ret with [] => [] | _ => shown_of db t l (flat_map (fun new =>
            match filter (way new) old with [] => [new] | found => map (after new) found end) news) end) db'
          /\ snd (db' (tb_name t))
             = (map (fun r => match find (fun new => way new r) news with Some new => after new r | None => r end) old
                ++ filter (fun new => negb (existsb (way new) old)) news)%list
          /\ only_rows_of (tb_name t) db db').
Proof.
  intros g k db table t targets ks sets a x ret l i ms C Ht Hk Hs Na Sa Hx Hg Hr Nl Al.
  destruct (insert_effect k db table t _ _ ret l i ms C Ht Hg (conflict_update targets ks sets a x Hk Hs Na Hx) Hr Nl Al)
    as (news & text & values & A & Q & R).
  cbn [conflict_body bclash] in R. rewrite (assign_all_settable a Sa) in R.
  set (after := fun new old : brow g => bwrite old (map (fun nt =>
     (column_of (fst nt), bterm g means db (next_to db t old (excluded db (tb_name t) new)) (snd nt))) (assign_all [] a))).
  exists news, after. split; [exact A|]. split.
  { intros new old c. unfold after, bwrite. rewrite (assigned_lookup db _ a Sa). destruct (last_value c a); reflexivity. }
  cbv zeta. intro One.
  match type of R with context [add_to ?h ?w ?n ?d] =>
    change (add_to h w n d) with (add_to (bars k (tb_name t) ks) (Rewrites after) n d) in R end.
  rewrite add_rewriting in R by exact One. eexists.
  split; [exists text, values; split; [exact Q|exact R]|]. split; [rewrite put_same; reflexivity|apply put_only].
Qed.
Print Assumptions C66_do_update.

(* A row is in the way of at most one new row, and no new row in the way of a later one. *)
Definition one_apiece {A} (way : A -> A -> bool) (rows news : list A) : Prop :=
  ForallOrdPairs (fun new later => way later new = false /\ forall old, In old rows -> way new old = true -> way later old = false) news.
(* The columns that a constraint looks at. *)
Definition looks_at {g : basis} (k : rules g) (t : name) (ks : list name) : Prop :=
  exists same : list (bdatum g) -> list (bdatum g) -> bool, (forall a b, same a b = same b a)
    /\ forall old new, bars k t ks new old = same (map old (map column_of ks)) (map new (map column_of ks)).
(* DoUpdate(Pair(c, Raw("excluded.c")), ...) *)
Definition from_excluded (cs : list string) : list (name * term) := map (fun c => ([c], MName ["excluded"; c])) cs.

Section Upsert.
  Context {g : basis}.

  Lemma from_excluded_value : forall cs c, last_value c (from_excluded cs)
    = if existsb (String.eqb c) cs then Some (MName ["excluded"; c]) else None.
  Proof.
    intros cs c. unfold last_value, from_excluded.
    assert (X : forall o, fold_left (fun o (na : name * term) => if String.eqb c (column_of (fst na)) then Some (snd na) else o)
              (map (fun c => ([c], MName ["excluded"; c])) cs) o
              = if existsb (String.eqb c) cs then Some (MName ["excluded"; c]) else o).
    { induction cs as [|d cs IH]; intro o; [reflexivity|]. cbn [map fold_left existsb fst snd]. rewrite IH.
      change (column_of [d]) with d. destruct (String.eqb_spec c d) as [<-|N]; cbn [orb]; [|reflexivity].
      destruct (existsb (String.eqb c) cs); reflexivity. }
    apply X.
  Qed.
  Lemma excluded_named : forall (db : tabledb g) t new old c, called_so ["excluded"] t = false ->
    next_to db t old (excluded db (tb_name t) new) ["excluded"; c] = new c.
  Proof. intros db t new old c N. unfold next_to, names_in, excluded. cbn [find fst snd removelast with_row]. unfold with_row. cbn [fst snd]. rewrite N. reflexivity. Qed.
  Lemma takes_over_written : forall (db : tabledb g) t cs new old r, called_so ["excluded"] t = false ->
    overwritten db (from_excluded cs) (next_to db t old (excluded db (tb_name t) new)) old r -> takes_over cs new old r.
  Proof.
    intros db t cs new old r N W c. rewrite (W c), from_excluded_value. destruct (existsb (String.eqb c) cs); [|reflexivity].
    cbn [bterm]. apply excluded_named, N.
  Qed.
  Lemma same_key : forall (k : rules g) t ks, looks_at k t ks -> forall new a b, (forall c, In c (map column_of ks) -> a c = b c) ->
    bars k t ks new a = bars k t ks new b.
  Proof. intros k t ks (same & S & E) new a b H. rewrite !E. f_equal. apply map_ext_in. exact H. Qed.
  Lemma bars_sym : forall (k : rules g) t ks, looks_at k t ks -> forall a b, bars k t ks a b = bars k t ks b a.
  Proof. intros k t ks (same & S & E) a b. rewrite !E. apply S. Qed.
  Lemma takes_over_key : forall cs new old r c, takes_over (g := g) cs new old r -> existsb (String.eqb c) cs = false -> r c = old c.
  Proof. intros cs new old r c T N. rewrite (T c), N. reflexivity. Qed.

  Lemma apiece_each : forall (k : rules g) t ks cs after rows news, looks_at k t ks ->
    (forall c, In c (map column_of ks) -> existsb (String.eqb c) cs = false) ->
    (forall new old, takes_over cs new old (after new old)) ->
    one_apiece (bars k t ks) rows news -> one_each (bars k t ks) after rows news.
  Proof.
    intros k t ks cs after rows news L D T P. unfold one_apiece, one_each in *.
    induction P as [|new news F P IH]; [constructor|]. constructor; [|exact IH].
    eapply Forall_impl; [|exact F]. intros later [H1 H2]. split; [exact H1|]. intros old I B. pose proof (H2 old I B) as B'.
    split; [exact B'|]. rewrite (same_key k t ks L later (after new old) old); [exact B'|].
    intros c Ic. apply (takes_over_key cs new old). { apply T. } { apply D, Ic. }
  Qed.
End Upsert.

(* OnConflict(keys..., DoUpdate(Pair(c, Raw("excluded.c")), ...)), where no new rows have a row in common in
   their way: every row in the way takes over the given columns from its new row, and the other new rows are added. *)
Theorem C66_upsert {O : Oracle} : forall (g : basis) (k : rules g) (db : tabledb g) table t targets ks sets cs x i ms,
  sort_contract o_sort -> table_says table t -> called_so ["excluded"] t = false -> Forall2 key_says targets ks ->
  pairs_say (m := Bound) sets (from_excluded cs) -> cs <> [] -> lk_do_update sets = Ok x ->
  rows_given table (targets ++ [x]) [] i ms ->
  looks_at k (tb_name t) ks -> (forall c, In c (map column_of ks) -> existsb (String.eqb c) cs = false) ->
  exists news after, are_new k db (tb_name t) ms news /\ (forall new old, takes_over cs new old (after new old))
    /\ let old := snd (db (tb_name t)) in
       let way := bars k (tb_name t) ks in
       (one_apiece way old news -> exists db', inserts k db i [] db'
          /\ snd (db' (tb_name t))
             = (map (fun r => match find (fun new => way new r) news with Some new => after new r | None => r end) old
                ++ filter (fun new => negb (existsb (way new) old)) news)%list
          /\ only_rows_of (tb_name t) db db').
Proof.
  intros g k db table t targets ks sets cs x i ms C Ht Nt Hk Hs Nc Hx Hg L D.
  assert (Na : from_excluded cs <> []) by (destruct cs; [congruence|discriminate]).
  assert (Sa : simple_names (from_excluded cs) = true).
  { unfold simple_names, from_excluded. clear. induction cs as [|c cs IH]; [reflexivity|]. cbn [map forallb fst]. rewrite IH. reflexivity. }
  destruct (C66_do_update g k db table t targets ks sets (from_excluded cs) x [] [] i ms C Ht Hk Hs Na Sa Hx Hg
              (args_items [] [] items_none) ltac:(congruence) eq_refl) as (news & after & A & W & E).
  exists news, after. split; [exact A|].
  assert (T : forall new old, takes_over cs new old (after new old)) by (intros new old; apply (takes_over_written db t), W; exact Nt).
  split; [exact T|]. cbv zeta. intro P.
  apply E. exact (apiece_each k (tb_name t) ks cs after _ news L D T P).
Qed.
Print Assumptions C66_upsert.

(* ------------------------------------------------------------------------- *)
(* The same statement again                                                    *)
(* ------------------------------------------------------------------------- *)

Section Twice.
  Context {g : basis}.
  Definition alike (r r' : brow g) : Prop := forall c, r' c = r c.

  Lemma bterm_no_sub : forall (db db' : tabledb g) v a, no_sub_term a = true -> bterm g means db v a = bterm g means db' v a.
  Proof. intros db db' v a H. destruct a; try reflexivity. discriminate. Qed.
  Lemma last_value_in : forall c l a, last_value c l = Some a -> exists n, In (n, a) l.
  Proof.
    intros c l a. unfold last_value. rewrite <- fold_left_rev_right. intro H.
    assert (X : exists n, In (n, a) (rev l)).
    { induction (rev l) as [|[n b] m IH]; [discriminate|]. cbn [fold_right fst snd] in H.
      destruct (String.eqb c (column_of n)); [injection H as <-; exists n; left; reflexivity|].
      destruct (IH H) as (n' & I). exists n'. right. exact I. }
    destruct X as (n & I). exists n. apply in_rev, I.
  Qed.
  Lemma news_alike : forall (k : rules g) (db db' : tabledb g) t ms news news',
    Forall (fun m => forallb (fun na => no_sub_term (snd na)) m = true) ms ->
    are_new k db t ms news -> are_new k db' t ms news' -> Forall2 alike news news'.
  Proof.
    intros k db db' t ms news news' S A. revert news'. induction A as [|m new ms news W A IH]; intros news' A'.
    - inversion A'; subst. constructor.
    - inversion A' as [|? new' ? rest W' A'']; subst. inversion S as [|? ? Sm S']; subst. constructor; [|exact (IH S' rest A'')].
      intro c. rewrite (W c), (W' c). destruct (last_value c m) as [a|] eqn:E; [|reflexivity].
      apply bterm_no_sub. destruct (last_value_in c m a E) as (n & I). rewrite forallb_forall in Sm. exact (Sm _ I).
  Qed.

  Context (k : rules g) (t : name) (ks : list name) (L : looks_at k t ks).
  Notation way := (bars k t ks).
  Lemma way_alike : forall n n' r r', alike n n' -> (forall c, In c (map column_of ks) -> r' c = r c) -> way n' r' = way n r.
  Proof.
    intros n n' r r' H H'. rewrite (same_key k t ks L n' r' r H'), (bars_sym k t ks L n' r), (bars_sym k t ks L n r).
    apply (same_key k t ks L). intros c _. apply H.
  Qed.
  Lemma find_alike : forall news news', Forall2 alike news news' -> forall r r', (forall c, In c (map column_of ks) -> r' c = r c) ->
    match find (fun new => way new r) news, find (fun new => way new r') news' with
    | Some n, Some n' => alike n n' | None, None => True | _, _ => False end.
  Proof.
    intros news news' F r r' H. induction F as [|n n' news news' A F IH]; [exact I|]. cbn [find].
    rewrite (way_alike n n' r r' A H). destruct (way n r); [exact A|exact IH].
  Qed.
  Lemma only_itself : forall rows news n m, one_apiece way rows news -> In n news -> In m news -> way n m = true -> n = m.
  Proof.
    intros rows news n m P In1 Im W. destruct (ForallOrdPairs_In P n m In1 Im) as [|[H|H]]; [assumption| |].
    - destruct H as [H _]. rewrite (bars_sym k t ks L) in H. congruence.
    - destruct H as [H _]. congruence.
  Qed.

  Context (cs : list string) (D : forall c, In c (map column_of ks) -> existsb (String.eqb c) cs = false).
  Context (after after' : brow g -> brow g -> brow g).
  Context (T : forall new old, takes_over cs new old (after new old)) (T' : forall new old, takes_over cs new old (after' new old)).
  Definition written_once (news : list (brow g)) (r : brow g) : brow g :=
    match find (fun new => way new r) news with Some new => after new r | None => r end.
  Definition rows_once (rows news : list (brow g)) : list (brow g) :=
    (map (written_once news) rows ++ filter (fun new => negb (existsb (way new) rows)) news)%list.
  Lemma key_once : forall news r c, In c (map column_of ks) -> written_once news r c = r c.
  Proof.
    intros news r c I. unfold written_once. destruct (find _ news); [|reflexivity]. apply (takes_over_key cs b r). { apply T. } { apply D, I. }
  Qed.

  Lemma apiece_again : forall rows news news', Forall2 alike news news' -> one_apiece way rows news -> one_apiece way (rows_once rows news) news'.
  Proof.
    intros rows news news' F P.
    assert (G : forall l l', Forall2 alike l l' -> incl l news ->
      ForallOrdPairs (fun new later => way later new = false /\ forall old, In old rows -> way new old = true -> way later old = false) l ->
      ForallOrdPairs (fun new later => way later new = false /\ forall old, In old (rows_once rows news) -> way new old = true -> way later old = false) l').
    { induction 1 as [|new new' l l' A F' IH]; intros S Q; [constructor|]. inversion Q as [|? ? Fn Q']; subst.
      constructor; [|apply IH; [intros y Y; apply S; right; exact Y|exact Q']].
      clear IH. assert (Inew : In new news) by (apply S; left; reflexivity).
      assert (S' : incl l news) by (intros y Y; apply S; right; exact Y). clear S Q Q'.
      induction F' as [|later later' l l' Al F' IHF]; [constructor|]. inversion Fn as [|? ? [H1 H2] Fn']; subst.
      constructor; [|apply IHF; [exact Fn'|intros y Y; apply S'; right; exact Y]].
      split; [rewrite (way_alike later later' new new' Al (fun c _ => A c)); exact H1|].
      intros r1 I1 W1. rewrite (way_alike new new' r1 r1 A (fun c _ => eq_refl)) in W1. rewrite (way_alike later later' r1 r1 Al (fun c _ => eq_refl)).
      unfold rows_once in I1. apply in_app_or in I1 as [I1|I1].
      - apply in_map_iff in I1 as (r & <- & Ir). rewrite (same_key k t ks L new _ r (key_once news r)) in W1. rewrite (same_key k t ks L later _ r (key_once news r)). exact (H2 r Ir W1).
      - apply filter_In in I1 as [I1 _]. rewrite <- (only_itself rows news new r1 P Inew I1 W1). exact H1. }
    exact (G news news' F (incl_refl _) P).
  Qed.

  Lemma again : forall rows news news', Forall2 alike news news' -> one_apiece way rows news -> Forall (fun n => way n n = true) news ->
    Forall2 alike (rows_once rows news)
      (map (fun r => match find (fun new => way new r) news' with Some new => after' new r | None => r end) (rows_once rows news)
       ++ filter (fun new => negb (existsb (way new) (rows_once rows news))) news')%list.
  Proof.
    intros rows news news' F P Self.
    assert (E : filter (fun new => negb (existsb (way new) (rows_once rows news))) news' = []).
    { assert (G : forall l l', Forall2 alike l l' -> incl l news -> filter (fun new => negb (existsb (way new) (rows_once rows news))) l' = []).
      { induction 1 as [|n n' l l' A F' IH]; intro S; [reflexivity|]. cbn [filter].
        assert (B : existsb (way n') (rows_once rows news) = true).
        { assert (In1 : In n news) by (apply S; left; reflexivity). apply existsb_exists.
          destruct (existsb (way n) rows) eqn:B.
          - apply existsb_exists in B as (r & Ir & B). exists (written_once news r). split.
            + apply in_or_app. left. apply in_map, Ir.
            + rewrite (way_alike n n' _ _ A (key_once news r)). exact B.
          - exists n. split.
            + apply in_or_app. right. apply filter_In. split; [exact In1|]. rewrite B. reflexivity.
            + rewrite (way_alike n n' n n A (fun c _ => eq_refl)). rewrite Forall_forall in Self. exact (Self n In1). }
        rewrite B. cbn [negb]. apply IH. intros y Y. apply S. right. exact Y. }
      exact (G news news' F (incl_refl _)). }
    rewrite E, app_nil_r.
    assert (G : forall r1, In r1 (rows_once rows news) ->
      alike r1 (match find (fun new => way new r1) news' with Some new => after' new r1 | None => r1 end)).
    { intros r1 I1 c. unfold rows_once in I1. apply in_app_or in I1 as [I1|I1].
      - apply in_map_iff in I1 as (r & <- & Ir).
        pose proof (find_alike news news' F r (written_once news r) (key_once news r)) as X.
        destruct (find (fun new => way new (written_once news r)) news') as [n'|]; [|reflexivity].
        unfold written_once in X |- *. destruct (find (fun new => way new r) news) as [n|]; [|contradiction].
        rewrite (T' n' (after n r) c), (T n r c). destruct (existsb (String.eqb c) cs); [apply X|reflexivity].
      - apply filter_In in I1 as [I1 _].
        pose proof (find_alike news news' F r1 r1 (fun c _ => eq_refl)) as X.
        destruct (find (fun new => way new r1) news') as [n'|]; [|reflexivity].
        destruct (find (fun new => way new r1) news) as [n|] eqn:Fn; [|contradiction].
        apply find_some in Fn as [In1 W]. rewrite (only_itself rows news n r1 P In1 I1 W) in X.
        rewrite (T' n' r1 c). destruct (existsb (String.eqb c) cs); [apply X|reflexivity]. }
    revert G. generalize (rows_once rows news). intros l G. induction l as [|r l IH]; [constructor|]. cbn [map].
    constructor; [apply G; left; reflexivity|]. apply IH. intros r1 I1. apply G. right. exact I1.
  Qed.
End Twice.

(* Sent again, the statement of C66_upsert changes nothing, if its values are no subqueries and a new row is in
   its own way (its key is not NULL). *)
Theorem C66_upsert_twice {O : Oracle} : forall (g : basis) (k : rules g) (db db' : tabledb g) table t targets ks sets cs x i ms,
  sort_contract o_sort -> table_says table t -> called_so ["excluded"] t = false -> Forall2 key_says targets ks ->
  pairs_say (m := Bound) sets (from_excluded cs) -> cs <> [] -> lk_do_update sets = Ok x ->
  rows_given table (targets ++ [x]) [] i ms ->
  looks_at k (tb_name t) ks -> (forall c, In c (map column_of ks) -> existsb (String.eqb c) cs = false) ->
  Forall (fun m => forallb (fun na => no_sub_term (snd na)) m = true) ms ->
  (forall news, are_new k db (tb_name t) ms news ->
     one_apiece (bars k (tb_name t) ks) (snd (db (tb_name t))) news /\ Forall (fun n => bars k (tb_name t) ks n n = true) news) ->
  inserts k db i [] db' ->
  exists db'', inserts k db' i [] db'' /\ only_rows_of (tb_name t) db' db''
    /\ Forall2 (fun r r' => forall c, r' c = r c) (snd (db' (tb_name t))) (snd (db'' (tb_name t))).
Proof.
  intros g k db db' table t targets ks sets cs x i ms C Ht Nt Hk Hs Nc Hx Hg L D NS H U.
  destruct (C66_upsert g k db table t targets ks sets cs x i ms C Ht Nt Hk Hs Nc Hx Hg L D) as (news & after & A & T & E).
  destruct (H news A) as [P Self]. destruct (E P) as (db1 & U1 & R1 & _).
  assert (db1 = db').
  { destruct U as (tx & vs & Q & R), U1 as (tx' & vs' & Q' & R'). rewrite Q in Q'. injection Q' as <- <-. congruence. }
  subst db1.
  destruct (C66_upsert g k db' table t targets ks sets cs x i ms C Ht Nt Hk Hs Nc Hx Hg L D) as (news' & after' & A' & T' & E').
  pose proof (news_alike k db db' (tb_name t) ms news news' NS A A') as F.
  change (snd (db' (tb_name t)) = rows_once k (tb_name t) ks after (snd (db (tb_name t))) news) in R1.
  destruct E' as (db'' & U2 & R2 & Y).
  { rewrite R1. exact (apiece_again k (tb_name t) ks L cs D after T _ news news' F P). }
  exists db''. split; [exact U2|]. split; [exact Y|]. rewrite R2, R1.
  exact (again k (tb_name t) ks L cs D after after' T T' _ news news' F P Self).
Qed.
Print Assumptions C66_upsert_twice.

(* ------------------------------------------------------------------------- *)
(* Examples                                                                    *)
(* ------------------------------------------------------------------------- *)

Section Examples.
  #[local] Existing Instance go_oracle.
  #[local] Existing Instance Bound.

  (* Insert("users").Columns("id", "name").Values([][]interface{}{{9, "b"}, {5, "x"}}).OnConflict("name", DoUpdate(Pair("id", Raw("excluded.id")))),
     where names are unique and board has the users 1, 2, 3 called a, b, c. *)
  Definition two_rows : list (list gval) := [[GInt KInt 9; GStr "b"]; [GInt KInt 5; GStr "x"]].
  Definition two_terms : list (list term) := [[MVal (GInt KInt 9); MVal (GStr "b")]; [MVal (GInt KInt 5); MVal (GStr "x")]].
  Definition take_id : gval := match lk_do_update [GPair (GStr "id") (GExpr (lk_raw "excluded.id"))] with Ok x => x | _ => GNil end.
  Definition put_two (rows : list (list gval)) (con ret : list gval) : res insert :=
    insert_rows_program (GStr "users") [GStr "id"; GStr "name"] (GAnyss rows) con ret.
  Definition run_two (rows : list (list gval)) (con ret : list gval) (db : tabledb bx) : option (list (list cell) * tabledb bx) :=
    match put_two rows con ret with Ok i => PropsEffect.sent (StInsert i) (send_insert unique_names db) | _ => None end.
  Notation users_after := (after ["users"] ["id"; "name"]).

  Example C66_insert_rows_ex :
    users_after (run_two two_rows [] [GStr "id"] (board [])) = None
    /\ users_after (run_two (tl two_rows) [] [GStr "id"] (board []))
       = Some ([[CInt 5]], [[CInt 1; CStr "a"]; [CInt 2; CStr "b"]; [CInt 3; CStr "c"]; [CInt 5; CStr "x"]]).
  Proof. split; vm_compute; reflexivity. Qed.
  Example C66_do_nothing_ex :
    users_after (run_two (two_rows ++ [[GInt KInt 6; GStr "x"]]) [GStr "name"; lk_do_nothing] [GStr "id"] (board []))
    = Some ([[CInt 5]], [[CInt 1; CStr "a"]; [CInt 2; CStr "b"]; [CInt 3; CStr "c"]; [CInt 5; CStr "x"]]).
  Proof. vm_compute. reflexivity. Qed.
  Example C66_do_update_ex :
    users_after (run_two two_rows [GStr "name"; take_id] [GStr "id"] (board []))
    = Some ([[CInt 9]; [CInt 5]], [[CInt 1; CStr "a"]; [CInt 9; CStr "b"]; [CInt 3; CStr "c"]; [CInt 5; CStr "x"]])
    /\ users_after (run_two (two_rows ++ [[GInt KInt 6; GStr "x"]]) [GStr "name"; take_id] [] (board [])) = None.
  Proof. split; vm_compute; reflexivity. Qed.
  Example C66_upsert_twice_ex :
    match run_two two_rows [GStr "name"; take_id] [] (board []) with
    | Some (_, db') => users_after (run_two two_rows [GStr "name"; take_id] [] db') = users_after (Some ([], db'))
    | None => False
    end.
  Proof. vm_compute. reflexivity. Qed.

  Lemma two_given : forall con ret i, put_two two_rows con ret = Ok i ->
    rows_given (GStr "users") con ret i (map (combine [["id"]; ["name"]]) two_terms).
  Proof.
    intros con ret i H. apply (by_values _ _ _ _ [GStr "id"; GStr "name"] _ (GAnyss two_rows) two_rows); try discriminate; try reflexivity.
    - apply columns_each. apply (columns_string "id" ["id"] [GStr "name"] [["name"]]); [apply ConvP.items_split; reflexivity|repeat constructor|].
      exact using_says.
    - constructor.
    - constructor; [|constructor; [|constructor]]; (split; [discriminate|]; split; [reflexivity|repeat constructor]).
    - constructor; [reflexivity|constructor; [reflexivity|constructor]].
    - exact H.
  Qed.
  Lemma take_id_says : pairs_say [GPair (GStr "id") (GExpr (lk_raw "excluded.id"))] (from_excluded ["id"]).
  Proof.
    apply pairs_pair; [|apply pairs_none]. split; cbn [fst snd]; [apply (key_string "id"); reflexivity|].
    apply source_value. exact (value_column "excluded.id" eq_refl).
  Qed.
  Lemma name_key : Forall2 key_says [GStr "name"] [["name"]].
  Proof. constructor; [apply (key_string "name"); reflexivity|constructor]. Qed.
  Lemma name_looked_at : looks_at unique_names ["users"] [["name"]].
  Proof.
    exists (fun a b => cell_eqb (hd CNull a) (hd CNull b)). split; [|reflexivity].
    intros a b. destruct (hd CNull a), (hd CNull b); try reflexivity; cbn [cell_eqb]; auto using Z.eqb_sym, String.eqb_sym.
    all: try (destruct b0, b1; reflexivity).
  Qed.
  Lemma two_apiece : forall news, are_new unique_names (board []) ["users"] (map (combine [["id"]; ["name"]]) two_terms) news ->
    one_apiece (bars unique_names ["users"] [["name"]]) (snd (board [] ["users"])) news
    /\ Forall (fun n => bars unique_names ["users"] [["name"]] n n = true) news.
  Proof.
    intros news A. inversion A as [|m1 n1 r1 l1 W1 A1 E1 E2]; subst. inversion A1 as [|m2 n2 r2 l2 W2 A2 E1 E2]; subst. inversion A2; subst.
    pose proof (W1 "name") as N1. pose proof (W2 "name") as N2. vm_compute in N1, N2.
    assert (B : forall n old s, n "name" = CStr s -> bars unique_names ["users"] [["name"]] n old = cell_eqb (old "name") (CStr s)).
    { intros n old s E. unfold bars. cbn [rclash unique_names]. unfold same_name. rewrite E. reflexivity. }
    split.
    - constructor; [|constructor; [constructor|constructor]]. constructor; [|constructor].
      split; [rewrite (B n2 n1 "x" N2), N1; reflexivity|].
      intros old I. rewrite (B n1 old "b" N1), (B n2 old "x" N2). cbn [board snd] in I.
      repeat (destruct I as [<-|I]; [vm_compute; congruence|]). destruct I.
    - constructor; [|constructor; [|constructor]]; [rewrite (B n1 n1 "b" N1), N1|rewrite (B n2 n2 "x" N2), N2]; reflexivity.
  Qed.

  Example C66_upsert_twice_met : forall i db', put_two two_rows [GStr "name"; take_id] [] = Ok i ->
    inserts unique_names (board []) i [] db' ->
    exists db'', inserts unique_names db' i [] db'' /\ Forall2 (fun r r' : brow bx => forall c, r' c = r c) (snd (db' ["users"])) (snd (db'' ["users"])).
  Proof.
    intros i db' H U.
    destruct (C66_upsert_twice bx unique_names (board []) db' (GStr "users") users [GStr "name"] [["name"]]
      [GPair (GStr "id") (GExpr (lk_raw "excluded.id"))] ["id"] take_id i (map (combine [["id"]; ["name"]]) two_terms)) as (db'' & U' & _ & X);
      try reflexivity; try discriminate.
    - exact AssignP.insertion_contract.
    - exact users_says.
    - exact name_key.
    - exact take_id_says.
    - exact (two_given _ _ _ H).
    - exact name_looked_at.
    - intros c [<-|[]]. reflexivity.
    - repeat constructor.
    - exact two_apiece.
    - exact U.
    - exists db''. auto.
  Qed.
End Examples.
