(* Proofs about Effect.v: programs describe the statements that Effect.v carries out. *)
From Coq Require Import Sorting.Sorted.
From Verif Require Import AssignP.
From Verif Require Import GrammarDmlP GrammarReadP PropsGrammar PropsGrammarDml.
From Verif Require Export EffectApi.

(* ------------------------------------------------------------------------- *)
(* Assignments                                                                 *)
(* ------------------------------------------------------------------------- *)

Lemma simple_dotted : forall n, simple n = true -> dotted_name n = column_of n.
Proof. intros [|x [|y n]] H; try discriminate. reflexivity. Qed.

Section Assignments.
  Context {A : Type} (F : term -> A).
  Definition evaluated (l : list (name * term)) : list (string * A) :=
    map (fun nt => (column_of (fst nt), F (snd nt))) l.

  Lemma assign_lookup : forall c n a m, simple n = true -> simple_names m = true ->
    lookup_col c (evaluated (assign n a m)) = if String.eqb c (column_of n) then Some (F a) else lookup_col c (evaluated m).
  Proof.
    intros c n a m Sn. induction m as [|[n' a'] m IH]; intro Sm.
    - reflexivity.
    - cbn [simple_names forallb fst] in Sm. apply andb_true_iff in Sm as [Sn' Sm].
      cbn [assign]. rewrite (simple_dotted _ Sn), (simple_dotted _ Sn').
      destruct (String.eqb_spec (column_of n) (column_of n')) as [E|E].
      + cbn [evaluated map fst snd lookup_col]. rewrite <- E. destruct (String.eqb c (column_of n)); reflexivity.
      + destruct (str_ltb (column_of n) (column_of n')); [reflexivity|].
        cbn [evaluated map fst snd lookup_col]. change (map _ (assign n a m)) with (evaluated (assign n a m)). rewrite (IH Sm).
        destruct (String.eqb_spec c (column_of n')) as [->|]; [|reflexivity].
        destruct (String.eqb_spec (column_of n') (column_of n)); [congruence|reflexivity].
  Qed.

  Lemma assign_simple : forall n a m, simple n = true -> simple_names m = true -> simple_names (assign n a m) = true.
  Proof.
    intros n a m Sn. induction m as [|[n' a'] m IH]; intro Sm; cbn [assign].
    - cbn. rewrite Sn. reflexivity.
    - cbn [simple_names forallb fst] in Sm. apply andb_true_iff in Sm as [Sn' Sm].
      destruct (String.eqb _ _); [cbn; rewrite Sn; exact Sm|].
      destruct (str_ltb _ _); cbn; rewrite ?Sn, ?Sn'; cbn [andb]; [exact Sm|apply IH, Sm].
  Qed.

  Lemma assign_all_lookup : forall c l m, simple_names l = true -> simple_names m = true ->
    lookup_col c (evaluated (assign_all m l))
    = match fold_left (fun o na => if String.eqb c (column_of (fst na)) then Some (snd na) else o) l None with
      | Some a => Some (F a) | None => lookup_col c (evaluated m) end.
  Proof.
    intros c l. induction l as [|[n a] l IH] using rev_ind; intros m Sl Sm; [reflexivity|].
    unfold simple_names in Sl. rewrite forallb_app in Sl. apply andb_true_iff in Sl as [Sl Sn]. cbn [forallb fst] in Sn.
    apply andb_true_iff in Sn as [Sn _].
    unfold assign_all. rewrite !fold_left_app. cbn [fold_left fst snd].
    change (fold_left _ l m) with (assign_all m l).
    assert (Sa : simple_names (assign_all m l) = true).
    { clear IH. revert m Sm. induction l as [|[x b] l IHl]; intros m Sm; [exact Sm|].
      cbn [simple_names forallb fst] in Sl. apply andb_true_iff in Sl as [Sx Sl].
      unfold assign_all. cbn [fold_left fst snd]. apply (IHl Sl), assign_simple; assumption. }
    rewrite (assign_lookup c n a _ Sn Sa). destruct (String.eqb c (column_of n)); [reflexivity|apply IH; assumption].
  Qed.
End Assignments.

Lemma assign_all_simple : forall l m, simple_names l = true -> simple_names m = true -> simple_names (assign_all m l) = true.
Proof.
  induction l as [|[x b] l IHl]; intros m Sl Sm; [exact Sm|].
  cbn [simple_names forallb fst] in Sl. apply andb_true_iff in Sl as [Sx Sl].
  unfold assign_all. cbn [fold_left fst snd]. apply (IHl _ Sl), assign_simple; assumption.
Qed.

Definition key_sorted (m : list (name * term)) : Prop :=
  StronglySorted (fun a b => str_ltb (dotted_name (fst a)) (dotted_name (fst b)) = true) m.

Lemma assign_keys : forall n a m x, In x (assign n a m) -> x = (n, a) \/ In x m.
Proof.
  intros n a m x. induction m as [|[n' a'] m IH]; cbn [assign].
  - intros [H|[]]. left. symmetry. exact H.
  - destruct (String.eqb _ _); [intros [H|H]; [left; symmetry; exact H|right; right; exact H]|].
    destruct (str_ltb _ _); [intros [H|H]; [left; symmetry; exact H|right; exact H]|].
    intros [H|H]; [right; left; exact H|]. destruct (IH H) as [->|H']; [left; reflexivity|right; right; exact H'].
Qed.

Lemma assign_sorted : forall n a m, key_sorted m -> key_sorted (assign n a m).
Proof.
  intros n a m. induction m as [|[n' a'] m IH]; intro H; cbn [assign]; [repeat constructor|].
  apply StronglySorted_inv in H as [H1 H2].
  destruct (String.eqb_spec (dotted_name n) (dotted_name n')) as [E|E].
  - constructor; [exact H1|]. cbn [fst]. rewrite E. exact H2.
  - destruct (str_ltb (dotted_name n) (dotted_name n')) eqn:L.
    + constructor; [constructor; assumption|]. constructor; [exact L|].
      eapply Forall_impl; [|exact H2]. intros [x b] G. cbn [fst] in *. eapply str_ltb_trans; eassumption.
    + constructor; [apply IH, H1|]. apply Forall_forall. intros x I.
      apply assign_keys in I as [->|I]; [|rewrite Forall_forall in H2; apply H2, I]. cbn [fst].
      destruct (str_ltb (dotted_name n') (dotted_name n)) eqn:L'; [reflexivity|]. exfalso. apply E.
      apply str_ltb_total; assumption.
Qed.

Lemma assign_all_sorted : forall l m, key_sorted m -> key_sorted (assign_all m l).
Proof. induction l as [|na l IH]; intros m H; [exact H|]. unfold assign_all. cbn [fold_left]. apply IH, assign_sorted, H. Qed.

Lemma sorted_no_repeat : forall m, key_sorted m -> simple_names m = true -> no_repeat (map column_of (map fst m)) = true.
Proof.
  induction m as [|[n a] m IH]; intros H Sm; [reflexivity|].
  apply StronglySorted_inv in H as [H1 H2]. cbn [simple_names forallb fst] in Sm. apply andb_true_iff in Sm as [Sn Sm].
  cbn [map fst no_repeat]. rewrite (IH H1 Sm), andb_true_r. apply negb_true_iff.
  destruct (existsb _ _) eqn:X; [exfalso|reflexivity].
  apply existsb_exists in X as (y & I & E). apply String.eqb_eq in E. subst y.
  rewrite map_map in I. apply in_map_iff in I as ([n' a'] & E & I). cbn [fst] in E.
  rewrite Forall_forall in H2. specialize (H2 _ I). cbn [fst] in H2.
  unfold simple_names in Sm. rewrite forallb_forall in Sm. specialize (Sm _ I). cbn [fst] in Sm.
  rewrite (simple_dotted _ Sn), (simple_dotted _ Sm), E in H2. rewrite str_ltb_irrefl in H2. discriminate.
Qed.

Lemma assign_all_settable : forall l, simple_names l = true -> settable (map fst (assign_all [] l)) = true.
Proof.
  intros l H. unfold settable. pose proof (assign_all_simple l [] H eq_refl) as S. apply andb_true_iff. split.
  - rewrite forallb_forall. intros n I. apply in_map_iff in I as (x & <- & I).
    unfold simple_names in S. rewrite forallb_forall in S. exact (S x I).
  - apply sorted_no_repeat; [|exact S]. apply assign_all_sorted. constructor.
Qed.

(* ------------------------------------------------------------------------- *)
(* Conditions                                                                  *)
(* ------------------------------------------------------------------------- *)

Definition joined_by (c : linked) (f g : formula) : formula :=
  match c with ByOr => FOr f g | _ => FAnd f g end.
Definition whole_formula (fs : formulas) : option formula :=
  match fs with
  | None => None
  | Some (f, l) => Some (fold_left (fun a x => joined_by (fst x) a (snd x)) l f)
  end.

Lemma chosen_meets {g} (db : database g) : forall fs r, chosen db (whole_formula fs) r = meets db fs r.
Proof.
  intros [[f l]|] r; [|reflexivity]. cbn [whole_formula chosen meets]. f_equal.
  assert (G : forall l f a, truth_of db r f = a ->
    truth_of db r (fold_left (fun a x => joined_by (fst x) a (snd x)) l f)
    = fold_left (fun a x => match fst x with
                 | ByOr => or3 a (truth_of db r (snd x))
                 | _ => and3 a (truth_of db r (snd x)) end) l a).
  { clear. induction l as [|[c h] l IH]; intros f a E; cbn [fold_left fst snd]; [exact E|].
    apply IH. destruct c; cbn [joined_by truth_of]; rewrite E; reflexivity. }
  apply G. reflexivity.
Qed.

Lemma run_cons {A B} (f : A -> B -> res A) : forall c l a a', fold_res f (c :: l) a = Ok a' ->
  exists x, f a c = Ok x /\ fold_res f l x = Ok a'.
Proof. intros c l a a' H. cbn [fold_res] in H. destruct (f a c) as [x|]; [|discriminate]. exists x. split; [reflexivity|exact H]. Qed.
Lemma run_app {A B} (f : A -> B -> res A) : forall l l' a a', fold_res f (l ++ l') a = Ok a' ->
  exists x, fold_res f l a = Ok x /\ fold_res f l' x = Ok a'.
Proof.
  induction l as [|c l IH]; intros l' a a' H; [exists a; split; [reflexivity|exact H]|].
  rewrite <- app_comm_cons in H. apply run_cons in H as (x & E & H). destruct (IH _ _ _ H) as (y & E' & H').
  exists y. split; [cbn [fold_res]; rewrite E; exact E'|exact H'].
Qed.

Section Programs.
  Context {O : Oracle}.
  #[local] Existing Instance Bound.

  (* ----------------------------------------------------------------------- *)
  (* SELECT                                                                    *)
  (* ----------------------------------------------------------------------- *)

  Lemma sel_links : forall l l', Forall2 (fun x y => fst x = fst y /\ says (snd x) (snd y)) l l' ->
    forall s b f s', sel_says s (set_where (Some f) b) ->
    sel_run s (map (fun x => match fst x with
                     ByWhere => SelWhere (snd x) | ByAnd => SelAnd (snd x) | ByOr => SelOr (snd x) end) l) = Ok s' ->
    sel_says s' (set_where (Some (fold_left (fun a x => joined_by (fst x) a (snd x)) l' f)) b).
  Proof.
    intros l l' F. induction F as [|[c e] [c' h] l l' [Ec He] F IH]; intros s b f s' S R.
    - cbn in R. injection R as <-. exact S.
    - cbn [fst snd] in *. subst c'. cbn [map fst snd] in R. apply run_cons in R as (x & E & R).
      cbn [fold_left fst snd]. apply (IH x); [|exact R].
      destruct c; cbn [joined_by].
      + exact (sel_where s (set_where (Some f) b) e h x S He E).
      + exact (sel_and s (set_where (Some f) b) e h f x S He eq_refl E).
      + exact (sel_or s (set_where (Some f) b) e h f x S He eq_refl E).
  Qed.

  Lemma set_where_same : forall b, set_where (q_where b) b = b.
  Proof. intros []. reflexivity. Qed.

  Lemma sel_conds : forall c fs s b s', conditions_say c fs -> q_where b = None -> sel_says s b ->
    sel_run s (sel_conditions c) = Ok s' -> sel_says s' (set_where (whole_formula fs) b).
  Proof.
    intros [[e l]|] [[f l']|] s b s' C N S R; cbn [conditions_say] in C; try contradiction.
    - destruct C as [He F]. cbn [sel_conditions] in R. apply run_cons in R as (x & E & R).
      cbn [whole_formula]. apply (sel_links l l' F x); [|exact R].
      pose proof (sel_where s b e f x S He E) as W. rewrite N in W. exact W.
    - cbn in R. injection R as <-. cbn [whole_formula]. rewrite <- N, set_where_same. exact S.
  Qed.

  Definition order_list (os : list order) (l : list (string * string)) : Prop := Forall2 order_says os l.

  Definition window_limit (p : window) : option N :=
    match p with Everything => None | First n | Page n _ => Some (Z.to_N n) end.
  Definition window_offset (p : window) : option N :=
    match p with Page _ k => nonzero k | _ => None end.

  Definition program_body (l : list item) (t : tableref) (fs : formulas) (o : list (string * string)) (p : window) : body :=
    {| q_prefix := []; q_with := []; q_distinct_on := []; q_distinct := false; q_items := l;
       q_from := [t]; q_joins := []; q_where := whole_formula fs; q_group_by := []; q_having := None;
       q_order_by := o; q_limit := window_limit p; q_offset := window_offset p; q_suffix := [] |}.

  Lemma nonzero_pos : forall n, (0 < n)%Z -> nonzero n = Some (Z.to_N n).
  Proof. intros n H. unfold nonzero. destruct (Z.eqb_spec n 0); [subst; discriminate|reflexivity]. Qed.

  Lemma select_described : forall args l table t c fs os o p s,
    args <> [] -> args_say args l -> table_says table t -> conditions_say c fs -> Forall2 order_says os o -> window_ok p ->
    select_program args table c os p = Ok s -> sel_says s (program_body l t fs o p).
  Proof.
    intros args l table t c fs os o p s Na Ha Ht Hc Ho Hp H. unfold select_program in H.
    destruct (lk_select args) as [s0|] eqn:E0; [|discriminate]. cbn [bind] in H.
    pose proof (sel_columns new_select empty_body args l s0 sel_new Na Ha E0) as S0.
    apply run_cons in H as (s1 & E1 & H).
    pose proof (sel_from s0 _ [table] [t] s1 S0 (Forall2_cons _ _ Ht (Forall2_nil _)) E1) as S1.
    apply run_app in H as (s2 & E2 & H).
    pose proof (sel_conds c fs s1 (set_from [t] (set_items l empty_body)) s2 Hc eq_refl S1 E2) as S2.
    apply run_app in H as (s3 & E3 & H).
    assert (S3 : sel_says s3 (program_body l t fs o Everything)).
    { destruct os as [|o0 os]; cbn [unless_none] in E3.
      - inversion Ho; subst. cbn in E3. injection E3 as <-. exact S2.
      - apply run_cons in E3 as (y & Ey & E3). cbn in E3. injection E3 as <-.
        exact (sel_order_by s2 _ (o0 :: os) o y S2 Ho Ey). }
    destruct p as [|n|n k]; cbn [window_calls window_ok] in H, Hp.
    - cbn in H. injection H as <-. exact S3.
    - destruct Hp as [Hn On]. apply run_cons in H as (y & Ey & H). cbn in H. injection H as <-.
      pose proof (sel_limit s3 _ (GInt KInt64 n) n y S3 On ltac:(discriminate) eq_refl Ey) as S4.
      rewrite (nonzero_pos n Hn) in S4. exact S4.
    - destruct Hp as (Hn & On & Hk & Ok_). apply run_cons in H as (y & Ey & H). apply run_cons in H as (z & Ez & H).
      cbn in H. injection H as <-.
      pose proof (sel_limit s3 _ (GInt KInt64 n) n y S3 On ltac:(discriminate) eq_refl Ey) as S4.
      rewrite (nonzero_pos n Hn) in S4.
      exact (sel_offset y _ (GInt KInt64 k) k z S4 Ok_ ltac:(discriminate) eq_refl Ez).
  Qed.

  Lemma within_window {g} : forall p (rows : list (row g)), window_ok p ->
    take_rows (window_limit p) (skip_rows (window_offset p) rows) = in_window p rows.
  Proof.
    intros [|n|n k] rows H; cbn [window_limit window_offset in_window take_rows skip_rows]; try reflexivity.
    - rewrite Z_N_nat. reflexivity.
    - rewrite Z_N_nat. destruct H as (_ & _ & Hk & _). unfold nonzero. destruct (Z.eqb_spec k 0); [subst; reflexivity|].
      cbn [skip_rows]. rewrite Z_N_nat. reflexivity.
  Qed.

  Lemma items_some : forall s b, sel_says s b -> forall l, q_items b = l -> l <> [] ->
    exists text values, query (StSelect s) = Ok (text, values)
    /\ forall g (db : database g), run_select db text values = exec_select db b.
  Proof.
    intros s b S l El Nl. destruct (C49_select_read_back s b S) as (text & values & Q & R); [congruence|].
    exists text, values. split; [exact Q|]. intros g db. unfold run_select. rewrite R. reflexivity.
  Qed.

  Lemma select_rows : forall args l table t c fs os o p s,
    args <> [] -> args_say args l -> l <> [] -> plain_items l = true -> table_says table t ->
    conditions_say c fs -> Forall2 order_says os o -> window_ok p ->
    select_program args table c os p = Ok s ->
    exists text values, query (StSelect s) = Ok (text, values)
    /\ forall g (db : database g), run_select db text values
       = all_some (map (items_value db l) (in_window p (in_sql_order o (filter (meets db fs) (db (tb_name t)))))).
  Proof.
    intros args l table t c fs os o p s Na Ha Nl Pl Ht Hc Ho Hp H.
    pose proof (select_described args l table t c fs os o p s Na Ha Ht Hc Ho Hp H) as S.
    destruct (items_some s _ S l eq_refl Nl) as (text & values & Q & R).
    exists text, values. split; [exact Q|]. intros g db. rewrite R. unfold exec_select, program_body.
    unfold plain_items in Pl. apply negb_true_iff in Pl. rewrite Pl.
    rewrite (filter_ext _ _ (chosen_meets db fs)). rewrite (within_window p _ Hp).
    unfold shown_rows. destruct l as [|[n a|f [] x a|n q] [|i l]]; try reflexivity; discriminate.
  Qed.

  Lemma select_count : forall table t c fs s a e,
    table_says table t -> conditions_say c fs -> aggregate_says e "COUNT" false "*" a ->
    select_program [GSel e] table c [] Everything = Ok s ->
    exists text values, query (StSelect s) = Ok (text, values)
    /\ forall g (db : database g), run_select db text values
       = Some [[number g (List.length (filter (meets db fs) (db (tb_name t))))]].
  Proof.
    intros table t c fs s a e Ht Hc Ha H.
    pose proof (select_described [GSel e] [ItAgg "COUNT" false "*" a] table t c fs [] [] Everything s ltac:(discriminate)
      (args_items _ _ (items_agg _ _ _ _ _ _ _ Ha items_none)) Ht Hc (Forall2_nil _) I H) as S.
    destruct (items_some s _ S _ eq_refl) as (text & values & Q & R); [discriminate|].
    exists text, values. split; [exact Q|]. intros g db. rewrite R. cbn [exec_select program_body counts existsb orb].
    cbn [whole_formula window_limit window_offset shown_rows].
    rewrite (filter_ext _ _ (chosen_meets db fs)). reflexivity.
  Qed.

  (* ----------------------------------------------------------------------- *)
  (* DELETE                                                                    *)
  (* ----------------------------------------------------------------------- *)

  Definition del_body (t : tableref) (w : option formula) (ret : list item) : dbody :=
    {| de_from := [t]; de_using := []; de_where := w; de_returning := ret |}.

  Lemma del_links : forall l l', Forall2 (fun x y => fst x = fst y /\ says (snd x) (snd y)) l l' ->
    forall d t f d', del_says d (del_body t (Some f) []) ->
    del_run d (map (fun x => match fst x with
                     ByWhere => DelWhere (snd x) | ByAnd => DelAnd (snd x) | ByOr => DelOr (snd x) end) l) = Ok d' ->
    del_says d' (del_body t (Some (fold_left (fun a x => joined_by (fst x) a (snd x)) l' f)) []).
  Proof.
    intros l l' F. induction F as [|[c e] [c' h] l l' [Ec He] F IH]; intros d t f d' S R.
    - cbn in R. injection R as <-. exact S.
    - cbn [fst snd] in *. subst c'. cbn [map fst snd] in R. apply run_cons in R as (x & E & R).
      cbn [fold_left fst snd]. apply (IH x); [|exact R].
      destruct c; cbn [joined_by].
      + exact (del_where d _ e h x S He E).
      + exact (del_and d _ e h f x S He eq_refl E).
      + exact (del_or d _ e h f x S He eq_refl E).
  Qed.

  Lemma delete_described : forall table t c fs ret l d,
    table_says table t -> conditions_say c fs -> args_say ret l ->
    delete_program table c ret = Ok d -> del_says d (del_body t (whole_formula fs) (match ret with [] => [] | _ => l end)).
  Proof.
    intros table t c fs ret l d Ht Hc Hr H. unfold delete_program in H.
    destruct (lk_delete table) as [d0|] eqn:E0; [|discriminate]. cbn [bind] in H.
    pose proof (del_new table t d0 Ht E0) as S0.
    apply run_app in H as (d1 & E1 & H).
    assert (S1 : del_says d1 (del_body t (whole_formula fs) [])).
    { destruct c as [[e cs]|], fs as [[f fs]|]; cbn [conditions_say] in Hc; try contradiction.
      - destruct Hc as [He F]. cbn [del_conditions] in E1. apply run_cons in E1 as (x & E & R).
        cbn [whole_formula]. apply (del_links cs fs F x); [|exact R]. exact (del_where d0 _ e f x S0 He E).
      - cbn in E1. injection E1 as <-. exact S0. }
    destruct ret as [|r ret]; cbn [unless_none] in H.
    - cbn in H. injection H as <-. exact S1.
    - apply run_cons in H as (x & E & H). cbn in H. injection H as <-.
      exact (del_returning d1 _ (r :: ret) l x S1 Hr E).
  Qed.

  Lemma delete_runs : forall table t c fs ret l d,
    table_says table t -> conditions_say c fs -> args_say ret l ->
    delete_program table c ret = Ok d ->
    exists text values, query (StDelete d) = Ok (text, values)
    /\ forall g (db : database g), run_delete db text values
       = match returns db (match ret with [] => [] | _ => l end) (filter (meets db fs) (db (tb_name t))) with
         | Some out => Some (out, replace db (tb_name t) (filter (fun r => negb (meets db fs r)) (db (tb_name t))))
         | None => None
         end.
  Proof.
    intros table t c fs ret l d Ht Hc Hr H.
    pose proof (delete_described table t c fs ret l d Ht Hc Hr H) as S.
    destruct (C50_delete_read_back d _ S) as (text & values & Q & R).
    exists text, values. split; [exact Q|]. intros g db. unfold run_delete. rewrite R.
    unfold exec_delete, del_body. cbn [de_from de_using de_where de_returning].
    rewrite (filter_ext _ _ (chosen_meets db fs)).
    rewrite (filter_ext _ _ (fun r => f_equal negb (chosen_meets db fs r))). reflexivity.
  Qed.

  (* ----------------------------------------------------------------------- *)
  (* UPDATE                                                                    *)
  (* ----------------------------------------------------------------------- *)

  Definition upd_body (t : tableref) (s : setting) (w : option formula) (ret : list item) : ubody :=
    {| up_with := []; up_table := t; up_set := s; up_from := []; up_where := w; up_returning := ret |}.

  Lemma upd_links : forall l l', Forall2 (fun x y => fst x = fst y /\ says (snd x) (snd y)) l l' ->
    forall u t s f u', upd_says u (upd_body t s (Some f) []) ->
    upd_run u (map (fun x => match fst x with
                     ByWhere => UpdWhere (snd x) | ByAnd => UpdAnd (snd x) | ByOr => UpdOr (snd x) end) l) = Ok u' ->
    upd_says u' (upd_body t s (Some (fold_left (fun a x => joined_by (fst x) a (snd x)) l' f)) []).
  Proof.
    intros l l' F. induction F as [|[c e] [c' h] l l' [Ec He] F IH]; intros u t s f u' S R.
    - cbn in R. injection R as <-. exact S.
    - cbn [fst snd] in *. subst c'. cbn [map fst snd] in R. apply run_cons in R as (x & E & R).
      cbn [fold_left fst snd]. apply (IH x); [|exact R].
      destruct c; cbn [joined_by].
      + exact (upd_where u _ e h x S He E).
      + exact (upd_and u _ e h f x S He eq_refl E).
      + exact (upd_or u _ e h f x S He eq_refl E).
  Qed.

  Lemma upd_rest : forall t s c fs ret l u u', conditions_say c fs -> args_say ret l ->
    upd_says u (upd_body t s None []) ->
    upd_run u (upd_conditions c ++ unless_none UpdReturning ret)%list = Ok u' ->
    upd_says u' (upd_body t s (whole_formula fs) (match ret with [] => [] | _ => l end)).
  Proof.
    intros t s c fs ret l u u' Hc Hr S0 H. apply run_app in H as (d1 & E1 & H).
    assert (S1 : upd_says d1 (upd_body t s (whole_formula fs) [])).
    { destruct c as [[e cs]|], fs as [[f fs]|]; cbn [conditions_say] in Hc; try contradiction.
      - destruct Hc as [He F]. cbn [upd_conditions] in E1. apply run_cons in E1 as (x & E & R).
        cbn [whole_formula]. apply (upd_links cs fs F x); [|exact R]. exact (upd_where u _ e f x S0 He E).
      - cbn in E1. injection E1 as <-. exact S0. }
    destruct ret as [|r ret]; cbn [unless_none] in H.
    - cbn in H. injection H as <-. exact S1.
    - apply run_cons in H as (x & E & H). cbn in H. injection H as <-.
      exact (upd_returning d1 _ (r :: ret) l x S1 Hr E).
  Qed.

  Lemma upd_sets : forall sets ls, Forall2 pairs_say sets ls -> forall u t m u',
    upd_says u (upd_body t (SetEach m) None []) -> upd_run u (map UpdSet sets) = Ok u' ->
    upd_says u' (upd_body t (SetEach (assign_all m (List.concat ls))) None []).
  Proof.
    intros sets ls F. induction F as [|a l sets ls P F IH]; intros u t m u' S R.
    - cbn in R. injection R as <-. exact S.
    - cbn [map] in R. apply run_cons in R as (x & E & R). cbn [List.concat].
      unfold assign_all. rewrite fold_left_app. apply (IH x); [|exact R].
      exact (upd_set u _ a m l x S eq_refl P E).
  Qed.

  Lemma update_described : forall table t sets ls c fs ret l u,
    table_says table t -> Forall2 pairs_say sets ls -> conditions_say c fs -> args_say ret l ->
    update_program table sets c ret = Ok u ->
    upd_says u (upd_body t (SetEach (assign_all [] (List.concat ls))) (whole_formula fs) (match ret with [] => [] | _ => l end)).
  Proof.
    intros table t sets ls c fs ret l u Ht Hs Hc Hr H. unfold update_program in H.
    destruct (lk_update table) as [u0|] eqn:E0; [|discriminate]. cbn [bind] in H.
    pose proof (upd_new table t u0 Ht E0) as S0.
    apply run_app in H as (u1 & E1 & H). apply (upd_rest t _ c fs ret l u1 u Hc Hr); [|exact H].
    exact (upd_sets sets ls Hs u0 t [] u1 S0 E1).
  Qed.

  Lemma using_described : forall table t cols ns vs l c fs ret rl u,
    table_says table t -> columns_say cols ns -> Forall2 value_says vs l -> conditions_say c fs -> args_say ret rl ->
    using_program table cols vs c ret = Ok u ->
    upd_says u (upd_body t (SetList ns (SValues l)) (whole_formula fs) (match ret with [] => [] | _ => rl end)).
  Proof.
    intros table t cols ns vs l c fs ret rl u Ht Hs Hv Hc Hr H. unfold using_program in H.
    destruct (lk_update table) as [u0|] eqn:E0; [|discriminate]. cbn [bind] in H.
    pose proof (upd_new table t u0 Ht E0) as S0.
    apply run_cons in H as (u1 & E1 & H). apply run_cons in H as (u2 & E2 & H).
    apply (upd_rest t _ c fs ret rl u2 u Hc Hr); [|exact H].
    pose proof (upd_columns u0 _ cols ns u1 S0 eq_refl Hs E1) as S1.
    exact (upd_using u1 _ vs ns [] l u2 S1 eq_refl Hv E2).
  Qed.

  Lemma all_some_map {A B} (f : A -> option B) : forall l, Forall (fun a => f a <> None) l ->
    exists l', all_some (map f l) = Some l' /\ Forall2 (fun a b => f a = Some b) l l'.
  Proof.
    intros l F. induction F as [|a l Ha F (l' & E & G)]; [exists []; split; [reflexivity|constructor]|].
    destruct (f a) as [b|] eqn:Eb; [|congruence]. exists (b :: l'). split; [cbn [map all_some]; rewrite Eb, E; reflexivity|].
    constructor; assumption.
  Qed.

  Lemma all_some_filter {A B} (f : A -> option B) (p : A -> bool) : forall l l',
    all_some (map f l) = Some l' -> exists m, all_some (map f (filter p l)) = Some m.
  Proof.
    induction l as [|a l IH]; intros l' H; [exists []; reflexivity|]. cbn [map all_some] in H.
    destruct (f a) as [b|] eqn:E; [|discriminate]. destruct (all_some (map f l)) as [k|]; [|discriminate].
    destruct (IH k eq_refl) as (m & Em). cbn [filter]. destruct (p a); [|exists m; exact Em].
    exists (b :: m). cbn [map all_some]. rewrite E, Em. reflexivity.
  Qed.

  (* The rows of an update, when the assignments can be computed. *)
  Lemma update_runs : forall u b t s fs ret,
    sort_contract o_sort -> upd_says u b -> b = upd_body t s (whole_formula fs) ret -> assigns_something s ->
    exists text values, query (StUpdate u) = Ok (text, values)
    /\ forall g (db : database g), run_update db text values = exec_update db b.
  Proof.
    intros u b t s fs ret C S -> A. destruct (C51_update_read_back u _ C S A) as (text & values & Q & R).
    exists text, values. split; [exact Q|]. intros g db. unfold run_update. rewrite R. reflexivity.
  Qed.

  Lemma exec_update_body {g} (db : database g) : forall t s fs ret (write : row g -> list (string * datum g)),
    (forall r, assigned db s r = Some (write r)) ->
    exec_update db (upd_body t s (whole_formula fs) ret)
    = match returns db ret (map (fun r => overwrite r (write r)) (filter (meets db fs) (db (tb_name t)))) with
      | Some out => Some (out, replace db (tb_name t)
                            (map (fun r => if meets db fs r then overwrite r (write r) else r) (db (tb_name t))))
      | None => None
      end.
  Proof.
    intros t s fs ret write W. unfold exec_update, upd_body. cbn [up_with up_from up_table up_where up_set up_returning].
    assert (U : forall r, updated db (whole_formula fs) s r = Some (if meets db fs r then overwrite r (write r) else r)).
    { intro r. unfold updated. rewrite chosen_meets, W. destruct (meets db fs r); reflexivity. }
    assert (M : forall l, all_some (map (updated db (whole_formula fs) s) l)
                = Some (map (fun r => if meets db fs r then overwrite r (write r) else r) l)).
    { induction l as [|r l IH]; [reflexivity|]. cbn [map all_some]. rewrite U, IH. reflexivity. }
    rewrite !M. rewrite (filter_ext _ _ (chosen_meets db fs)).
    assert (E : forall l, map (fun r => if meets db fs r then overwrite r (write r) else r) (filter (meets db fs) l)
                = map (fun r => overwrite r (write r)) (filter (meets db fs) l)).
    { induction l as [|r l IH]; [reflexivity|]. cbn [filter]. destruct (meets db fs r) eqn:X; [|exact IH].
      cbn [map]. rewrite X, IH. reflexivity. }
    rewrite E. reflexivity.
  Qed.

  Lemma assigned_each {g} (db : database g) : forall l r, simple_names l = true ->
    assigned db (SetEach (assign_all [] l)) r = Some (evaluated (datum_in db r) (assign_all [] l)).
  Proof. intros l r H. unfold assigned. rewrite (assign_all_settable l H). reflexivity. Qed.

  Lemma overwrite_each {g} (F : term -> datum g) : forall l (r : row g) c, simple_names l = true ->
    overwrite r (evaluated F (assign_all [] l)) c
    = match last_value c l with Some a => F a | None => r c end.
  Proof.
    intros l r c H. unfold overwrite. rewrite (assign_all_lookup F c l [] H eq_refl). unfold last_value.
    destruct (fold_left _ l None); reflexivity.
  Qed.

  (* ----------------------------------------------------------------------- *)
  (* INSERT                                                                    *)
  (* ----------------------------------------------------------------------- *)

  Definition conflict_body (c : option (list name * option (list (name * term)))) : option (list name * onconflict) :=
    match c with
    | None => None
    | Some (ns, None) => Some (ns, DoNothing)
    | Some (ns, Some l) => Some (ns, DoUpdate (assign_all [] l))
    end.
  Definition ins_body (t : tableref) (cols : list name) (rows : list (list term))
    (c : option (list name * option (list (name * term)))) (ret : list item) : ibody :=
    {| in_table := t; in_columns := cols; in_rows := rows; in_conflict := conflict_body c; in_returning := ret |}.

  Lemma ins_rest : forall t cols rows con c ret l i i', on_conflict_says con c -> args_say ret l ->
    ins_says i (ins_body t cols rows None []) ->
    ins_run i (unless_none InsOnConflict con ++ unless_none InsReturning ret)%list = Ok i' ->
    ins_says i' (ins_body t cols rows c (match ret with [] => [] | _ => l end)).
  Proof.
    intros t cols rows con c ret l i i' Hc Hr S0 H. apply run_app in H as (d1 & E1 & H).
    assert (S1 : ins_says d1 (ins_body t cols rows c [])).
    { destruct Hc as [|targets ns K|targets ns args m x K P N E].
      - cbn in E1. injection E1 as <-. exact S0.
      - assert (X : exists y ys, (targets ++ [lk_do_nothing])%list = y :: ys) by (destruct targets; eexists _, _; reflexivity).
        destruct X as (y & ys & X). rewrite X in E1. cbn [unless_none] in E1. rewrite <- X in E1.
        apply run_cons in E1 as (z & Ez & E1). cbn in E1. injection E1 as <-.
        exact (ins_do_nothing i _ targets ns z S0 K Ez).
      - assert (X : exists y ys, (targets ++ [x])%list = y :: ys) by (destruct targets; eexists _, _; reflexivity).
        destruct X as (y & ys & X). rewrite X in E1. cbn [unless_none] in E1. rewrite <- X in E1.
        apply run_cons in E1 as (z & Ez & E1). cbn in E1. injection E1 as <-.
        exact (ins_do_update i _ targets ns args m x z S0 K P N E Ez). }
    destruct ret as [|r ret]; cbn [unless_none] in H.
    - cbn in H. injection H as <-. exact S1.
    - apply run_cons in H as (x & E & H). cbn in H. injection H as <-.
      exact (ins_returning d1 _ (r :: ret) l x S1 Hr E).
  Qed.

  Lemma insert_set_described : forall table t args m con c ret l i,
    table_says table t -> pairs_say args m -> m <> [] -> on_conflict_says con c -> args_say ret l ->
    insert_set_program table args con ret = Ok i ->
    ins_says i (ins_body t (map fst (assign_all [] m)) [map snd (assign_all [] m)] c (match ret with [] => [] | _ => l end)).
  Proof.
    intros table t args m con c ret l i Ht Hp Nm Hc Hr H. unfold insert_set_program in H.
    destruct (lk_insert table) as [i0|] eqn:E0; [|discriminate]. cbn [bind] in H.
    pose proof (ins_new table t i0 Ht E0) as S0. apply run_cons in H as (i1 & E1 & H).
    apply (ins_rest t _ _ con c ret l i1 i Hc Hr); [|exact H].
    exact (ins_set i0 _ args m i1 S0 Hp Nm E1).
  Qed.

  Lemma insert_rows_described : forall table t cols ns x rows ls con c ret l i,
    table_says table t -> cols <> [] -> columns_args cols ns -> Rows.batch x rows -> rows <> [] -> Forall2 row_says rows ls ->
    on_conflict_says con c -> args_say ret l ->
    insert_rows_program table cols x con ret = Ok i ->
    ins_says i (ins_body t ns ls c (match ret with [] => [] | _ => l end)).
  Proof.
    intros table t cols ns x rows ls con c ret l i Ht Nc Hn Hb Nr Hl Hc Hr H. unfold insert_rows_program in H.
    destruct (lk_insert table) as [i0|] eqn:E0; [|discriminate]. cbn [bind] in H.
    pose proof (ins_new table t i0 Ht E0) as S0. apply run_cons in H as (i1 & E1 & H). apply run_cons in H as (i2 & E2 & H).
    apply (ins_rest t _ _ con c ret l i2 i Hc Hr); [|exact H].
    pose proof (ins_columns i0 _ cols ns i1 S0 Nc Hn E1) as S1.
    exact (ins_batch i1 _ x rows ls i2 S1 Hb Nr Hl E2).
  Qed.

  Lemma insert_runs : forall i b, sort_contract o_sort -> ins_says i b ->
    exists text values, query (StInsert i) = Ok (text, values)
    /\ forall g (db : database g), run_insert db text values = exec_insert db b.
  Proof.
    intros i b C S. destruct (C52_insert_read_back i b C S) as (text & values & Q & R).
    exists text, values. split; [exact Q|]. intros g db. unfold run_insert. rewrite R. reflexivity.
  Qed.

  Lemma new_row_each {g} (db : database g) : forall t l, simple_names l = true ->
    new_row db t (map fst (assign_all [] l)) (map snd (assign_all [] l))
    = Some (overwrite (fresh t) (evaluated (datum_in db (fresh t)) (assign_all [] l))).
  Proof.
    intros t l H. unfold new_row. rewrite (assign_all_settable l H), !map_length, Nat.eqb_refl. cbn [andb]. do 2 f_equal.
    generalize (assign_all [] l). induction l0 as [|[n a] m IH]; [reflexivity|]. cbn [map combine fst snd evaluated]. rewrite IH. reflexivity.
  Qed.
End Programs.
