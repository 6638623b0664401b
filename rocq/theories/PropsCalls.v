(* C18, C19, C20: the order and the repetition of calls on a builder. *)
From Verif Require Import CallsP Sort.

(* ------------------------------------------------------------------------- *)
(* C18                                                                         *)
(* ------------------------------------------------------------------------- *)

(* Calls on different clauses of a Select can be reordered: the statement is the same, or
   both orders panic. *)
Theorem C18_reordered_calls : forall q cs cs', reordered cs cs' ->
  same_outcome (sel_run q cs) (sel_run q cs').
Proof. intros q cs cs'. apply reordered_run. Qed.
Print Assumptions C18_reordered_calls.

(* So is the SQL. *)
Theorem C18_reordered_calls_same_sql {O : Oracle} : forall q cs cs', reordered cs cs' ->
  same_outcome (do q' <- sel_run q cs; query (StSelect q')) (do q' <- sel_run q cs'; query (StSelect q'))
  /\ same_outcome (do q' <- sel_run q cs; named_query (StSelect q')) (do q' <- sel_run q cs'; named_query (StSelect q'))
  /\ same_outcome (do q' <- sel_run q cs; to_string (StSelect q')) (do q' <- sel_run q cs'; to_string (StSelect q')).
Proof.
  intros q cs cs' H. pose proof (reordered_run cs cs' q H) as R. repeat split; apply same_bind; exact R.
Qed.
Print Assumptions C18_reordered_calls_same_sql.

Definition shuffled1 : list sel_call :=
  [SelFrom [GStr "t"]; SelWhere (ERaw "a"); SelLimit (GInt KInt 3); SelAnd (ERaw "b"); SelOrderBy [lk_order "x" []];
   SelSuffix (GStr "FOR UPDATE"); SelOffset (GInt KInt 1); SelGroupBy [GStr "g"]; SelOrderBy [lk_order "y" []]].
Definition shuffled2 : list sel_call :=
  [SelGroupBy [GStr "g"]; SelSuffix (GStr "FOR UPDATE"); SelOrderBy [lk_order "x" []]; SelOrderBy [lk_order "y" []];
   SelOffset (GInt KInt 1); SelWhere (ERaw "a"); SelAnd (ERaw "b"); SelFrom [GStr "t"]; SelLimit (GInt KInt 3)].
Example C18_example : reordered shuffled1 shuffled2 /\ shuffled1 <> shuffled2
  /\ (do q <- lk_select [GStr "c"]; do q <- sel_run q shuffled1; query (O := go_oracle) (StSelect q))
     = Ok ("SELECT ""c"" FROM ""t"" WHERE (a AND b) GROUP BY ""g"" ORDER BY x ASC, y ASC LIMIT 3 OFFSET 1 FOR UPDATE", []).
Proof. split; [intros []; reflexivity|]. split; [discriminate|vm_compute; reflexivity]. Qed.

(* The grouping is needed: with DistinctOn and GroupBy, or Offset and Suffix, the order of the
   calls decides whether they panic. *)
Theorem C18_distinct_on_after_group_by_refuted :
  is_ok (sel_run new_select [SelDistinctOn [GStr "a"]; SelGroupBy [GStr "b"]]) = true
  /\ is_ok (sel_run new_select [SelGroupBy [GStr "b"]; SelDistinctOn [GStr "a"]]) = false
  /\ is_ok (sel_run new_select [SelSuffix (GStr "x"); SelOffset (GInt KInt 1)]) = true
  /\ is_ok (sel_run new_select [SelOffset (GInt KInt 1); SelSuffix (GStr "x")]) = false.
Proof. repeat split; vm_compute; reflexivity. Qed.
Print Assumptions C18_distinct_on_after_group_by_refuted.

(* ------------------------------------------------------------------------- *)
(* C19                                                                         *)
(* ------------------------------------------------------------------------- *)

(* Once From, GroupBy, Having, Limit or Offset have set a clause, it stays what it is and a
   second call panics, whatever is called in between. *)
Theorem C19_select_clause_kept : forall o q0 c q1 cs q2 c',
  sel_once_of c = Some o -> sel_step q0 c = Ok q1 -> sel_has o q1 ->
  sel_run q1 cs = Ok q2 -> sel_once_of c' = Some o ->
  sel_same o q1 q2 /\ exists p, sel_step q2 c' = Panic p.
Proof.
  intros o q0 c q1 cs q2 c' _ _ H R E. pose proof (sel_run_same o cs q1 q2 H R) as S.
  split; [exact S|]. apply (sel_once_panics o); [exact (sel_has_same o _ _ H S)|exact E].
Qed.
Print Assumptions C19_select_clause_kept.

Theorem C19_insert_clause_kept {O : Oracle} : forall o i0 c i1 cs i2 c',
  In o (ins_once_of c) -> ins_step i0 c = Ok i1 -> ins_has o i1 ->
  ins_run i1 cs = Ok i2 -> In o (ins_once_of c') ->
  ins_same o i1 i2 /\ exists p, ins_step i2 c' = Panic p.
Proof.
  intros o i0 c i1 cs i2 c' _ _ H R E. pose proof (ins_run_same o cs i1 i2 H R) as S.
  split; [exact S|]. apply (ins_once_panics o); [exact (ins_has_same o _ _ H S)|exact E].
Qed.
Print Assumptions C19_insert_clause_kept.

Theorem C19_update_clause_kept : forall o u0 c u1 cs u2 c',
  upd_once_of c = Some o -> upd_step u0 c = Ok u1 -> upd_has o u1 ->
  upd_run u1 cs = Ok u2 -> upd_once_of c' = Some o ->
  upd_same o u1 u2 /\ exists p, upd_step u2 c' = Panic p.
Proof.
  intros o u0 c u1 cs u2 c' _ _ H R E. pose proof (upd_run_same o cs u1 u2 H R) as S.
  split; [exact S|]. apply (upd_once_panics o); [exact (upd_has_same o _ _ H S)|exact E].
Qed.
Print Assumptions C19_update_clause_kept.

Theorem C19_delete_clause_kept : forall o d0 c d1 cs d2 c',
  del_once_of c = Some o -> del_step d0 c = Ok d1 -> del_has o d1 ->
  del_run d1 cs = Ok d2 -> del_once_of c' = Some o ->
  del_same o d1 d2 /\ exists p, del_step d2 c' = Panic p.
Proof.
  intros o d0 c d1 cs d2 c' _ _ H R E. pose proof (del_run_same o cs d1 d2 H R) as S.
  split; [exact S|]. apply (del_once_panics o); [exact (del_has_same o _ _ H S)|exact E].
Qed.
Print Assumptions C19_delete_clause_kept.

(* From, GroupBy, Into and a Delete's From always set their clause. *)
Lemma to_from_nonempty : forall args l, to_from args = Ok l -> l <> [].
Proof.
  intros args l E. unfold to_from in E. destruct (map_res to_fromitem args) as [r|]; [|discriminate E]. cbn [bind] in E.
  destruct r; [discriminate E|]. injection E as <-. discriminate.
Qed.
Theorem C19_from_and_group_by_set : forall q q' args,
  (sel_step q (SelFrom args) = Ok q' -> sel_has OnceFrom q')
  /\ (sel_step q (SelGroupBy args) = Ok q' -> sel_has OnceGroupBy q').
Proof.
  intros q q' args. split; cbn [sel_step]; intro E.
  - destruct (nonempty _); [discriminate E|]. destruct (to_from args) eqn:F; [|discriminate E]. injection E as <-.
    exact (to_from_nonempty _ _ F).
  - destruct (nonempty _); [discriminate E|]. destruct (to_columns args) as [[|c l]|]; try discriminate E. injection E as <-.
    discriminate.
Qed.
Print Assumptions C19_from_and_group_by_set.

(* A limit that is not a stmt.Limit is positive, so it is set. An offset is set unless it is 0. *)
Theorem C19_limit_set : forall q q' v, (forall z, v <> GLimit z) ->
  sel_step q (SelLimit v) = Ok q' -> sel_has OnceLimit q'.
Proof.
  intros q q' v N E. cbn [sel_step] in E. destruct (s_limit q =? 0)%Z; [|discriminate E].
  destruct (to_limit v) as [z|] eqn:L; [|discriminate E]. injection E as <-. cbn.
  assert (P : (0 < z)%Z); [|lia]. unfold to_limit in L. destruct v; try (exfalso; eapply N; reflexivity);
    destruct (to_int64 _) as [z'|]; try discriminate L;
    destruct (Z.leb_spec z' 0); try discriminate L; injection L as <-; assumption.
Qed.
Print Assumptions C19_limit_set.

Example C19_example :
  (exists q, sel_run new_select [SelFrom [GStr "t"]; SelDistinct; SelLimit (GInt KInt 2)] = Ok q
     /\ sel_has OnceFrom q /\ sel_has OnceLimit q /\ exists p, sel_step q (SelFrom [GStr "u"]) = Panic p)
  /\ (exists i, (do i <- lk_insert (O := go_oracle) (GStr "t"); ins_run (O := go_oracle) i [InsSet [GPair (GStr "a") (GInt KInt 1)]]) = Ok i
     /\ ins_has OnceColumns i /\ ins_has OnceValues i /\ exists p, ins_step (O := go_oracle) i (InsColumns [GStr "b"]) = Panic p).
Proof.
  split; eexists; (split; [vm_compute; reflexivity|]);
    (split; [first [discriminate | reflexivity]|]); (split; [first [discriminate | reflexivity]|]); eexists; vm_compute; reflexivity.
Qed.

(* Having(nil), or an empty condition, sets nothing and can be followed by another Having. *)
Theorem C19_empty_having_refuted : exists q,
  sel_run new_select [SelHaving ENil; SelHaving (ERaw ""); SelHaving (ERaw "x")] = Ok q /\ s_having q = ERaw "x".
Proof. eexists. split; vm_compute; reflexivity. Qed.
Print Assumptions C19_empty_having_refuted.

(* ------------------------------------------------------------------------- *)
(* C20                                                                         *)
(* ------------------------------------------------------------------------- *)

(* DistinctOn, Suffix and Prefix can be called again and overwrite what was set. *)
Theorem C20_second_call_overwrites_refuted :
  (exists q, sel_run new_select [SelDistinctOn [GStr "a"]; SelDistinctOn [GStr "b"]] = Ok q
     /\ s_distinct_on q = [lk_column "b"])
  /\ (exists q, sel_run new_select [SelSuffix (GStr "a"); SelSuffix (GStr "b")] = Ok q /\ s_suffix q = "b")
  /\ (exists q, sel_run new_select [SelPrefix (GStr "a"); SelPrefix (GStr "b")] = Ok q /\ s_prefix q = "b").
Proof. repeat split; eexists; split; vm_compute; reflexivity. Qed.
Print Assumptions C20_second_call_overwrites_refuted.

(* In general: the second call succeeds when the first did. *)
Theorem C20_repeated_call_accepted_refuted : forall q q1 c c',
  match c, c' with
  | SelDistinctOn a, SelDistinctOn b => exists l, to_columns b = Ok l /\ l <> []
  | SelSuffix a, SelSuffix b => exists s, to_suffix b = Ok s
  | SelPrefix a, SelPrefix b => exists s, to_prefix b = Ok s
  | _, _ => False
  end ->
  sel_step q c = Ok q1 -> exists q2, sel_step q1 c' = Ok q2.
Proof.
  intros q q1 c c' H E. destruct c; try contradiction; destruct c'; try contradiction; cbn [sel_step] in *.
  - destruct H as (l & L & N). destruct (nonempty (s_group_by q)) eqn:G; [discriminate E|].
    destruct (to_columns args) as [[|x r]|]; try discriminate E. injection E as <-.
    cbn [with_distinct_on s_group_by]. rewrite G, L. cbn [bind]. rewrite (nonempty_true _ _ N). eauto.
  - destruct H as (s & L). destruct (s_offset q =? 0)%Z eqn:G; [|discriminate E].
    destruct (to_suffix v); [|discriminate E]. injection E as <-. cbn [with_suffix s_offset]. rewrite G, L. eexists. reflexivity.
  - destruct H as (s & L). destruct (s_offset q =? 0)%Z eqn:G; [|discriminate E].
    destruct (to_prefix v); [|discriminate E]. injection E as <-. cbn [with_prefix s_offset]. rewrite G, L. eexists. reflexivity.
Qed.
Print Assumptions C20_repeated_call_accepted_refuted.

(* A first DistinctOn panics after GroupBy, a first Suffix or Prefix panics after Offset,
   whatever their argument. *)
Theorem C20_first_call_panics_refuted : forall q,
  (s_group_by q <> [] -> forall args, exists p, sel_step q (SelDistinctOn args) = Panic p)
  /\ (s_offset q <> 0%Z -> forall v, (exists p, sel_step q (SelSuffix v) = Panic p)
                                     /\ exists p, sel_step q (SelPrefix v) = Panic p).
Proof.
  intro q. split; intros H args; cbn [sel_step].
  - rewrite (nonempty_true _ _ H). eauto.
  - apply Z.eqb_neq in H. rewrite H. eauto.
Qed.
Print Assumptions C20_first_call_panics_refuted.

(* What does hold: without GroupBy and Offset, a DistinctOn, Suffix or Prefix sets exactly its
   clause and never panics because of another clause. *)
Theorem C20_guards_partial : forall q,
  (s_group_by q = [] -> forall args l, to_columns args = Ok l -> l <> [] ->
     sel_step q (SelDistinctOn args) = Ok (with_distinct_on q l))
  /\ (s_offset q = 0%Z -> forall v s, to_suffix v = Ok s -> sel_step q (SelSuffix v) = Ok (with_suffix q s))
  /\ (s_offset q = 0%Z -> forall v s, to_prefix v = Ok s -> sel_step q (SelPrefix v) = Ok (with_prefix q s)).
Proof.
  intro q. repeat split; intros H args l L; cbn [sel_step]; rewrite H, L; cbn.
  - intro N. rewrite (nonempty_true _ _ N). reflexivity.
  - reflexivity.
  - reflexivity.
Qed.
Print Assumptions C20_guards_partial.
Example C20_example : exists q,
  sel_run new_select [SelFrom [GStr "t"]; SelDistinctOn [GStr "a, b"]; SelSuffix (GStr "s"); SelPrefix (GStr "p")] = Ok q
  /\ s_group_by q = [] /\ s_offset q = 0%Z.
Proof. eexists. split; [vm_compute; reflexivity|split; reflexivity]. Qed.

(* Exactly, for a builder that any chain of calls gave: DistinctOn is accepted if and only if
   GroupBy has not been called and its arguments are columns, at least one. Suffix and Prefix
   are accepted if and only if no Offset but 0 has been given and their argument is a
   non-empty text. What a builder holds is what the last of these calls gave, however often it
   was called, and nothing if there was none. *)
Lemma join_keeps : forall q args q', sel_join q args = Ok q' -> exists l, q' = with_joins q l.
Proof.
  intros q args q' E. assert (A : forall j, add_join q j = Ok q' -> exists l, q' = with_joins q l).
  { intros j F. unfold add_join in F. destruct (join_empty j) as [[]|]; cbn in F; try discriminate F.
    injection F as <-. eexists. reflexivity. }
  unfold sel_join in E. destruct args as [|a [|b [|c [|d args]]]]; try discriminate E.
  - destruct a; try discriminate E; cbn [bind] in E; [|exact (A _ E)].
    destruct (must_parse_join s); [|discriminate E]. exact (A _ E).
  - destruct (handle_join a b); [|discriminate E]. exact (A _ E).
  - destruct (handle_join a b); [|discriminate E]. cbn [bind] in E. destruct c; try discriminate E. exact (A _ E).
Qed.
Lemma step_leaves : forall q c q', sel_step q c = Ok q' ->
  (match c with SelGroupBy _ => s_group_by q' <> [] | _ => s_group_by q' = s_group_by q end)
  /\ (match c with SelOffset v => s_offset q = 0%Z /\ to_offset v = Ok (s_offset q') | _ => s_offset q' = s_offset q end)
  /\ (match c with SelDistinctOn a => to_columns a = Ok (s_distinct_on q') | _ => s_distinct_on q' = s_distinct_on q end)
  /\ (match c with SelSuffix v => to_suffix v = Ok (s_suffix q') | _ => s_suffix q' = s_suffix q end)
  /\ (match c with SelPrefix v => to_prefix v = Ok (s_prefix q') | _ => s_prefix q' = s_prefix q end).
Proof.
  intros q c q' E. destruct c; cbn [sel_step] in E;
    try (destruct (join_keeps _ _ _ E) as (l & ->); repeat split; reflexivity);
    step_cases; injection E as <-; repeat split; try reflexivity; try assumption.
  - destruct a; discriminate.
  - apply Z.eqb_eq. assumption.
Qed.
Lemma run_leaves : forall cs q q', sel_run q cs = Ok q' -> s_offset q = 0%Z ->
  (s_group_by q' = [] <-> s_group_by q = [] /\ forall a, ~ In (SelGroupBy a) cs)
  /\ (s_offset q' = 0%Z <-> forall o, In (SelOffset o) cs -> to_offset o = Ok 0%Z).
Proof.
  induction cs as [|c cs IH] using rev_ind; intros q q' E Z.
  - injection E as <-. split; (split; [intro H; try split; try exact H; intros ? []|intro H]); [apply H|exact Z].
  - unfold sel_run in E. rewrite fold_app in E. destruct (fold_res sel_step cs q) as [q1|] eqn:R; [|discriminate E].
    cbn [bind fold_res] in E. destruct (sel_step q1 c) as [q2|] eqn:S; [|discriminate E]. injection E as <-.
    destruct (IH q q1 R Z) as (G & F). destruct (step_leaves _ _ _ S) as (G1 & F1 & _). split.
    + assert (D : (exists a, c = SelGroupBy a) \/ (forall a, c <> SelGroupBy a) /\ s_group_by q2 = s_group_by q1).
      { destruct c; try (right; split; [discriminate|exact G1]). left. eexists. reflexivity. }
      destruct D as [(a & ->)|(N & ->)].
      * split; [intro H; contradiction (G1 H)|intros (_ & H)]. exfalso. apply (H a), in_or_app. right. left. reflexivity.
      * rewrite G. split; intros (H & K); (split; [exact H|]); intros a I.
        -- apply in_app_or in I. destruct I as [I|[I|[]]]; [exact (K a I)|exact (N a I)].
        -- apply (K a), in_or_app. left. exact I.
    + assert (D : (exists a, c = SelOffset a) \/ (forall a, c <> SelOffset a) /\ s_offset q2 = s_offset q1).
      { destruct c; try (right; split; [discriminate|exact F1]). left. eexists. reflexivity. }
      destruct D as [(a & ->)|(N & ->)].
      * destruct F1 as (Z1 & T). split.
        -- intros H o I. apply in_app_or in I. destruct I as [I|[I|[]]]; [exact (proj1 F Z1 o I)|].
           injection I as <-. rewrite <- H. exact T.
        -- intro H. specialize (H a). rewrite T in H. assert (K : Ok (s_offset q2) = Ok 0%Z); [|injection K as K; exact K].
           apply H, in_or_app. right. left. reflexivity.
      * rewrite F. split; intros H o I.
        -- apply in_app_or in I. destruct I as [I|[I|[]]]; [exact (H o I)|contradiction (N o I)].
        -- apply H, in_or_app. left. exact I.
Qed.
Lemma run_last : forall A (give : sel_call -> option (res A)) (field : select -> A),
  (forall q c q', sel_step q c = Ok q' -> match give c with Some r => r = Ok (field q') | None => field q' = field q end) ->
  forall cs q q', sel_run q cs = Ok q' ->
  ((forall c, In c cs -> give c = None) -> field q' = field q)
  /\ forall before c after r, cs = (before ++ c :: after)%list -> give c = Some r ->
       (forall c', In c' after -> give c' = None) -> r = Ok (field q').
Proof.
  intros A give field S. assert (K : forall cs q q', sel_run q cs = Ok q' -> (forall c, In c cs -> give c = None) -> field q' = field q).
  { induction cs as [|c cs IH]; intros q q' E N; [injection E as <-; reflexivity|].
    unfold sel_run in E. cbn [fold_res] in E. destruct (sel_step q c) as [q1|] eqn:E1; [|discriminate E].
    pose proof (S _ _ _ E1) as G. rewrite (N c) in G by (left; reflexivity). rewrite <- G.
    apply IH; [exact E|]. intros c' I. apply N. right. exact I. }
  intros cs q q' E. split; [apply K, E|]. intros before c after r -> G N.
  unfold sel_run in E. rewrite fold_app in E. destruct (fold_res sel_step before q) as [q1|]; [|discriminate E].
  cbn [bind fold_res] in E. destruct (sel_step q1 c) as [q2|] eqn:E1; [|discriminate E]. cbn [bind] in E.
  pose proof (S _ _ _ E1) as T. rewrite G in T. rewrite T. f_equal. symmetry. exact (K _ _ _ E N).
Qed.
Theorem C20_exactly_partial : forall columns q0 cs q, lk_select columns = Ok q0 -> sel_run q0 cs = Ok q ->
  (forall args, is_ok (sel_step q (SelDistinctOn args)) = true <->
     (forall a, ~ In (SelGroupBy a) cs) /\ exists c l, to_columns args = Ok (c :: l))
  /\ (forall v, is_ok (sel_step q (SelSuffix v)) = true <->
     (forall o, In (SelOffset o) cs -> to_offset o = Ok 0%Z) /\ exists s, s <> "" /\ (v = GStr s \/ v = GSuffix s))
  /\ (forall v, is_ok (sel_step q (SelPrefix v)) = true <->
     (forall o, In (SelOffset o) cs -> to_offset o = Ok 0%Z) /\ exists s, s <> "" /\ (v = GStr s \/ v = GPrefix s))
  /\ ((forall args, ~ In (SelDistinctOn args) cs) -> s_distinct_on q = [])
  /\ ((forall v, ~ In (SelSuffix v) cs) -> s_suffix q = "")
  /\ ((forall v, ~ In (SelPrefix v) cs) -> s_prefix q = "")
  /\ (forall before args after, cs = (before ++ SelDistinctOn args :: after)%list ->
       (forall a, ~ In (SelDistinctOn a) after) -> to_columns args = Ok (s_distinct_on q))
  /\ (forall before v after, cs = (before ++ SelSuffix v :: after)%list ->
       (forall a, ~ In (SelSuffix a) after) -> v = GStr (s_suffix q) \/ v = GSuffix (s_suffix q))
  /\ (forall before v after, cs = (before ++ SelPrefix v :: after)%list ->
       (forall a, ~ In (SelPrefix a) after) -> v = GStr (s_prefix q) \/ v = GPrefix (s_prefix q)).
Proof.
  intros columns q0 cs q E0 E.
  assert (I0 : s_group_by q0 = [] /\ s_offset q0 = 0%Z /\ s_distinct_on q0 = [] /\ s_suffix q0 = "" /\ s_prefix q0 = "").
  { unfold lk_select in E0. destruct (step_leaves _ _ _ E0) as (-> & -> & -> & -> & ->). repeat split. }
  destruct I0 as (G0 & Z0 & D0 & S0 & P0).
  destruct (run_leaves cs q0 q E Z0) as (G & Z).
  assert (TS : forall v s, to_suffix v = Ok s <-> s <> "" /\ (v = GStr s \/ v = GSuffix s)).
  { intros v s. unfold to_suffix. split.
    - destruct v; cbn; try discriminate; destruct s0; cbn; try discriminate; intro X; injection X as <-; (split; [discriminate|]); auto.
    - intros (N & [-> | ->]); cbn; destruct s; try (contradiction N; reflexivity); reflexivity. }
  assert (TP : forall v s, to_prefix v = Ok s <-> s <> "" /\ (v = GStr s \/ v = GPrefix s)).
  { intros v s. unfold to_prefix. split.
    - destruct v; cbn; try discriminate; destruct s0; cbn; try discriminate; intro X; injection X as <-; (split; [discriminate|]); auto.
    - intros (N & [-> | ->]); cbn; destruct s; try (contradiction N; reflexivity); reflexivity. }
  pose proof (run_last _ (fun c => match c with SelDistinctOn a => Some (to_columns a) | _ => None end) s_distinct_on) as LD.
  pose proof (run_last _ (fun c => match c with SelSuffix a => Some (to_suffix a) | _ => None end) s_suffix) as LS.
  pose proof (run_last _ (fun c => match c with SelPrefix a => Some (to_prefix a) | _ => None end) s_prefix) as LP.
  specialize (fun H => LD H cs q0 q E). specialize (fun H => LS H cs q0 q E). specialize (fun H => LP H cs q0 q E).
  destruct LD as (LD0 & LD1); [intros a c b X; pose proof (step_leaves _ _ _ X) as (_ & _ & Y & _); destruct c; exact Y|].
  destruct LS as (LS0 & LS1); [intros a c b X; pose proof (step_leaves _ _ _ X) as (_ & _ & _ & Y & _); destruct c; exact Y|].
  destruct LP as (LP0 & LP1); [intros a c b X; pose proof (step_leaves _ _ _ X) as (_ & _ & _ & _ & Y); destruct c; exact Y|].
  split; [|split; [|split; [|split; [|split; [|split; [|split; [|split]]]]]]].
  - intro args. cbn [sel_step]. destruct (s_group_by q) eqn:Q; cbn [nonempty].
    + destruct (proj1 G eq_refl) as (_ & N). destruct (to_columns args) as [[|c l]|]; cbn.
      * split; [discriminate|intros (_ & ? & ? & X); discriminate X].
      * split; [intros _; split; [exact N|eauto]|reflexivity].
      * split; [discriminate|intros (_ & ? & ? & X); discriminate X].
    + split; [discriminate|]. intros (N & _). assert (X : c :: l = []); [|discriminate X]. apply G. split; assumption.
  - intro v. cbn [sel_step]. destruct (Z.eqb_spec (s_offset q) 0) as [Q|Q].
    + pose proof (proj1 Z Q) as N. split.
      * destruct (to_suffix v) as [s|] eqn:T; [|discriminate]. intros _. split; [exact N|]. exists s. apply TS, T.
      * intros (_ & s & T). apply TS in T. rewrite T. reflexivity.
    + split; [discriminate|]. intros (N & _). contradiction Q. apply Z, N.
  - intro v. cbn [sel_step]. destruct (Z.eqb_spec (s_offset q) 0) as [Q|Q].
    + pose proof (proj1 Z Q) as N. split.
      * destruct (to_prefix v) as [s|] eqn:T; [|discriminate]. intros _. split; [exact N|]. exists s. apply TP, T.
      * intros (_ & s & T). apply TP in T. rewrite T. reflexivity.
    + split; [discriminate|]. intros (N & _). contradiction Q. apply Z, N.
  - intro N. rewrite LD0; [exact D0|]. intros c I. destruct c; try reflexivity. contradiction (N _ I).
  - intro N. rewrite LS0; [exact S0|]. intros c I. destruct c; try reflexivity. contradiction (N _ I).
  - intro N. rewrite LP0; [exact P0|]. intros c I. destruct c; try reflexivity. contradiction (N _ I).
  - intros before args after X N. apply (LD1 before _ after _ X eq_refl). intros c I. destruct c; try reflexivity. contradiction (N _ I).
  - intros before v after X N. apply TS. apply (LS1 before _ after _ X eq_refl). intros c I. destruct c; try reflexivity. contradiction (N _ I).
  - intros before v after X N. apply TP. apply (LP1 before _ after _ X eq_refl). intros c I. destruct c; try reflexivity. contradiction (N _ I).
Qed.
Print Assumptions C20_exactly_partial.
Definition guarded : list sel_call :=
  [SelFrom [GStr "t"]; SelSuffix (GStr "s"); SelOffset (GInt KInt 0); SelPrefix (GPrefix "p"); SelDistinctOn [GStr "a"];
   SelSuffix (GSuffix "FOR UPDATE"); SelDistinctOn [GStr "b, c"]].
Example C20_exactly_example : exists q0 q, lk_select [GStr "d"] = Ok q0 /\ sel_run q0 guarded = Ok q
  /\ s_suffix q = "FOR UPDATE" /\ s_prefix q = "p" /\ s_distinct_on q = [lk_column "b"; lk_column "c"]
  /\ is_ok (sel_step q (SelPrefix (GStr "x"))) = true
  /\ is_ok (do q <- sel_step q (SelOffset (GInt KInt 1)); sel_step q (SelPrefix (GStr "x"))) = false
  /\ is_ok (do q <- sel_step q (SelGroupBy [GStr "b"]); sel_step q (SelDistinctOn [GStr "x"])) = false.
Proof. eexists. eexists. split; [vm_compute; reflexivity|]. split; [vm_compute; reflexivity|]. repeat split; vm_compute; reflexivity. Qed.
