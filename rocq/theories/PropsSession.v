(* C70: a session of statements does to the database what the calls say, whatever form each statement
   is sent in, and the database can tell from each text what kind of statement it is. *)
From Verif Require Import LiteralP LiteralTablesP SessionP PropsForms PropsFormsTables PropsGrammar PropsGrammarDml PropsGrammarText PropsMeaning PropsChanges.
From Verif Require Export Session.
From Verif Require AssignP.

(* C70: no text is a statement of two kinds, or two statements of one kind. *)
Definition reads_as (E : env) (text : string) (r : reading) : Prop :=
  match r with
  | ReadSelect q => read_query E text = Some q
  | ReadDelete b => read_delete E text = Some b
  | ReadUpdate b => read_update E text = Some b
  | ReadInsert b => read_insert E text = Some b
  end.

Lemma fronts_differ : forall ts, (insert_front ts -> delete_front ts -> False) /\ (insert_front ts -> update_front ts -> False)
  /\ (delete_front ts -> update_front ts -> False)
  /\ (insert_front ts -> forall r, ts <> KWord "WITH" :: r) /\ (delete_front ts -> forall r, ts <> KWord "WITH" :: r).
Proof.
  intro ts. repeat split.
  - intros (n & r & [->| ->]) (n' & r' & [H|H]); discriminate H.
  - intros (n & r & [->| ->]) (n' & r' & [H|H]); discriminate H.
  - intros (n & r & [->| ->]) (n' & r' & [H|H]); discriminate H.
  - intros (n & r & [->| ->]) r' H; discriminate H.
  - intros (n & r & [->| ->]) r' H; discriminate H.
Qed.

Theorem C70_one_kind : forall E text r r', reads_as E text r -> reads_as E text r' -> r = r'.
Proof.
  assert (SD : forall E text q b, read_query E text = Some q -> read_delete E text = Some b -> False).
  { intros E text q b Hq Hb. apply whole_some in Hq as (ts & r & T & Q). apply whole_some in Hb as (ts' & r' & T' & B). rewrite T in T'. injection T' as <-.
    exact (proj1 (proj2 (no_select _ _ _ Q)) (delete_shape _ _ _ B)). }
  assert (SI : forall E text q b, read_query E text = Some q -> read_insert E text = Some b -> False).
  { intros E text q b Hq Hb. apply whole_some in Hq as (ts & r & T & Q). apply whole_some in Hb as (ts' & r' & T' & B). rewrite T in T'. injection T' as <-.
    exact (proj1 (no_select _ _ _ Q) (insert_shape _ _ _ B)). }
  assert (SU : forall E text q b, read_query E text = Some q -> read_update E text = Some b -> False).
  { intros E text q b Hq Hb. apply whole_some in Hq as (ts & r & T & Q). apply whole_some in Hb as (ts' & r' & T' & B). rewrite T in T'. injection T' as <-.
    exact (select_or_update _ _ _ _ eq_refl Q B). }
  assert (DU : forall E text q b, read_delete E text = Some q -> read_update E text = Some b -> False).
  { intros E text q b Hq Hb. apply whole_some in Hq as (ts & r & T & Q). apply whole_some in Hb as (ts' & r' & T' & B). rewrite T in T'. injection T' as <-.
    destruct (fronts_differ ts) as (_ & _ & F & _ & G). destruct (update_shape _ _ _ B) as [U|(w & wi & w' & W & _)];
      [exact (F (delete_shape _ _ _ Q) U)|exact (G (delete_shape _ _ _ Q) w W)]. }
  assert (IU : forall E text q b, read_insert E text = Some q -> read_update E text = Some b -> False).
  { intros E text q b Hq Hb. apply whole_some in Hq as (ts & r & T & Q). apply whole_some in Hb as (ts' & r' & T' & B). rewrite T in T'. injection T' as <-.
    destruct (fronts_differ ts) as (_ & F & _ & G & _). destruct (update_shape _ _ _ B) as [U|(w & wi & w' & W & _)];
      [exact (F (insert_shape _ _ _ Q) U)|exact (G (insert_shape _ _ _ Q) w W)]. }
  assert (ID : forall E text q b, read_insert E text = Some q -> read_delete E text = Some b -> False).
  { intros E text q b Hq Hb. apply whole_some in Hq as (ts & r & T & Q). apply whole_some in Hb as (ts' & r' & T' & B). rewrite T in T'. injection T' as <-.
    exact (proj1 (fronts_differ ts) (insert_shape _ _ _ Q) (delete_shape _ _ _ B)). }
  intros E text [q|b|b|b] [q'|b'|b'|b'] H H'; cbn [reads_as] in H, H'; try (exfalso; eauto; fail); congruence.
Qed.

Lemma read_any_iff : forall E text r, read_any E text = Some r <-> reads_as E text r.
Proof.
  intros E text r. split; intro H.
  - unfold read_any in H. destruct (read_query E text) eqn:H1; [injection H as <-; exact H1|].
    destruct (read_delete E text) eqn:H2; [injection H as <-; exact H2|].
    destruct (read_update E text) eqn:H3; [injection H as <-; exact H3|].
    destruct (read_insert E text) eqn:H4; [injection H as <-; exact H4|discriminate].
  - destruct (read_any E text) as [r'|] eqn:A.
    + f_equal. apply (C70_one_kind E text r' r); [|exact H]. unfold read_any in A. destruct (read_query E text) eqn:H1; [injection A as <-; exact H1|].
      destruct (read_delete E text) eqn:H2; [injection A as <-; exact H2|].
      destruct (read_update E text) eqn:H3; [injection A as <-; exact H3|].
      destruct (read_insert E text) eqn:H4; [injection A as <-; exact H4|discriminate].
    + exfalso. unfold read_any in A. destruct r; cbn [reads_as] in H; rewrite H in A;
        destruct (read_query E text); try discriminate; destruct (read_delete E text); try discriminate; destruct (read_update E text); discriminate.
Qed.

Section Sessions.
  Context {O : Oracle}.

  (* Each statement of the list is sent in its form. *)
  Definition sent_all (e : bool) (l : list (form * stmt)) (ms : list (env * string)) : Prop :=
    Forall2 (fun x m => sent_as e (fst x) (snd x) m) l ms.

  (* The three forms can be made, and are obeyed as the calls say. *)
  Lemma obeyed : forall (g : basis) e, sort_contract o_sort -> tables_take_literals g e ->
    forall (k : rules g) st r, described_as (m := Inline e) st r ->
    (forall f, exists m, sent_as e f st m) /\ forall f m, sent_as e f st m -> forall db : tabledb g, obey k db m = act k db r.
  Proof.
    intros g e C L k st r H.
    assert (X : exists r' t1 v1 t2 v2 t3, query st = Ok (t1, v1) /\ named_query st = Ok (t2, v2) /\ to_string st = Ok t3
      /\ reads_as (numbered v1) t1 r' /\ reads_as (named v2) t2 r' /\ reads_as (no_args e) t3 r /\ forall db : tabledb g, act k db r' = act k db r).
    { destruct st as [s|i|u|d], r as [[b]|b|b|b]; try contradiction; cbn [described_as] in H.
      - destruct H as [H N]. destruct (C63_select_same e s b H N) as (b' & t1 & v1 & t2 & v2 & t3 & R & Q1 & R1 & Q2 & R2 & Q3 & R3).
        exists (ReadSelect (Query b')), t1, v1, t2, v2, t3. repeat (split; [assumption|]). intro db. cbn [act].
        rewrite (query_same e L _ _ (rel_subquery e b' b R) db nothing). reflexivity.
      - destruct (C63_insert_same e i b C H) as (b' & t1 & v1 & t2 & v2 & t3 & R & Q1 & R1 & Q2 & R2 & Q3 & R3).
        exists (ReadInsert b'), t1, v1, t2, v2, t3. repeat (split; [assumption|]). intro db. exact (insert_same e L k b' b R db).
      - destruct H as [H N]. destruct (C63_update_same e u b C H N) as (b' & t1 & v1 & t2 & v2 & t3 & R & Q1 & R1 & Q2 & R2 & Q3 & R3).
        exists (ReadUpdate b'), t1, v1, t2, v2, t3. repeat (split; [assumption|]). intro db. exact (update_same e L b' b R db).
      - destruct (C63_delete_same e d b H) as (b' & t1 & v1 & t2 & v2 & t3 & R & Q1 & R1 & Q2 & R2 & Q3 & R3).
        exists (ReadDelete b'), t1, v1, t2, v2, t3. repeat (split; [assumption|]). intro db. exact (delete_same e L b' b R db). }
    destruct X as (r' & t1 & v1 & t2 & v2 & t3 & Q1 & Q2 & Q3 & R1 & R2 & R3 & A). split.
    - intros []; eexists; cbn [sent_as]; [exists t1, v1|exists t2, v2|exists t3]; (split; [assumption|reflexivity]).
    - intros [] m M db; cbn [sent_as] in M; unfold obey.
      + destruct M as (t & v & Q & ->). rewrite Q1 in Q. injection Q as <- <-. cbn [fst snd]. apply read_any_iff in R1. rewrite R1. apply A.
      + destruct M as (t & v & Q & ->). rewrite Q2 in Q. injection Q as <- <-. cbn [fst snd]. apply read_any_iff in R2. rewrite R2. apply A.
      + destruct M as (t & Q & ->). rewrite Q3 in Q. injection Q as <-. cbn [fst snd]. apply read_any_iff in R3. rewrite R3. reflexivity.
  Qed.

  (* C70: for every session, every choice of forms and every database that takes literals for their values. *)
  Theorem C70_session : forall (g : basis) e, sort_contract o_sort -> tables_take_literals g e ->
    forall (k : rules g) l rs, Forall2 (fun x r => described_as (m := Inline e) (snd x) r) l rs ->
    (exists ms, sent_all e l ms)
    /\ forall ms, sent_all e l ms -> forall db : tabledb g, session k db ms = follow k db rs.
  Proof.
    intros g e C L k l rs F. induction F as [|[f st] r l rs H F [[ms IH1] IH2]].
    - split; [exists []; constructor|]. intros ms M db. inversion M; subst. reflexivity.
    - cbn [snd] in H. destruct (obeyed g e C L k st r H) as [M1 M2]. split.
      + destruct (M1 f) as [m Hm]. exists (m :: ms). constructor; [exact Hm|exact IH1].
      + intros ms' M db. inversion M as [|? m ? ms0 Hm M']; subst. cbn [session follow]. cbn [fst snd] in Hm. rewrite (M2 f m Hm db).
        destruct (act k db r) as [[out db']|]; rewrite (IH2 ms0 M'); reflexivity.
  Qed.

  (* C70: with Query() and NamedQuery() only, for every database. *)
  Lemma obeyed_bound : forall (g : basis) e, sort_contract o_sort ->
    forall (k : rules g) st r, described_as (m := Bound) st r ->
    (forall f, f <> ByString -> exists m, sent_as e f st m) /\ forall f m, f <> ByString -> sent_as e f st m -> forall db : tabledb g, obey k db m = act k db r.
  Proof.
    intros g e C k st r H.
    assert (X : exists t1 v1 t2 v2, query st = Ok (t1, v1) /\ named_query st = Ok (t2, v2) /\ reads_as (numbered v1) t1 r /\ reads_as (named v2) t2 r).
    { destruct st as [s|i|u|d], r as [[b]|b|b|b]; try contradiction; cbn [described_as] in H.
      - destruct H as [H N]. destruct (C49_select_read_back s b H N) as (t1 & v1 & Q1 & R1), (C53_select_named_read_back s b H N) as (t2 & v2 & Q2 & R2).
        exists t1, v1, t2, v2. repeat (split; [assumption|]). assumption.
      - destruct (C52_insert_read_back i b C H) as (t1 & v1 & Q1 & R1), (C53_insert_named_read_back i b C H) as (t2 & v2 & Q2 & R2).
        exists t1, v1, t2, v2. repeat (split; [assumption|]). assumption.
      - destruct H as [H N]. destruct (C51_update_read_back u b C H N) as (t1 & v1 & Q1 & R1), (C53_update_named_read_back u b C H N) as (t2 & v2 & Q2 & R2).
        exists t1, v1, t2, v2. repeat (split; [assumption|]). assumption.
      - destruct (C50_delete_read_back d b H) as (t1 & v1 & Q1 & R1), (C53_delete_named_read_back d b H) as (t2 & v2 & Q2 & R2).
        exists t1, v1, t2, v2. repeat (split; [assumption|]). assumption. }
    destruct X as (t1 & v1 & t2 & v2 & Q1 & Q2 & R1 & R2). split.
    - intros [] N; [| |congruence]; eexists; cbn [sent_as]; [exists t1, v1|exists t2, v2]; (split; [assumption|reflexivity]).
    - intros [] m N M db; cbn [sent_as] in M; unfold obey; [| |congruence].
      + destruct M as (t & v & Q & ->). rewrite Q1 in Q. injection Q as <- <-. cbn [fst snd]. apply read_any_iff in R1. rewrite R1. reflexivity.
      + destruct M as (t & v & Q & ->). rewrite Q2 in Q. injection Q as <- <-. cbn [fst snd]. apply read_any_iff in R2. rewrite R2. reflexivity.
  Qed.
  Theorem C70_session_with_arguments : forall (g : basis) e, sort_contract o_sort ->
    forall (k : rules g) l rs, Forall2 (fun x r => fst x <> ByString /\ described_as (m := Bound) (snd x) r) l rs ->
    (exists ms, sent_all e l ms)
    /\ forall ms, sent_all e l ms -> forall db : tabledb g, session k db ms = follow k db rs.
  Proof.
    intros g e C k l rs F. induction F as [|[f st] r l rs [N H] F [[ms IH1] IH2]].
    - split; [exists []; constructor|]. intros ms M db. inversion M; subst. reflexivity.
    - cbn [fst snd] in N, H. destruct (obeyed_bound g e C k st r H) as [M1 M2]. split.
      + destruct (M1 f N) as [m Hm]. exists (m :: ms). constructor; [exact Hm|exact IH1].
      + intros ms' M db. inversion M as [|? m ? ms0 Hm M']; subst. cbn [session follow]. cbn [fst snd] in Hm. rewrite (M2 f m N Hm db).
        destruct (act k db r) as [[out db']|]; rewrite (IH2 ms0 M'); reflexivity.
  Qed.

  (* C70: a session of Selects changes no table and gives each time what the Select gives alone. *)
  Theorem C70_selects : forall (g : basis) e, sort_contract o_sort ->
    forall (k : rules g) l bs, Forall2 (fun x b => fst x <> ByString /\ exists s, snd x = StSelect s /\ sel_says (m := Bound) s b /\ q_items b <> []) l bs ->
    forall ms, sent_all e l ms -> forall db : tabledb g,
    session k db ms = (map (fun b => Some (means (Query b) db nothing)) bs, db).
  Proof.
    intros g e C k l bs F ms M db.
    assert (F' : Forall2 (fun x r => fst x <> ByString /\ described_as (m := Bound) (snd x) r) l (map (fun b => ReadSelect (Query b)) bs)).
    { clear ms M. induction F as [|[f st] b l bs (N & s & E & H) F IH]; [constructor|]. cbn [map]. constructor; [|exact IH]. split; [exact N|]. rewrite E. exact H. }
    rewrite (proj2 (C70_session_with_arguments g e C k l _ F') ms M db). clear F F' M.
    induction bs as [|b bs IH]; [reflexivity|]. cbn [map follow act]. rewrite IH. reflexivity.
  Qed.
End Sessions.

Print Assumptions C70_one_kind.
Print Assumptions C70_session.
Print Assumptions C70_session_with_arguments.
Print Assumptions C70_selects.

(* ------------------------------------------------------------------------- *)
(* Examples                                                                    *)
(* ------------------------------------------------------------------------- *)

Section Examples.
  #[local] Existing Instance go_oracle.

  (* Insert("news").Columns("user_id", "title").Values(2, "y") *)
  Definition new_news0 : insert := match lk_insert (GStr "news") with Ok i => i | _ => new_insert end.
  Definition new_news1 : insert := match ins_step new_news0 (InsColumns [GStr "user_id"; GStr "title"]) with Ok i => i | _ => new_insert end.
  Definition new_news : insert := match ins_step new_news1 (InsValues [GInt KInt 2; GStr "y"]) with Ok i => i | _ => new_insert end.
  Definition new_news_body : ibody := {| in_table := news; in_columns := [["user_id"]; ["title"]]; in_rows := [[MVal (GInt KInt64 2); MVal (GStr "y")]];
    in_conflict := None; in_returning := [] |}.
  Lemma new_news_says : forall e, ins_says (m := Inline e) new_news new_news_body.
  Proof.
    intro e. refine (ins_values new_news1 {| in_table := news; in_columns := [["user_id"]; ["title"]]; in_rows := []; in_conflict := None; in_returning := [] |}
      [GInt KInt 2; GStr "y"] [MVal (GInt KInt64 2); MVal (GStr "y")] new_news _ _ _).
    - refine (ins_columns new_news0 {| in_table := news; in_columns := []; in_rows := []; in_conflict := None; in_returning := [] |}
        [GStr "user_id"; GStr "title"] [["user_id"]; ["title"]] new_news1 _ _ _ _); [|discriminate| |vm_compute; reflexivity].
      + apply (ins_new (GStr "news")); [apply news_says|vm_compute; reflexivity].
      + apply columns_each. apply (columns_string "user_id" ["user_id"] [GStr "title"] [["title"]]); [apply ConvP.items_split; reflexivity|repeat constructor|].
        apply (columns_string "title" ["title"] [] []); [apply ConvP.items_split; reflexivity|repeat constructor|apply columns_none].
    - split; [discriminate|]. split; [reflexivity|]. constructor; [apply value_bound; reflexivity|]. constructor; [apply value_bound; destruct e; reflexivity|constructor].
    - vm_compute. reflexivity.
  Qed.

  (* Update("news").Set(Pair("title", "z")).Where(Condition("title").Equal("y")) *)
  Definition no_news : update := {| u_with := []; u_table := lk_table "news"; u_only := false; u_from := []; u_set := empty_pairs; u_where := ENil; u_returning := []; u_comment := "" |}.
  Definition y_to_z0 : update := match lk_update (GStr "news") with Ok u => u | _ => no_news end.
  Definition y_to_z1 : update := match upd_step y_to_z0 (UpdSet [GPair (GStr "title") (GStr "z")]) with Ok u => u | _ => no_news end.
  Definition y_to_z : update := match upd_step y_to_z1 (UpdWhere is_y) with Ok u => u | _ => no_news end.
  Definition y_to_z_body : ubody := {| up_with := []; up_table := news; up_set := SetEach [(["title"], MVal (GStr "z"))]; up_from := [];
    up_where := Some (FCmp (MName ["title"]) "=" (MVal (GStr "y"))); up_returning := [] |}.
  Lemma y_to_z_says : forall e, upd_says (m := Inline e) y_to_z y_to_z_body.
  Proof.
    intro e. refine (upd_where y_to_z1 {| up_with := []; up_table := news; up_set := SetEach [(["title"], MVal (GStr "z"))]; up_from := []; up_where := None;
      up_returning := [] |} is_y (FCmp (MName ["title"]) "=" (MVal (GStr "y"))) y_to_z _ _ _).
    - refine (upd_set y_to_z0 {| up_with := []; up_table := news; up_set := SetEach []; up_from := []; up_where := None; up_returning := [] |}
        [GPair (GStr "title") (GStr "z")] [] [(["title"], MVal (GStr "z"))] y_to_z1 _ _ _ _); [|reflexivity| |vm_compute; reflexivity].
      + apply (upd_new (GStr "news")); [apply news_says|vm_compute; reflexivity].
      + apply pairs_pair; [|apply pairs_none]. split; cbn [fst snd]; [apply (key_string "title"); reflexivity|].
        apply source_value, value_bound. destruct e; reflexivity.
    - apply (says_cmp "title" OpEqual (GStr "y")); [reflexivity| |reflexivity]. apply operand_value, value_bound. destruct e; reflexivity.
    - vm_compute. reflexivity.
  Qed.

  Definition work : list (form * stmt) :=
    [(ByQuery, StInsert new_news); (ByString, StSelect the_sub); (ByNamedQuery, StDelete gone); (ByQuery, StUpdate y_to_z); (ByNamedQuery, StSelect the_sub)].
  Definition work_says : list reading :=
    [ReadInsert new_news_body; ReadSelect (Query sub_body); ReadDelete gone_body; ReadUpdate y_to_z_body; ReadSelect (Query sub_body)].
  Lemma work_described : forall e, Forall2 (fun x r => described_as (m := Inline e) (snd x) r) work work_says.
  Proof.
    intro e. constructor; [apply new_news_says|]. constructor; [split; [apply sub_inline|discriminate]|]. constructor; [apply gone_says|].
    constructor; [split; [apply y_to_z_says|exact I]|]. constructor; [split; [apply sub_inline|discriminate]|constructor].
  Qed.
  Definition free_rules : rules bl := Build_rules bl (fun _ _ => CNull) (fun _ _ _ _ => false).
  Example C70_session_met : forall ms, sent_all false work ms -> session free_rules (board [] : tabledb bl) ms = follow free_rules (board [] : tabledb bl) work_says.
  Proof. intros ms M. exact (proj2 (C70_session bl false AssignP.insertion_contract (bl_literals false) free_rules work work_says (work_described false)) ms M (board [])). Qed.

  (* the texts, and what they do: the rows of the five statements, then users and titles of news *)
  Definition work_texts : list (env * string) :=
    [(numbered [GInt KInt 2; GStr "y"], "INSERT INTO ""news"" (""user_id"", ""title"") VALUES ($1, $2)");
     (no_args false, "SELECT ""user_id"" FROM ""news"" WHERE (""title"" = 'y')");
     (named [("arg_1", GStr "y")], "DELETE FROM ""users"" WHERE (""id"" IN (SELECT ""user_id"" FROM ""news"" WHERE (""title"" = :arg_1)))");
     (numbered [GStr "z"; GStr "y"], "UPDATE ""news"" SET ""title"" = $1 WHERE (""title"" = $2)");
     (named [("arg_1", GStr "y")], "SELECT ""user_id"" FROM ""news"" WHERE (""title"" = :arg_1)")].
  Lemma work_sent : sent_all false work work_texts.
  Proof.
    constructor; [eexists _, _; split; [vm_compute; reflexivity|reflexivity]|]. constructor; [eexists; split; [vm_compute; reflexivity|reflexivity]|].
    constructor; [eexists _, _; split; [vm_compute; reflexivity|reflexivity]|]. constructor; [eexists _, _; split; [vm_compute; reflexivity|reflexivity]|].
    constructor; [eexists _, _; split; [vm_compute; reflexivity|reflexivity]|constructor].
  Qed.
  Definition seen (x : list (option (list (list cell))) * tabledb bl) : list (option (list (list cell))) * (list cell * list cell) :=
    (fst x, (map (fun r => r "id") (snd (snd x ["users"])), map (fun r => r "title") (snd (snd x ["news"])))).
  Example C70_session_ex : seen (session free_rules (board [] : tabledb bl) work_texts)
    = ([Some []; Some [[CInt 1]; [CInt 3]; [CInt 3]; [CInt 2]]; Some []; Some []; Some []],
       ([], [CStr "x"; CStr "z"; CStr "z"; CStr "z"; CStr "z"])).
  Proof. vm_compute. reflexivity. Qed.

  (* with arguments only; in another order, so with another outcome *)
  Lemma sub_bound : sel_says (m := Bound) the_sub sub_body.
  Proof.
    refine (sel_where sub2 (set_from [news] (set_items (columns_item [["user_id"]]) empty_body)) is_y
              (FCmp (MName ["title"]) "=" (MVal (GStr "y"))) the_sub _ _ _).
    - refine (sel_from sub1 (set_items (columns_item [["user_id"]]) empty_body) [GStr "news"] [news] sub2 _ _ _); [|constructor; [apply news_says|constructor]|reflexivity].
      refine (sel_columns new_select empty_body [GStr "user_id"] (columns_item [["user_id"]]) sub1 sel_new _ _ _); [discriminate| |reflexivity].
      apply args_items. apply (items_string "user_id" ["user_id"] [] []); [apply ConvP.items_split; reflexivity|repeat constructor|apply items_none].
    - apply (says_cmp "title" OpEqual (GStr "y")); [reflexivity| |reflexivity]. apply operand_value, value_bound. reflexivity.
    - vm_compute. reflexivity.
  Qed.
  Definition looks : list (form * stmt) := [(ByQuery, StSelect the_sub); (ByNamedQuery, StSelect the_sub)].
  Example C70_selects_met : forall ms, sent_all false looks ms ->
    session free_rules (board [] : tabledb bl) ms = ([Some [[CInt 1]; [CInt 3]; [CInt 3]]; Some [[CInt 1]; [CInt 3]; [CInt 3]]], board []).
  Proof.
    intros ms M. refine (C70_selects (O := go_oracle) bl false AssignP.insertion_contract free_rules looks [sub_body; sub_body] _ ms M (board [])).
    repeat (constructor; [split; [discriminate|exists the_sub; split; [reflexivity|split; [exact sub_bound|discriminate]]]|]). constructor.
  Qed.
  Example C70_session_with_arguments_met : Forall2 (fun x r => fst x <> ByString /\ described_as (m := Bound) (snd x) r) looks [ReadSelect (Query sub_body); ReadSelect (Query sub_body)].
  Proof. repeat (constructor; [split; [discriminate|split; [exact sub_bound|discriminate]]|]). constructor. Qed.
  Example C70_order_ex : seen (session free_rules (board [] : tabledb bl) (rev work_texts))
    = ([Some [[CInt 1]; [CInt 3]; [CInt 3]]; Some []; Some []; Some []; Some []],
       ([CInt 1; CInt 2; CInt 3], [CStr "x"; CStr "z"; CStr "z"; CStr "z"; CStr "y"])).
  Proof. vm_compute. reflexivity. Qed.

  (* WITH begins both a Select and an Update *)
  Definition kind (r : option reading) : string :=
    match r with Some (ReadSelect _) => "select" | Some (ReadDelete _) => "delete" | Some (ReadUpdate _) => "update" | Some (ReadInsert _) => "insert" | None => "" end.
  Example C70_one_kind_ex : kind (read_any (numbered [GInt KInt 1]) "WITH w AS (SELECT ""a"" FROM ""u"") UPDATE ""t"" SET ""a"" = $1") = "update"
    /\ kind (read_any (numbered []) "WITH w AS (SELECT ""a"" FROM ""u"") SELECT ""a"" FROM ""w""") = "select"
    /\ kind (read_any (numbered []) "EXPLAIN SELECT ""a"" FROM ""w""") = "select"
    /\ kind (read_any (numbered []) "EXPLAIN UPDATE ""t"" SET ""a"" = 1") = "".
  Proof. repeat split; vm_compute; reflexivity. Qed.
End Examples.
