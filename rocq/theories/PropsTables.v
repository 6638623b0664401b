(* C64: carried out by a database, a Select on several tables shows exactly the combinations of
   rows that From and the joins describe, and a Delete with Using removes exactly the rows that
   have a partner. *)
From Verif Require Import GrammarReadP PropsGrammar EffectP TablesP PropsEffect.
From Verif Require JoinP PropsJoin.

(* ------------------------------------------------------------------------- *)
(* Lemmas                                                                      *)
(* ------------------------------------------------------------------------- *)

Lemma flat_map_same {A B} (f h : A -> list B) : (forall x, f x = h x) -> forall l, flat_map f l = flat_map h l.
Proof. intros E. induction l as [|x l IH]; [reflexivity|]. cbn [flat_map]. rewrite E, IH. reflexivity. Qed.
Lemma existsb_same {A} (f h : A -> bool) : (forall x, f x = h x) -> forall l, existsb f l = existsb h l.
Proof. intros E. induction l as [|x l IH]; [reflexivity|]. cbn [existsb]. rewrite E, IH. reflexivity. Qed.

Lemma flat_map_length {A B} (f : A -> list B) : (forall x, f x <> []) -> forall l, List.length l <= List.length (flat_map f l).
Proof.
  intros N. induction l as [|x l IH]; [reflexivity|]. cbn [flat_map List.length]. rewrite app_length.
  specialize (N x). destruct (f x); [congruence|]. cbn [List.length]. lia.
Qed.

(* The same kind, the same table and a condition that is true of the same rows. *)
Definition same_join {g} (db : tables g) (j k : list string * tableref * formula) : Prop :=
  fst j = fst k /\ forall v, wtruth db v (snd j) = wtruth db v (snd k).

Lemma joined_same {g} (db : tables g) : forall f h, (forall v, wtruth db v f = wtruth db v h) ->
  forall ts kw t left, joined_with db ts kw t f left = joined_with db ts kw t h left.
Proof.
  intros f h E ts kw t left.
  assert (Eo : forall sc, on db f sc = on db h sc) by (intro sc; unfold on; rewrite E; reflexivity).
  assert (Ep : forall sc, partners db t f sc = partners db t h sc).
  { intro sc. unfold partners. apply filter_ext, Eo. }
  assert (Ei : flat_map (partners db t f) left = flat_map (partners db t h) left) by (apply flat_map_same, Ep).
  assert (El : flat_map (fun sc => match partners db t f sc with [] => [(sc ++ [(t, no_row)])%list] | l => l end) left
             = flat_map (fun sc => match partners db t h sc with [] => [(sc ++ [(t, no_row)])%list] | l => l end) left).
  { apply flat_map_same. intro sc. rewrite Ep. reflexivity. }
  assert (Er : filter (fun r => negb (existsb (fun sc => on db f (sc ++ [(t, r)])%list) left)) (db (tb_name t))
             = filter (fun r => negb (existsb (fun sc => on db h (sc ++ [(t, r)])%list) left)) (db (tb_name t))).
  { apply filter_ext. intro r. f_equal. apply existsb_same. intro sc. apply Eo. }
  unfold joined_with. rewrite Ei, El, Er. reflexivity.
Qed.
Lemma all_joined_same {g} (db : tables g) : forall js ks, Forall2 (same_join db) js ks ->
  forall ts left, all_joined db ts js left = all_joined db ts ks left.
Proof.
  intros js ks F. induction F as [|[[kw t] f] [[kw' t'] h] js ks [E Et] F IH]; intros ts left; [reflexivity|].
  cbn [fst snd] in *. injection E as <- <-. cbn [all_joined]. rewrite (joined_same db f h Et). apply IH.
Qed.
Lemma from_same {g} (db : tables g) : forall js ks, Forall2 (same_join db) js ks ->
  forall ts, from_clause db ts js = from_clause db ts ks.
Proof.
  intros js ks F. induction ts as [|t ts IH]; [reflexivity|]. destruct ts as [|t' ts].
  - apply all_joined_same, F.
  - cbn [from_clause]. cbn [from_clause] in IH. rewrite IH. reflexivity.
Qed.

Lemma from_one {g} (db : tables g) : forall t1 kw t2 f,
  from_clause db [t1] [(kw, t2, f)] = joined_with db [t1] kw t2 f (map (fun r => [(t1, r)]) (db (tb_name t1))).
Proof. reflexivity. Qed.

Lemma in_partners {g} (db : tables g) : forall t1 t2 f r1 sc,
  In sc (partners db t2 f [(t1, r1)]) <-> exists r2, In r2 (db (tb_name t2)) /\ sc = [(t1, r1); (t2, r2)]
    /\ wtruth db (named_in [(t1, r1); (t2, r2)]) f = Some true.
Proof.
  intros t1 t2 f r1 sc. unfold partners, beside. rewrite filter_In, in_map_iff. split.
  - intros [(r2 & E & I2) H]. exists r2. split; [exact I2|]. subst sc. split; [reflexivity|].
    unfold on in H. cbn [app] in H. destruct (wtruth _ _ f) as [[]|]; try discriminate. reflexivity.
  - intros (r2 & I2 & -> & H). split; [exists r2; split; [reflexivity|exact I2]|]. unfold on. rewrite H. reflexivity.
Qed.
Lemma no_partners {g} (db : tables g) : forall t1 t2 f r1,
  partners db t2 f [(t1, r1)] = [] <->
  forall r2, In r2 (db (tb_name t2)) -> wtruth db (named_in [(t1, r1); (t2, r2)]) f <> Some true.
Proof.
  intros t1 t2 f r1. split.
  - intros E r2 I2 H. assert (X : In [(t1, r1); (t2, r2)] (partners db t2 f [(t1, r1)])).
    { apply in_partners. exists r2. repeat split; assumption. }
    rewrite E in X. exact X.
  - intro H. destruct (partners db t2 f [(t1, r1)]) as [|sc l] eqn:E; [reflexivity|]. exfalso.
    assert (X : In sc (partners db t2 f [(t1, r1)])) by (rewrite E; left; reflexivity).
    apply in_partners in X as (r2 & I2 & _ & T). exact (H r2 I2 T).
Qed.

Section Rows.
  Context {g : world} (db : tables g) (t1 t2 : tableref) (f : formula).
  Definition both (r1 r2 : wrow g) : naming g := named_in [(t1, r1); (t2, r2)].
  Definition match_on (r1 r2 : wrow g) : Prop := wtruth db (both r1 r2) f = Some true.

  Lemma in_inner : forall kw sc, hd "" kw = "INNER" ->
    (In sc (from_clause db [t1] [(kw, t2, f)]) <->
     exists r1 r2, In r1 (db (tb_name t1)) /\ In r2 (db (tb_name t2)) /\ match_on r1 r2 /\ sc = [(t1, r1); (t2, r2)]).
  Proof.
    intros kw sc K. destruct kw as [|w kw]; [discriminate|]. cbn [hd] in K. subst w.
    rewrite from_one. cbn [joined_with]. rewrite in_flat_map. split.
    - intros (s0 & I0 & I1). apply in_map_iff in I0 as (r1 & <- & I0). apply in_partners in I1 as (r2 & I2 & -> & T).
      exists r1, r2. repeat split; assumption.
    - intros (r1 & r2 & I1 & I2 & M & ->). exists [(t1, r1)]. split; [apply in_map_iff; exists r1; split; [reflexivity|exact I1]|].
      apply in_partners. exists r2. repeat split; assumption.
  Qed.
  Lemma in_left : forall kw sc, hd "" kw = "LEFT" ->
    (In sc (from_clause db [t1] [(kw, t2, f)]) <->
     exists r1 r2, In r1 (db (tb_name t1)) /\ sc = [(t1, r1); (t2, r2)]
       /\ ((In r2 (db (tb_name t2)) /\ match_on r1 r2)
           \/ (r2 = no_row /\ forall r, In r (db (tb_name t2)) -> ~ match_on r1 r))).
  Proof.
    intros kw sc K. destruct kw as [|w kw]; [discriminate|]. cbn [hd] in K. subst w.
    rewrite from_one. cbn [joined_with]. rewrite in_flat_map. split.
    - intros (s0 & I0 & I1). apply in_map_iff in I0 as (r1 & <- & I0).
      destruct (partners db t2 f [(t1, r1)]) as [|x l] eqn:E.
      + destruct I1 as [<-|[]]. exists r1, no_row. split; [exact I0|]. split; [reflexivity|]. right. split; [reflexivity|].
        apply no_partners, E.
      + rewrite <- E in I1. apply in_partners in I1 as (r2 & I2 & -> & T). exists r1, r2.
        split; [exact I0|]. split; [reflexivity|]. left. split; assumption.
    - intros (r1 & r2 & I1 & -> & [[I2 M]|[-> N]]); exists [(t1, r1)];
        (split; [apply in_map_iff; exists r1; split; [reflexivity|exact I1]|]).
      + assert (X : In [(t1, r1); (t2, r2)] (partners db t2 f [(t1, r1)])) by (apply in_partners; exists r2; repeat split; assumption).
        destruct (partners db t2 f [(t1, r1)]); [destruct X|exact X].
      + apply no_partners in N. rewrite N. left. reflexivity.
  Qed.
  Lemma in_right : forall kw sc, hd "" kw = "RIGHT" ->
    (In sc (from_clause db [t1] [(kw, t2, f)]) <->
     exists r1 r2, In r2 (db (tb_name t2)) /\ sc = [(t1, r1); (t2, r2)]
       /\ ((In r1 (db (tb_name t1)) /\ match_on r1 r2)
           \/ (r1 = no_row /\ forall r, In r (db (tb_name t1)) -> ~ match_on r r2))).
  Proof.
    intros kw sc K. destruct kw as [|w kw]; [discriminate|]. cbn [hd] in K. subst w.
    rewrite from_one. cbn [joined_with]. rewrite in_app_iff, in_flat_map. split.
    - intros [(s0 & I0 & I1)|I1].
      + apply in_map_iff in I0 as (r1 & <- & I0). apply in_partners in I1 as (r2 & I2 & -> & T). exists r1, r2.
        split; [exact I2|]. split; [reflexivity|]. left. split; assumption.
      + apply in_map_iff in I1 as (r2 & <- & I1). apply filter_In in I1 as [I2 H]. apply negb_true_iff in H.
        exists no_row, r2. split; [exact I2|]. split; [reflexivity|]. right. split; [reflexivity|].
        intros r Ir M. assert (X : existsb (fun s => on db f (s ++ [(t2, r2)])%list) (map (fun r => [(t1, r)]) (db (tb_name t1))) = true).
        { apply existsb_exists. exists [(t1, r)]. split; [apply in_map_iff; exists r; split; [reflexivity|exact Ir]|].
          unfold on. cbn [app]. unfold match_on, both in M. rewrite M. reflexivity. }
        rewrite H in X. discriminate.
    - intros (r1 & r2 & I2 & -> & [[I1 M]|[-> N]]).
      + left. exists [(t1, r1)]. split; [apply in_map_iff; exists r1; split; [reflexivity|exact I1]|].
        apply in_partners. exists r2. repeat split; assumption.
      + right. apply in_map_iff. exists r2. split; [reflexivity|]. apply filter_In. split; [exact I2|]. apply negb_true_iff.
        destruct (existsb _ _) eqn:E; [|reflexivity]. exfalso. apply existsb_exists in E as (sc & Is & H).
        apply in_map_iff in Is as (r & <- & Ir). apply (N r Ir). unfold match_on, both. unfold on in H. cbn [app] in H.
        destruct (wtruth _ _ f) as [[]|]; try discriminate. reflexivity.
  Qed.
End Rows.

Lemma wreplace_same {g} (db : tables g) : forall t rows, wreplace db t rows t = rows.
Proof. intros t rows. unfold wreplace, name_eqb. destruct (list_eq_dec string_dec t t); [reflexivity|congruence]. Qed.
Lemma wreplace_other {g} (db : tables g) : forall t t' rows, t <> t' -> wreplace db t rows t' = db t'.
Proof. intros t t' rows N. unfold wreplace, name_eqb. destruct (list_eq_dec string_dec t t'); [congruence|reflexivity]. Qed.

(* ------------------------------------------------------------------------- *)
(* Select                                                                      *)
(* ------------------------------------------------------------------------- *)

(* Select(args...).From(tables...).Join(...)...Where(...)...OrderBy(...).Limit(n).Offset(k) shows
   the items of the combinations of rows that meet the conditions, in the order asked for, and of
   these the asked window. *)
Theorem C64_select {O : Oracle} : forall (g : world) (db : tables g) args l froms ts js jl c fs os o p s,
  args <> [] -> args_say (m := Bound) args l -> l <> [] -> plain_items l = true ->
  Forall2 table_says froms ts -> Forall2 join_arg_says js jl ->
  conditions_say c fs -> Forall2 order_says os o -> window_ok p ->
  join_program args froms js c os p = Ok s ->
  selects db s (map (wdata db l) (in_window p (sorted_by o (filter (wmeets db fs) (map named_in (from_clause db ts jl)))))).
Proof.
  intros g db args l froms ts js jl c fs os o p s Na Ha Nl Pl Ht Hj Hc Ho Hp H.
  destruct (join_rows args l froms ts js jl c fs os o p s Na Ha Nl Pl Ht Hj Hc Ho Hp H) as (text & values & Q & R).
  exists text, values. split; [exact Q|apply R].
Qed.
Print Assumptions C64_select.

(* Select(Count("*")) counts these combinations. *)
Theorem C64_count {O : Oracle} : forall (g : world) (db : tables g) froms ts js jl c fs s,
  Forall2 table_says froms ts -> Forall2 join_arg_says js jl -> conditions_say c fs ->
  join_program [GSel (lk_count "*")] froms js c [] Everything = Ok s ->
  selects db s [[wnumber g (List.length (filter (wmeets db fs) (map named_in (from_clause db ts jl))))]].
Proof.
  intros g db froms ts js jl c fs s Ht Hj Hc H.
  destruct (join_counts froms ts js jl c fs s Ht Hj Hc H) as (text & values & Q & R).
  exists text, values. split; [exact Q|apply R].
Qed.
Print Assumptions C64_count.

Section Joins.
  Context {O : Oracle} (g : world) (db : tables g) (args : list gval) (l : list item) (from : gval) (t1 : tableref)
    (c : conditions) (fs : formulas).

  Lemma one_join : forall j kw t2 f s,
    args <> [] -> args_say (m := Bound) args l -> l <> [] -> plain_items l = true ->
    table_says from t1 -> conditions_say c fs ->
    join_arg_says j (kw, t2, f) -> join_program args [from] [j] c [] Everything = Ok s ->
    exists out, selects db s out /\ forall v, In v out <->
      exists sc, In sc (from_clause db [t1] [(kw, t2, f)]) /\ wmeets db fs (named_in sc) = true /\ v = wdata db l (named_in sc).
  Proof.
    intros j kw t2 f s Na Ha Nl Pl Ht Hc Hj H. eexists. split.
    - exact (C64_select g db args l [from] [t1] [j] [(kw, t2, f)] c fs [] [] Everything s Na Ha Nl Pl
        (Forall2_cons _ _ Ht (Forall2_nil _)) (Forall2_cons _ _ Hj (Forall2_nil _)) Hc (Forall2_nil _) I H).
    - intro v. cbn [in_window sorted_by]. rewrite in_map_iff. split.
      + intros (n & <- & I). apply filter_In in I as [I M]. apply in_map_iff in I as (sc & <- & I).
        exists sc. repeat split; assumption.
      + intros (sc & I & M & ->). exists (named_in sc). split; [reflexivity|]. apply filter_In. split; [|exact M].
        apply in_map_iff. exists sc. split; [reflexivity|exact I].
  Qed.
End Joins.

(* Select(args...).From(a).Join(b, on).Where(...)...: the pairs of a row of a and a row of b of
   which the condition of the join is true. *)
Theorem C64_inner {O : Oracle} : forall (g : world) (db : tables g) args l from t1 c fs j kw t2 f s,
  args <> [] -> args_say (m := Bound) args l -> l <> [] -> plain_items l = true ->
  table_says from t1 -> conditions_say c fs ->
  join_arg_says j (kw, t2, f) -> hd "" kw = "INNER" ->
  join_program args [from] [j] c [] Everything = Ok s ->
  exists out, selects db s out /\ forall v, In v out <->
    exists r1 r2, In r1 (db (tb_name t1)) /\ In r2 (db (tb_name t2)) /\
      let n := named_in [(t1, r1); (t2, r2)] in
      wtruth db n f = Some true /\ wmeets db fs n = true /\ v = wdata db l n.
Proof.
  intros g db args l from t1 c fs j kw t2 f s Na Ha Nl Pl Ht Hc Hj K H.
  destruct (one_join g db args l from t1 c fs j kw t2 f s Na Ha Nl Pl Ht Hc Hj H) as (out & S & E).
  exists out. split; [exact S|]. intro v. rewrite E. split.
  - intros (sc & I & M & ->). apply (in_inner db t1 t2 f kw sc K) in I as (r1 & r2 & I1 & I2 & T & ->).
    exists r1, r2. split; [exact I1|]. split; [exact I2|]. split; [exact T|]. split; [exact M|reflexivity].
  - intros (r1 & r2 & I1 & I2 & T & M & ->). exists [(t1, r1); (t2, r2)]. split; [|split; [exact M|reflexivity]].
    apply (in_inner db t1 t2 f kw _ K). exists r1, r2. repeat split; assumption.
Qed.
Print Assumptions C64_inner.

(* Join(b, on, types.LeftJoin): the rows of a that have no partner are kept, with NULLs in place
   of b. *)
Theorem C64_left {O : Oracle} : forall (g : world) (db : tables g) args l from t1 c fs j kw t2 f s,
  args <> [] -> args_say (m := Bound) args l -> l <> [] -> plain_items l = true ->
  table_says from t1 -> conditions_say c fs ->
  join_arg_says j (kw, t2, f) -> hd "" kw = "LEFT" ->
  join_program args [from] [j] c [] Everything = Ok s ->
  exists out, selects db s out /\ forall v, In v out <->
    exists r1 r2, In r1 (db (tb_name t1)) /\
      ((In r2 (db (tb_name t2)) /\ wtruth db (named_in [(t1, r1); (t2, r2)]) f = Some true)
       \/ (r2 = (fun _ => wnull g)
           /\ forall r, In r (db (tb_name t2)) -> wtruth db (named_in [(t1, r1); (t2, r)]) f <> Some true)) /\
      let n := named_in [(t1, r1); (t2, r2)] in wmeets db fs n = true /\ v = wdata db l n.
Proof.
  intros g db args l from t1 c fs j kw t2 f s Na Ha Nl Pl Ht Hc Hj K H.
  destruct (one_join g db args l from t1 c fs j kw t2 f s Na Ha Nl Pl Ht Hc Hj H) as (out & S & E).
  exists out. split; [exact S|]. intro v. rewrite E. split.
  - intros (sc & I & M & ->). apply (in_left db t1 t2 f kw sc K) in I as (r1 & r2 & I1 & -> & D).
    exists r1, r2. split; [exact I1|]. split; [exact D|]. split; [exact M|reflexivity].
  - intros (r1 & r2 & I1 & D & M & ->). exists [(t1, r1); (t2, r2)]. split; [|split; [exact M|reflexivity]].
    apply (in_left db t1 t2 f kw _ K). exists r1, r2. split; [exact I1|]. split; [reflexivity|exact D].
Qed.
Print Assumptions C64_left.

(* Join(b, on, types.RightJoin): the rows of b that have no partner are kept, with NULLs in place
   of a. *)
Theorem C64_right {O : Oracle} : forall (g : world) (db : tables g) args l from t1 c fs j kw t2 f s,
  args <> [] -> args_say (m := Bound) args l -> l <> [] -> plain_items l = true ->
  table_says from t1 -> conditions_say c fs ->
  join_arg_says j (kw, t2, f) -> hd "" kw = "RIGHT" ->
  join_program args [from] [j] c [] Everything = Ok s ->
  exists out, selects db s out /\ forall v, In v out <->
    exists r1 r2, In r2 (db (tb_name t2)) /\
      ((In r1 (db (tb_name t1)) /\ wtruth db (named_in [(t1, r1); (t2, r2)]) f = Some true)
       \/ (r1 = (fun _ => wnull g)
           /\ forall r, In r (db (tb_name t1)) -> wtruth db (named_in [(t1, r); (t2, r2)]) f <> Some true)) /\
      let n := named_in [(t1, r1); (t2, r2)] in wmeets db fs n = true /\ v = wdata db l n.
Proof.
  intros g db args l from t1 c fs j kw t2 f s Na Ha Nl Pl Ht Hc Hj K H.
  destruct (one_join g db args l from t1 c fs j kw t2 f s Na Ha Nl Pl Ht Hc Hj H) as (out & S & E).
  exists out. split; [exact S|]. intro v. rewrite E. split.
  - intros (sc & I & M & ->). apply (in_right db t1 t2 f kw sc K) in I as (r1 & r2 & I1 & -> & D).
    exists r1, r2. split; [exact I1|]. split; [exact D|]. split; [exact M|reflexivity].
  - intros (r1 & r2 & I1 & D & M & ->). exists [(t1, r1); (t2, r2)]. split; [|split; [exact M|reflexivity]].
    apply (in_right db t1 t2 f kw _ K). exists r1, r2. split; [exact I1|]. split; [reflexivity|exact D].
Qed.
Print Assumptions C64_right.

(* Without conditions a left join shows every row of a at least once, however few rows b has. *)
Theorem C64_left_loses_nothing {O : Oracle} : forall (g : world) (db : tables g) args l from t1 j kw t2 f s,
  args <> [] -> args_say (m := Bound) args l -> l <> [] -> plain_items l = true -> table_says from t1 ->
  join_arg_says j (kw, t2, f) -> hd "" kw = "LEFT" ->
  join_program args [from] [j] None [] Everything = Ok s ->
  exists out, selects db s out /\ List.length (db (tb_name t1)) <= List.length out
    /\ forall r1, In r1 (db (tb_name t1)) -> exists r2, In (wdata db l (named_in [(t1, r1); (t2, r2)])) out.
Proof.
  intros g db args l from t1 j kw t2 f s Na Ha Nl Pl Ht Hj K H. eexists. split; [|split].
  - exact (C64_select g db args l [from] [t1] [j] [(kw, t2, f)] None None [] [] Everything s Na Ha Nl Pl
      (Forall2_cons _ _ Ht (Forall2_nil _)) (Forall2_cons _ _ Hj (Forall2_nil _)) I (Forall2_nil _) I H).
  - cbn [in_window sorted_by]. rewrite map_length. replace (filter (wmeets db None) _) with (map named_in (from_clause db [t1] [(kw, t2, f)])).
    2:{ generalize (map named_in (from_clause db [t1] [(kw, t2, f)])). clear. intro m. induction m as [|x m IH]; [reflexivity|]. cbn [filter wmeets]. f_equal. exact IH. }
    rewrite map_length, from_one. destruct kw as [|w kw]; [discriminate|]. cbn [hd] in K. subst w. cbn [joined_with].
    rewrite <- (map_length (fun r => [(t1, r)]) (db (tb_name t1))). apply flat_map_length.
    intro sc. destruct (partners db t2 f sc); discriminate.
  - intros r1 I1. cbn [in_window sorted_by].
    assert (X : exists r2, In [(t1, r1); (t2, r2)] (from_clause db [t1] [(kw, t2, f)])).
    { destruct (partners db t2 f [(t1, r1)]) as [|x m] eqn:E.
      - exists no_row. apply (in_left db t1 t2 f kw _ K). exists r1, no_row. split; [exact I1|]. split; [reflexivity|]. right.
        split; [reflexivity|]. apply no_partners, E.
      - assert (X : In x (partners db t2 f [(t1, r1)])) by (rewrite E; left; reflexivity).
        apply in_partners in X as (r2 & I2 & _ & T). exists r2. apply (in_left db t1 t2 f kw _ K). exists r1, r2.
        split; [exact I1|]. split; [reflexivity|]. left. split; assumption. }
    destruct X as [r2 X]. exists r2. apply in_map. apply filter_In. split; [|reflexivity].
    apply in_map_iff. exists [(t1, r1); (t2, r2)]. split; [reflexivity|exact X].
Qed.
Print Assumptions C64_left_loses_nothing.

(* From(a, b): every row of a with every row of b. *)
Theorem C64_product {O : Oracle} : forall (g : world) (db : tables g) args l a b t1 t2 c fs s,
  args <> [] -> args_say (m := Bound) args l -> l <> [] -> plain_items l = true ->
  table_says a t1 -> table_says b t2 -> conditions_say c fs ->
  join_program args [a; b] [] c [] Everything = Ok s ->
  exists out, selects db s out /\ forall v, In v out <->
    exists r1 r2, In r1 (db (tb_name t1)) /\ In r2 (db (tb_name t2)) /\
      let n := named_in [(t1, r1); (t2, r2)] in wmeets db fs n = true /\ v = wdata db l n.
Proof.
  intros g db args l a b t1 t2 c fs s Na Ha Nl Pl H1 H2 Hc H. eexists. split.
  - exact (C64_select g db args l [a; b] [t1; t2] [] [] c fs [] [] Everything s Na Ha Nl Pl
      (Forall2_cons _ _ H1 (Forall2_cons _ _ H2 (Forall2_nil _))) (Forall2_nil _) Hc (Forall2_nil _) I H).
  - intro v. cbn [in_window sorted_by from_clause all_joined]. rewrite in_map_iff. split.
    + intros (n & <- & I). apply filter_In in I as [I M]. apply in_map_iff in I as (sc & <- & I).
      apply in_flat_map in I as (r1 & I1 & I). apply in_map_iff in I as (sc' & <- & I). apply in_map_iff in I as (r2 & <- & I2).
      exists r1, r2. split; [exact I1|]. split; [exact I2|]. split; [exact M|reflexivity].
    + intros (r1 & r2 & I1 & I2 & M & ->). exists (named_in [(t1, r1); (t2, r2)]). split; [reflexivity|]. apply filter_In.
      split; [|exact M]. apply in_map. apply in_flat_map. exists r1. split; [exact I1|]. apply in_map.
      apply in_map_iff. exists r2. split; [reflexivity|exact I2].
Qed.
Print Assumptions C64_product.

(* However the joins are written, as arguments or as text, what counts is the kind, the table and
   of which rows the condition is true. *)
Theorem C64_forms {O : Oracle} : forall (g : world) (db : tables g) args l froms ts js jl ks kl c fs os o p s s',
  args <> [] -> args_say (m := Bound) args l -> l <> [] -> plain_items l = true ->
  Forall2 table_says froms ts -> Forall2 join_arg_says js jl -> Forall2 join_arg_says ks kl ->
  Forall2 (fun j k => fst j = fst k /\ forall v, wtruth db v (snd j) = wtruth db v (snd k)) jl kl ->
  conditions_say c fs -> Forall2 order_says os o -> window_ok p ->
  join_program args froms js c os p = Ok s -> join_program args froms ks c os p = Ok s' ->
  exists out, selects db s out /\ selects db s' out.
Proof.
  intros g db args l froms ts js jl ks kl c fs os o p s s' Na Ha Nl Pl Ht Hj Hk E Hc Ho Hp H H'. eexists. split.
  - exact (C64_select g db args l froms ts js jl c fs os o p s Na Ha Nl Pl Ht Hj Hc Ho Hp H).
  - rewrite (from_same db jl kl E).
    exact (C64_select g db args l froms ts ks kl c fs os o p s' Na Ha Nl Pl Ht Hk Hc Ho Hp H').
Qed.
Print Assumptions C64_forms.

(* Join("INNER JOIN b ON x = y"), Join(b, On(x, y)) and Join(b, On(y, x)) show the same rows. *)
Theorem C64_text_and_on {O : Oracle} : forall (g : world) (db : tables g) args l froms ts ls txt b x y c fs os o p s s1 s2,
  (forall d e, wcompares g "=" d e = wcompares g "=" e d) ->
  args <> [] -> args_say (m := Bound) args l -> l <> [] -> plain_items l = true ->
  Forall2 table_says froms ts ->
  JoinSpec.writes_join ls "INNER JOIN" b {| JoinSpec.eq_left := x; JoinSpec.eq_right := y |} [] -> Scan.layout false ls txt ->
  plain_name b = true -> plain_name x = true -> plain_name y = true ->
  conditions_say c fs -> Forall2 order_says os o -> window_ok p ->
  join_program args froms [JoinText txt] c os p = Ok s ->
  join_program args froms [JoinOn (GStr b) (lk_on x y)] c os p = Ok s1 ->
  join_program args froms [JoinOn (GStr b) (lk_on y x)] c os p = Ok s2 ->
  exists out, selects db s out /\ selects db s1 out /\ selects db s2 out.
Proof.
  intros g db args l froms ts ls txt b x y c fs os o p s s1 s2 Sym Na Ha Nl Pl Ht W L Pb Px Py Hc Ho Hp H H1 H2.
  set (tb := {| tb_only := false; tb_name := parts_of b; tb_alias := [] |}).
  assert (J : join_arg_says (JoinText txt) (["INNER"; "JOIN"], tb, FCmp (MName (parts_of x)) "=" (MName (parts_of y)))).
  { apply (says_join_text ls txt ["INNER"; "JOIN"] b {| JoinSpec.eq_left := x; JoinSpec.eq_right := y |} []);
      [left; reflexivity|exact W|exact L|exact Pb|]. unfold plain_equality. cbn [map forallb JoinSpec.eq_left JoinSpec.eq_right]. rewrite Px, Py. reflexivity. }
  assert (T : table_says (GStr b) tb) by (apply table_string; exact Pb).
  assert (J1 := says_join_on _ tb _ _ T (on_equal x y Px Py)).
  assert (J2 := says_join_on _ tb _ _ T (on_equal y x Py Px)).
  assert (one : forall j k, join_arg_says j k -> Forall2 join_arg_says [j] [k]) by (intros j k X; constructor; [exact X|constructor]).
  eexists. split; [|split].
  - exact (C64_select g db args l froms ts _ _ c fs os o p s Na Ha Nl Pl Ht (one _ _ J) Hc Ho Hp H).
  - exact (C64_select g db args l froms ts _ _ c fs os o p s1 Na Ha Nl Pl Ht (one _ _ J1) Hc Ho Hp H1).
  - rewrite (from_same db [(["INNER"; "JOIN"], tb, FCmp (MName (parts_of x)) "=" (MName (parts_of y)))]
                          [(["INNER"; "JOIN"], tb, FCmp (MName (parts_of y)) "=" (MName (parts_of x)))]).
    + exact (C64_select g db args l froms ts _ _ c fs os o p s2 Na Ha Nl Pl Ht (one _ _ J2) Hc Ho Hp H2).
    + constructor; [|constructor]. split; [reflexivity|]. intro v. cbn [snd wtruth wdatum_in]. apply Sym.
Qed.
Print Assumptions C64_text_and_on.

(* ------------------------------------------------------------------------- *)
(* Delete                                                                      *)
(* ------------------------------------------------------------------------- *)

(* Delete(table).Using(others...).Where(...)... removes the rows for which some combination of
   rows of the others meets the conditions, and leaves the rest as it was. *)
Theorem C64_delete_using {O : Oracle} : forall (g : world) (db : tables g) table t others us c fs d,
  table_says table t -> Forall2 table_says others us -> others <> [] -> conditions_say c fs ->
  using_delete_program table others c = Ok d ->
  exists db', deletes db d db'
    /\ (exists keep, db' (tb_name t) = filter keep (db (tb_name t))
        /\ forall r, keep r = true <->
             forall sc, In sc (from_clause db us []) -> wmeets db fs (named_in ((t, r) :: sc)) = false)
    /\ forall t', t' <> tb_name t -> db' t' = db t'.
Proof.
  intros g db table t others us c fs d Ht Hu Nu Hc H.
  destruct (using_deletes table t others us c fs d Ht Hu Hc H) as (text & values & Q & R).
  eexists. split; [exists text, values; split; [exact Q|apply R]|]. split.
  - rewrite wreplace_same. eexists. split; [reflexivity|]. intro r. cbn beta. rewrite negb_true_iff.
    assert (Eu : match us with [] => [[]] | _ => from_clause db us [] end = from_clause db us []).
    { destruct us; [inversion Hu; subst; congruence|reflexivity]. }
    unfold removed. rewrite Eu. split.
    + intros E sc I. destruct (wmeets db fs (named_in ((t, r) :: sc))) eqn:M; [|reflexivity].
      assert (X : existsb (fun sc => wchosen db (whole_formula fs) (named_in ((t, r) :: sc))) (from_clause db us []) = true).
      { apply existsb_exists. exists sc. split; [exact I|]. rewrite wchosen_meets. exact M. }
      rewrite E in X. discriminate.
    + intro A. destruct (existsb _ _) eqn:E; [|reflexivity]. apply existsb_exists in E as (sc & I & M).
      rewrite wchosen_meets, (A sc I) in M. discriminate.
  - intros t' N. apply wreplace_other. congruence.
Qed.
Print Assumptions C64_delete_using.

(* With one other table: exactly the rows that meet the conditions together with some row of it. In
   particular, nothing is removed when that table is empty. *)
Theorem C64_delete_partners {O : Oracle} : forall (g : world) (db : tables g) table t other u c fs d,
  table_says table t -> table_says other u -> conditions_say c fs ->
  using_delete_program table [other] c = Ok d ->
  exists db', deletes db d db'
    /\ (forall r, In r (db' (tb_name t)) <-> In r (db (tb_name t))
          /\ forall r2, In r2 (db (tb_name u)) -> wmeets db fs (named_in [(t, r); (u, r2)]) = false)
    /\ (db (tb_name u) = [] -> db' (tb_name t) = db (tb_name t))
    /\ forall t', t' <> tb_name t -> db' t' = db t'.
Proof.
  intros g db table t other u c fs d Ht Hu Hc H.
  destruct (C64_delete_using g db table t [other] [u] c fs d Ht (Forall2_cons _ _ Hu (Forall2_nil _)) ltac:(discriminate) Hc H)
    as (db' & D & (keep & E & K) & T).
  cbn [from_clause all_joined] in K. exists db'. split; [exact D|]. split; [|split; [|exact T]].
  - intro r. rewrite E, filter_In, K. split; intros [I A]; (split; [exact I|]).
    + intros r2 I2. apply (A [(u, r2)]). apply in_map_iff. exists r2. split; [reflexivity|exact I2].
    + intros sc I2. apply in_map_iff in I2 as (r2 & <- & I2). apply A, I2.
  - intro Z. rewrite E. rewrite Z in K. cbn [map] in K. clear - K.
    induction (db (tb_name t)) as [|r rows IH]; [reflexivity|]. cbn [filter].
    destruct (keep r) eqn:Er; [f_equal; exact IH|]. exfalso. assert (X : keep r = true) by (apply K; intros sc []). congruence.
Qed.
Print Assumptions C64_delete_partners.

(* ------------------------------------------------------------------------- *)
(* Examples                                                                    *)
(* ------------------------------------------------------------------------- *)

Section Examples.
  #[local] Existing Instance go_oracle.
  #[local] Existing Instance Bound.

  Definition has_columns (t : name) : list string :=
    match t with
    | ["users"] => ["id"; "name"]
    | ["news"] => ["id"; "user_id"; "title"]
    | _ => []
    end.
  Definition wx : world := {|
    wdatum := gval; wnull := GNil; wnumber := fun n => GInt KInt64 (Z.of_nat n); wboolean := GBool;
    wenter := fun v => v; wcompares := ex_compare; wcall := fun f _ _ => GStr f;
    wcolumn := fun t c => existsb (String.eqb c) (has_columns t);
    wsort := fun o rows => match o with (_, "DESC") :: _ => rev rows | _ => rows end;
    wsubquery := fun _ _ _ => [] |}.
  Lemma wx_symmetric : forall d e, wcompares wx "=" d e = wcompares wx "=" e d.
  Proof.
    intros d e. destruct d, e; try reflexivity; cbn [wcompares wx ex_compare]; f_equal; [apply String.eqb_sym|apply Z.eqb_sym].
  Qed.

  Definition user (id : Z) (n : string) : wrow wx :=
    fun c => if String.eqb c "id" then GInt KInt id else if String.eqb c "name" then GStr n else GNil.
  Definition piece_of_news (id u : Z) (n : string) : wrow wx :=
    fun c => if String.eqb c "id" then GInt KInt id else if String.eqb c "user_id" then GInt KInt u
             else if String.eqb c "title" then GStr n else GNil.
  (* Two of three users have news; one piece of news has no user. *)
  Definition site : tables wx := fun t =>
    match t with
    | ["users"] => [user 1 "a"; user 2 "b"; user 3 "c"]
    | ["news"] => [piece_of_news 10 1 "x"; piece_of_news 11 1 "y"; piece_of_news 12 2 "z"; piece_of_news 13 7 "w"]
    | _ => []
    end.

  Definition u_table : tableref := {| tb_only := false; tb_name := ["users"]; tb_alias := ["u"] |}.
  Definition news_table : tableref := {| tb_only := false; tb_name := ["news"]; tb_alias := [] |}.
  Definition users_u : gval := GTable (table_as (lk_table "users") "u").
  Lemma users_u_say : table_says users_u u_table.
  Proof. apply table_value. apply (table_as_call (lk_table "users") false ["users"] [] "u" (table_new "users" eq_refl)). reflexivity. Qed.
  Lemma news_say : table_says (GStr "news") news_table.
  Proof. apply (table_string "news"). reflexivity. Qed.

  Definition on_user : expr := lk_on "u.id" "news.user_id".
  Definition f_user : formula := FCmp (MName ["u"; "id"]) "=" (MName ["news"; "user_id"]).
  Lemma on_user_say : on_says on_user f_user.
  Proof. exact (on_equal "u.id" "news.user_id" eq_refl eq_refl). Qed.

  Definition join_user (kw : list string) : join_arg := JoinAs (GStr "news") on_user kw.
  Lemma join_user_say : forall kw, In kw join_types -> join_arg_says (join_user kw) (kw, news_table, f_user).
  Proof. intros kw I. apply says_join_as; [apply news_say|apply on_user_say|exact I]. Qed.

  Lemma name_title_say : args_say [GStr "name, title"] [ItName ["name"] []; ItName ["title"] []].
  Proof. apply args_items. exact (strings_say "name, title" ["name"; " title"] [] [] eq_refl eq_refl items_none). Qed.

  Definition not_x : expr := EInfix (lk_condition (GStr "news.id")) (Some ">") (EValue (GInt KInt 10)).
  Definition wx_conds : conditions := Some (not_x, []).
  Definition wx_fs : formulas := Some (FCmp (MName ["news"; "id"]) ">" (MVal (GInt KInt 10)), []).
  Lemma wx_conds_say : conditions_say wx_conds wx_fs.
  Proof.
    split; [|constructor]. apply (says_cmp "news.id" OpGreaterThan (GInt KInt 10));
      [reflexivity|apply operand_value, value_bound; reflexivity|reflexivity].
  Qed.

  Definition shown_by (c : conditions) (kw : list string) : option (list (list gval)) :=
    match join_program [GStr "name, title"] [users_u] [join_user kw] c [] Everything with
    | Ok s => sent (StSelect s) (answer_select site)
    | _ => None
    end.
  Example C64_inner_ex : shown_by None ["INNER"; "JOIN"]
    = Some [[GStr "a"; GStr "x"]; [GStr "a"; GStr "y"]; [GStr "b"; GStr "z"]].
  Proof. vm_compute. reflexivity. Qed.
  Example C64_inner_where_ex : shown_by wx_conds ["INNER"; "JOIN"] = Some [[GStr "a"; GStr "y"]; [GStr "b"; GStr "z"]].
  Proof. vm_compute. reflexivity. Qed.
  Example C64_left_ex : shown_by None ["LEFT"; "JOIN"]
    = Some [[GStr "a"; GStr "x"]; [GStr "a"; GStr "y"]; [GStr "b"; GStr "z"]; [GStr "c"; GNil]].
  Proof. vm_compute. reflexivity. Qed.
  Example C64_right_ex : shown_by None ["RIGHT"; "OUTER"; "JOIN"]
    = Some [[GStr "a"; GStr "x"]; [GStr "a"; GStr "y"]; [GStr "b"; GStr "z"]; [GNil; GStr "w"]].
  Proof. vm_compute. reflexivity. Qed.
  (* a second join belongs to the result of the first *)
  Example C64_select_ex : exists s,
    join_program [GStr "name, title"] [GStr "news"; users_u]
      [JoinOn (GTable (table_as (lk_table "news") "m")) (lk_on "u.id" "m.user_id");
       JoinAs (GTable (table_as (lk_table "news") "k")) (lk_on "k.id" "m.user_id") ["LEFT"; "JOIN"]]
      wx_conds [lk_order "title" ["DESC"]] (Page 2 1) = Ok s
    /\ sent (StSelect s) (answer_select site) = Some [[GStr "a"; GStr "w"]; [GStr "a"; GStr "w"]].
  Proof. eexists. split; [vm_compute; reflexivity|]. vm_compute. reflexivity. Qed.
  Example C64_count_ex : exists s,
    join_program [GSel (lk_count "*")] [users_u] [join_user ["LEFT"; "JOIN"]] None [] Everything = Ok s
    /\ sent (StSelect s) (answer_select site) = Some [[GInt KInt64 4]].
  Proof. eexists. split; [vm_compute; reflexivity|]. vm_compute. reflexivity. Qed.
  Example C64_product_ex : exists s,
    join_program [GStr "name, title"] [users_u; GStr "news"] [] wx_conds [] (First 2) = Ok s
    /\ sent (StSelect s) (answer_select site) = Some [[GStr "a"; GStr "y"]; [GStr "a"; GStr "z"]].
  Proof. eexists. split; [vm_compute; reflexivity|]. vm_compute. reflexivity. Qed.

  Definition text_lexemes : list Scan.lexeme :=
    [Scan.Word "inner"; Scan.Word "JOIN"; Scan.Word "news"; Scan.Word "ON"; Scan.Word "u.id"; Scan.Sym "="; Scan.Word "news.user_id"].
  Lemma text_written : JoinSpec.writes_join text_lexemes "INNER JOIN" "news"
    {| JoinSpec.eq_left := "u.id"; JoinSpec.eq_right := "news.user_id" |} [].
  Proof.
    assert (N : forall w, JoinP.lexeme_okb (Scan.Word w) && negb (existsb (String.eqb (to_upper w)) Scan.sql_words) = true -> JoinSpec.name w).
    { intros w H. apply andb_prop in H. destruct H as [H1 H2]. apply PropsJoin.name_ok; [exact H1|].
      destruct (existsb _ _); [discriminate|reflexivity]. }
    apply (JoinSpec.join_written [Scan.Word "inner"; Scan.Word "JOIN"] _ "news" "ON"
      [Scan.Word "u.id"; Scan.Sym "="; Scan.Word "news.user_id"] _ [] []).
    - apply JoinSpec.type_inner; reflexivity.
    - apply N. vm_compute. reflexivity.
    - reflexivity.
    - apply (JoinSpec.condition_plain [Scan.Word "u.id"; Scan.Sym "="; Scan.Word "news.user_id"] _ [] []); [|constructor].
      split; [reflexivity|]. split; apply N; vm_compute; reflexivity.
    - constructor.
  Qed.
  Lemma text_laid_out : Scan.layout false text_lexemes "inner JOIN news ON u.id = news.user_id".
  Proof. apply (JoinP.spaced_layout text_lexemes). vm_compute. reflexivity. Qed.
  Example C64_text_and_on_ex : exists s s1 s2,
    join_program [GStr "name, title"] [users_u] [JoinText "inner JOIN news ON u.id = news.user_id"] wx_conds [] Everything = Ok s
    /\ join_program [GStr "name, title"] [users_u] [JoinOn (GStr "news") (lk_on "u.id" "news.user_id")] wx_conds [] Everything = Ok s1
    /\ join_program [GStr "name, title"] [users_u] [JoinOn (GStr "news") (lk_on "news.user_id" "u.id")] wx_conds [] Everything = Ok s2
    /\ sent (StSelect s2) (answer_select site) = Some [[GStr "a"; GStr "y"]; [GStr "b"; GStr "z"]].
  Proof. do 3 eexists. repeat (split; [vm_compute; reflexivity|]). vm_compute. reflexivity. Qed.

  (* Delete("users AS u").Using("news").Where(news.user_id = 7).And(name = "b") has a condition on
     each of the tables *)
  Definition of_seven : expr := EInfix (lk_condition (GStr "news.user_id")) (Some "=") (EValue (GInt KInt 7)).
  Definition named_b : expr := EInfix (lk_condition (GStr "name")) (Some "=") (EValue (GStr "b")).
  Example C64_delete_using_ex : exists d e,
    using_delete_program users_u [GStr "news"] (Some (of_seven, [(ByAnd, named_b)])) = Ok d
    /\ using_delete_program users_u [GStr "none"] (Some (of_seven, [(ByOr, named_b)])) = Ok e
    /\ option_map (fun db : tables wx => (map (fun r => r "name") (db ["users"]), List.length (db ["news"])))
         (sent (StDelete d) (answer_delete site)) = Some ([GStr "a"; GStr "c"], 4)
    /\ option_map (fun db : tables wx => List.length (db ["users"])) (sent (StDelete e) (answer_delete site)) = Some 3.
  Proof. do 2 eexists. repeat (split; [vm_compute; reflexivity|]). vm_compute. reflexivity. Qed.
End Examples.
