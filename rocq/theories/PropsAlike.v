(* C01 for programs: two programs that make the same calls, and differ only in the values that they
   pass as values, produce the same text. Alike.v says what such a pair of programs is. *)
From Coq Require Import String List ZArith.
From Verif Require Import Ast Write Api Parser Build Sql Template RenderP EraseP Sort PropsRender Alike AlikeP AlikeQ.
Import ListNotations.
Local Open Scope string_scope.

(* ------------------------------------------------------------------------- *)
(* Texts and arguments                                                         *)
(* ------------------------------------------------------------------------- *)

(* Query(): the same text, and each bound value of one stands for the bound value of the other; or
   the same panic. *)
Theorem C01_programs {O : Oracle} : forall (R : gval -> gval -> Prop), (forall v, R v v) ->
  forall s s', stmt_alike R s s' ->
  match query s, query s' with
  | Ok (text, vs), Ok (text', vs') => text = text' /\ Forall2 R vs vs'
  | Panic p, Panic p' => p = p'
  | _, _ => False
  end.
Proof.
  intros R Rr s s' H. destruct (stmt_rel R Rr s s' H) as [E V].
  pose proof (C01_text_independent_of_values s s' E) as T.
  destruct (query s) as [[t vs]|p] eqn:Q, (query s') as [[t' vs']|p'] eqn:Q'; try exact T.
  destruct (C02_placeholders_match_arguments _ _ _ Q) as (_ & _ & _ & ->).
  destruct (C02_placeholders_match_arguments _ _ _ Q') as (_ & _ & _ & ->).
  split; [apply T|exact V].
Qed.
Print Assumptions C01_programs.

(* NamedQuery(): and the same names. *)
Theorem C01_named_programs {O : Oracle} : forall (R : gval -> gval -> Prop), (forall v, R v v) ->
  forall s s', stmt_alike R s s' ->
  match named_query s, named_query s' with
  | Ok (text, m), Ok (text', m') => text = text' /\ map fst m = map fst m' /\ Forall2 R (map snd m) (map snd m')
  | Panic p, Panic p' => p = p'
  | _, _ => False
  end.
Proof.
  intros R Rr s s' H. destruct (stmt_rel R Rr s s' H) as [E V].
  pose proof (C01_named_text_independent_of_values s s' E) as T.
  pose proof (C03_named_panics_with_query s) as P. pose proof (C03_named_panics_with_query s') as P'.
  destruct (named_query s) as [[t m]|p] eqn:Q, (named_query s') as [[t' m']|p'] eqn:Q'; try exact T.
  destruct T as [T1 T2]. split; [exact T1|]. split; [exact T2|].
  destruct (query s) as [[u vs]|p] eqn:U; [|destruct (P p) as [X _]; specialize (X eq_refl); discriminate X].
  destruct (query s') as [[u' vs']|p'] eqn:U'; [|destruct (P' p') as [X _]; specialize (X eq_refl); discriminate X].
  destruct (C03_named_arguments _ _ _ _ _ U Q) as (_ & _ & _ & -> & _).
  destruct (C03_named_arguments _ _ _ _ _ U' Q') as (_ & _ & _ & -> & _).
  destruct (C02_placeholders_match_arguments _ _ _ U) as (_ & _ & _ & ->).
  destruct (C02_placeholders_match_arguments _ _ _ U') as (_ & _ & _ & ->). exact V.
Qed.
Print Assumptions C01_named_programs.

(* ------------------------------------------------------------------------- *)
(* Calls                                                                       *)
(* ------------------------------------------------------------------------- *)

(* Two calls return alike results, or both panic with the same panic. *)
Definition agree {A} (P : A -> A -> Prop) (r r' : res A) : Prop :=
  (exists a a', r = Ok a /\ r' = Ok a' /\ P a a') \/ (exists p, r = Panic p /\ r' = Panic p).

Lemma agree_of {A} (Q P : A -> A -> Prop) : forall r r', res_rel Q r r' ->
  (forall a a', r = Ok a -> r' = Ok a' -> P a a') -> agree P r r'.
Proof.
  intros [a|p] [a'|p'] H K; cbn in H; try contradiction; [left; exists a, a'; auto|right; exists p; subst; auto].
Qed.

(* Whether a call that makes an expression panics does not depend on the bound values either. *)
Theorem C01_expressions_agree : forall (R : gval -> gval -> Prop), (forall v, R v v) ->
  (forall l l' op g g', expr_alike R l l' -> arg_alike R g g' ->
     agree (expr_alike R) (cmp_expr l op g) (cmp_expr l' op g'))
  /\ (forall l l' gs gs', expr_alike R l l' -> list_alike R gs gs' ->
     agree (expr_alike R) (expr_in l gs) (expr_in l' gs') /\ agree (expr_alike R) (expr_not_in l gs) (expr_not_in l' gs'))
  /\ (forall id a a' b b', arg_alike R a a' -> arg_alike R b b' ->
     agree (expr_alike R) (ident_between id a b) (ident_between id a' b')
     /\ agree (expr_alike R) (ident_not_between id a b) (ident_not_between id a' b'))
  /\ (forall g g', arg_alike R g g' ->
     agree (expr_alike R) (lk_exists g) (lk_exists g') /\ agree (expr_alike R) (lk_not_exists g) (lk_not_exists g'))
  /\ (forall name g g', arg_alike R g g' ->
     agree (fun x x' => withs_alike R [x] [x']) (lk_with name g) (lk_with name g')).
Proof.
  intros R Rr. destruct (alike_all R Rr) as (XE & _ & _ & XA & _ & XL & _).
  split; [|split; [|split; [|split]]].
  - intros l l' op g g' Hl Hg. eapply agree_of; [apply (A_compare R); [apply XE, Hl|apply XA, Hg]|].
    intros e e' E E'. exact (ex_compare R l l' op g g' e e' Hl Hg E E').
  - intros l l' gs gs' Hl Hg. split.
    + eapply agree_of; [apply (A_of_in R "IN"); [apply XE, Hl|apply XL, Hg]|].
      intros e e' E E'. exact (ex_in R l l' gs gs' e e' Hl Hg E E').
    + eapply agree_of; [apply (A_of_in R "NOT IN"); [apply XE, Hl|apply XL, Hg]|].
      intros e e' E E'. exact (ex_not_in R l l' gs gs' e e' Hl Hg E E').
  - intros id a a' b b' Ha Hb. split.
    + eapply agree_of; [apply (A_of_between R id "BETWEEN" "AND"); [apply XA, Ha|apply XA, Hb]|].
      intros e e' E E'. exact (ex_between R id a a' b b' e e' Ha Hb E E').
    + eapply agree_of; [apply (A_of_between R id "NOT BETWEEN" "AND"); [apply XA, Ha|apply XA, Hb]|].
      intros e e' E E'. exact (ex_not_between R id a a' b b' e e' Ha Hb E E').
  - intros g g' Hg. pose proof (proj1 (XA _ _ Hg)) as K. split.
    + eapply (agree_of (fun _ _ => True)); [|intros e e' E E'; exact (ex_exists R g g' e e' Hg E E')].
      apply (res_rel_bind (A R)); [exact K|]. intros; exact I.
    + eapply (agree_of (fun _ _ => True)); [|intros e e' E E'; exact (ex_not_exists R g g' e e' Hg E E')].
      apply (res_rel_bind (A R)); [exact K|]. intros; exact I.
  - intros name g g' Hg. eapply agree_of; [apply (AW_of R); apply XA, Hg|].
    intros x x' E E'. exact (withs_cons R name g g' x x' [] [] Hg E E' (withs_nil R)).
Qed.
Print Assumptions C01_expressions_agree.

(* And so for the constructors and the methods of the builders. *)
Theorem C01_select_calls_agree : forall (R : gval -> gval -> Prop), (forall v, R v v) ->
  (forall l l', items_alike R l l' -> agree (select_alike R) (lk_select l) (lk_select l'))
  /\ (forall q q' c c', select_alike R q q' -> sel_call_alike R c c' ->
     agree (select_alike R) (sel_step q c) (sel_step q' c')).
Proof.
  intros R Rr. destruct (alike_all R Rr) as (_ & _ & _ & _ & _ & _ & XI & _ & XS & XC). split.
  - intros l l' H. eapply agree_of; [apply (call_columns R l l' (XI _ _ H)), (AS_same R Rr)|].
    intros q q' E E'. exact (select_new R l l' q q' H E E').
  - intros q q' c c' Hq Hc. eapply agree_of; [apply (XC _ _ Hc), (XS _ _ Hq)|].
    intros r r' E E'. exact (select_call R q q' c c' r r' Hq Hc E E').
Qed.
Print Assumptions C01_select_calls_agree.

Theorem C01_insert_calls_agree {O : Oracle} : forall (R : gval -> gval -> Prop), (forall v, R v v) ->
  (forall i i' c c', insert_alike R i i' -> ins_call_alike R c c' ->
     agree (insert_alike R) (ins_step i c) (ins_step i' c'))
  /\ (forall l l', sets_alike R l l' ->
     agree (fun g g' => conflict_alike R [g] [g']) (lk_do_update l) (lk_do_update l')).
Proof.
  intros R Rr. split.
  - intros i i' c c' Hi Hc. eapply agree_of; [apply (ins_call_rel R Rr c c' Hc), (insert_rel R Rr _ _ Hi)|].
    intros r r' E E'. exact (insert_call R i i' c c' r r' Hi Hc E E').
  - intros l l' H. eapply (agree_of (fun _ _ => True)); [|intros g g' E E'; exact (conflict_update R l l' g g' H E E')].
    apply (res_rel_bind (AP R)); [apply (AP_set R Rr), H|]. intros; exact I.
Qed.
Print Assumptions C01_insert_calls_agree.

Theorem C01_update_calls_agree : forall (R : gval -> gval -> Prop), (forall v, R v v) ->
  forall u u' c c', update_alike R u u' -> upd_call_alike R c c' ->
  agree (update_alike R) (upd_step u c) (upd_step u' c').
Proof.
  intros R Rr u u' c c' Hu Hc. eapply agree_of; [apply (upd_call_rel R Rr c c' Hc), (update_rel R Rr _ _ Hu)|].
  intros r r' E E'. exact (update_call R u u' c c' r r' Hu Hc E E').
Qed.
Print Assumptions C01_update_calls_agree.

Theorem C01_delete_calls_agree : forall (R : gval -> gval -> Prop), (forall v, R v v) ->
  forall d d' c c', delete_alike R d d' -> del_call_alike R c c' ->
  agree (delete_alike R) (del_step d c) (del_step d' c').
Proof.
  intros R Rr d d' c c' Hd Hc. eapply agree_of; [apply (del_call_rel R Rr c c' Hc), (delete_rel R Rr _ _ Hd)|].
  intros r r' E E'. exact (delete_call R d d' c c' r r' Hd Hc E E').
Qed.
Print Assumptions C01_delete_calls_agree.

(* ------------------------------------------------------------------------- *)
(* A program                                                                   *)
(* ------------------------------------------------------------------------- *)

(* Select("id").From("users").Where(Condition("name").Equal(name)).
     And(Condition("id").In(Select("user_id").From("orders").Where(Condition("state").In(states)))) *)
Definition orders_of (states : gval) : res select :=
  do c <- expr_in (lk_condition (GStr "state")) [states];
  do q <- lk_select [GStr "user_id"];
  sel_run q [SelFrom [GStr "orders"]; SelWhere c].
Definition users_named (name states : gval) : res select :=
  do sub <- orders_of states;
  do c <- cmp_expr (lk_condition (GStr "name")) OpEqual name;
  do c' <- expr_in (lk_condition (GStr "id")) [g_select sub];
  do q <- lk_select [GStr "id"];
  sel_run q [SelFrom [GStr "users"]; SelWhere c; SelAnd c'].

(* The calls of the program agree one after the other. *)
Lemma agree_bind {A B} (P : A -> A -> Prop) (Q : B -> B -> Prop) : forall r r' f f', agree P r r' ->
  (forall a a', P a a' -> agree Q (f a) (f' a')) -> agree Q (do a <- r; f a) (do a <- r'; f' a).
Proof.
  intros r r' f f' [(a & a' & -> & -> & H)|(p & -> & ->)] K; [apply K, H|]. right. exists p. split; reflexivity.
Qed.
Lemma agree_run (R : gval -> gval -> Prop) (Rr : forall v, R v v) : forall cs cs' q q',
  Forall2 (sel_call_alike R) cs cs' -> select_alike R q q' -> agree (select_alike R) (sel_run q cs) (sel_run q' cs').
Proof.
  intros cs cs' q q' H. revert q q'. induction H as [|c c' cs cs' Hc H IH]; intros q q' Hq.
  - left. exists q, q'. split; [reflexivity|]. split; [reflexivity|exact Hq].
  - apply (agree_bind (select_alike R)); [apply (proj2 (C01_select_calls_agree R Rr)); assumption|exact IH].
Qed.

(* Whatever the name and the states are, as long as there are as many states: one text. *)
Example C01_users_named : forall (R : gval -> gval -> Prop), (forall v, R v v) ->
  forall name name' v v' states states' l l',
  bound name = Some v -> bound name' = Some v' -> R v v' ->
  elements states = Some l -> elements states' = Some l' -> args_alike R l l' ->
  agree (select_alike R) (users_named name states) (users_named name' states').
Proof.
  intros R Rr name name' v v' states states' l l' B B' HR E E' L.
  destruct (C01_expressions_agree R Rr) as (XC & XI & _). destruct (C01_select_calls_agree R Rr) as (XS & _).
  apply (agree_bind (select_alike R)).
  { apply (agree_bind (expr_alike R)); [apply XI; [apply ex_same|eapply list_slice; eassumption]|]. intros c c' Hc.
    apply (agree_bind (select_alike R)); [apply XS, items_same|]. intros q q' Hq. apply (agree_run R Rr); [|exact Hq].
    constructor; [apply sel_same|]. constructor; [apply sel_where, Hc|constructor]. }
  intros sub sub' Hs. apply (agree_bind (expr_alike R)).
  { apply XC; [apply ex_same|]. eapply arg_one, one_bound; eassumption. }
  intros c c' Hc. apply (agree_bind (expr_alike R)); [apply XI; [apply ex_same|apply list_one, one_query, Hs]|].
  intros d d' Hd. apply (agree_bind (select_alike R)); [apply XS, items_same|]. intros q q' Hq.
  apply (agree_run R Rr); [|exact Hq].
  constructor; [apply sel_same|]. constructor; [apply sel_where, Hc|]. constructor; [apply sel_and, Hd|constructor].
Qed.

(* Two runs, with a harmless name and a hostile one; with states that are strings, and numbers. *)
Example C01_attacked :
  match users_named (GStr "bob") (GStrs ["paid"; "sent"]),
        users_named (GStr "x' OR '1' = '1") (GInts KInt [7%Z; 8%Z]) with
  | Ok q, Ok q' => exists text,
      query (O := go_oracle) (StSelect q) = Ok (text, [GStr "bob"; GStr "paid"; GStr "sent"])
      /\ query (O := go_oracle) (StSelect q') = Ok (text, [GStr "x' OR '1' = '1"; GInt KInt 7; GInt KInt 8])
  | _, _ => False
  end
  /\ args_alike (fun _ _ => True) (map GStr ["paid"; "sent"]) (map (GInt KInt) [7%Z; 8%Z])
  /\ bound (GStr "bob") <> None /\ bound (GStr "x' OR '1' = '1") <> None.
Proof.
  split; [vm_compute; eexists; split; reflexivity|]. split; [|split; discriminate].
  repeat (first [apply args_nil|apply args_cons; [eapply arg_one, one_bound; [reflexivity|reflexivity|exact I]|]]).
Qed.

(* ------------------------------------------------------------------------- *)
(* Programs that change rows                                                   *)
(* ------------------------------------------------------------------------- *)

(* Update("users").Set(Pair("name", name)).Where(Condition("id").Equal(id)) *)
Example C01_rename {O : Oracle} : forall (R : gval -> gval -> Prop), (forall v, R v v) ->
  forall name name' id id', bound name <> None -> bound name' <> None -> bound id <> None -> bound id' <> None ->
  (forall v v', bound name = Some v -> bound name' = Some v' -> R v v') ->
  (forall v v', bound id = Some v -> bound id' = Some v' -> R v v') ->
  let run := fun n i => do c <- cmp_expr (lk_condition (GStr "id")) OpEqual i;
                        do u <- lk_update (GStr "users");
                        upd_run u [UpdSet [GPair (GStr "name") n]; UpdWhere c] in
  agree (update_alike R) (run name id) (run name' id').
Proof.
  intros R Rr name name' id id' N N' I I' HN HI run.
  destruct (bound name) as [v|] eqn:B; [|congruence]. destruct (bound name') as [v'|] eqn:B'; [|congruence].
  destruct (bound id) as [w|] eqn:C; [|congruence]. destruct (bound id') as [w'|] eqn:C'; [|congruence].
  apply (agree_bind (expr_alike R)).
  { apply (C01_expressions_agree R Rr); [apply ex_same|]. eapply arg_one, one_bound; [exact C|exact C'|auto]. }
  intros c c' Hc. apply (agree_bind (update_alike R)).
  { left. eexists. eexists. split; [reflexivity|]. split; [reflexivity|]. eapply update_new with (g := GStr "users"). reflexivity. }
  intros u u' Hu. apply (agree_bind (update_alike R)).
  { apply (C01_update_calls_agree R Rr); [exact Hu|]. apply upd_set. constructor; [|constructor].
    apply set_pair. eapply arg_one, one_bound; [exact B|exact B'|auto]. }
  intros u1 u1' Hu1. apply (agree_bind (update_alike R)); [apply (C01_update_calls_agree R Rr); [exact Hu1|apply upd_where, Hc]|].
  intros u2 u2' Hu2. left. exists u2, u2'. split; [reflexivity|]. split; [reflexivity|exact Hu2].
Qed.

(* Insert("users").Columns("id", "name").Values(rows): as many rows of as many values. *)
Definition insert_rows {O : Oracle} (rows : list (list gval)) : res insert :=
  do i <- lk_insert (GStr "users");
  ins_run i [InsColumns [GStr "id"; GStr "name"]; InsValues [GAnyss rows]].
Example C01_insert_rows {O : Oracle} : forall (R : gval -> gval -> Prop), (forall v, R v v) ->
  forall rows rows', rows_alike R rows rows' -> agree (insert_alike R) (insert_rows rows) (insert_rows rows').
Proof.
  intros R Rr rows rows' H. apply (agree_bind (insert_alike R)).
  { left. eexists. eexists. split; [reflexivity|]. split; [reflexivity|]. eapply insert_new with (g := GStr "users"). reflexivity. }
  intros i i' Hi. apply (agree_bind (insert_alike R)).
  { apply (C01_insert_calls_agree R Rr); [exact Hi|apply ins_same]. }
  intros i1 i1' Hi1. apply (agree_bind (insert_alike R)).
  { apply (C01_insert_calls_agree R Rr); [exact Hi1|]. apply ins_values. eapply values_rows; [reflexivity|reflexivity|exact H]. }
  intros i2 i2' Hi2. left. exists i2, i2'. split; [reflexivity|]. split; [reflexivity|exact Hi2].
Qed.
Example C01_rows_alike : rows_alike (fun _ _ => True)
  [[GInt KInt 1; GStr "a"]; [GInt KInt 2; GStr "b"]] [[GStr "1); DROP TABLE users; --"; GBool true]; [GBytes "x"; GNilValuer]].
Proof.
  constructor; [|constructor; [|constructor]]; (apply list_several; [discriminate|]);
    repeat (first [apply args_nil|apply args_cons; [eapply arg_one, one_bound; [reflexivity|reflexivity|exact I]|]]).
Qed.

(* nil is not a value: a comparison with nil and one with a value have different texts, and nothing is
   bound for nil. *)
Example C01_nil_is_no_value :
  match cmp_expr (lk_condition (GStr "name")) OpEqual GNil, cmp_expr (lk_condition (GStr "name")) OpEqual (GStr "bob") with
  | Ok e, Ok e' => erase e <> erase e'
  | _, _ => False
  end.
Proof. vm_compute. discriminate. Qed.
