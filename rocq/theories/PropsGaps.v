(* C57: rendering panics exactly when something is missing. *)
From Coq Require Import Permutation.
From Verif Require Import AssignP Sort RenderP.
From Verif Require Import GapsNilP.
Local Open Scope list_scope.

(* ------------------------------------------------------------------------- *)
(* Statements                                                                  *)
(* ------------------------------------------------------------------------- *)

(* Query() and NamedQuery() panic exactly when something that has to be written is missing.
   [lacks_part] (Gaps.v) says what can be missing. *)
Theorem C57_panics_exactly {O : Oracle} : forall s, sort_contract o_sort -> ~ stmt_wraps_nil s ->
  ((exists p, query s = Panic p) <-> lacks_part s) /\ ((exists p, named_query s = Panic p) <-> lacks_part s).
Proof.
  intros s Hs W. destruct (statement_outcome (fun l => proj1 (Hs l)) s W) as [(t & E & N)|(p & E & G & _)];
    unfold query, named_query; rewrite E; cbn [bind].
  - split; (split; [intros (p & K); discriminate K|contradiction]).
  - split; (split; [intros _; exact G|intros _; exists p; reflexivity]).
Qed.
Print Assumptions C57_panics_exactly.

Theorem C57_returns_exactly {O : Oracle} : forall s, sort_contract o_sort -> ~ stmt_wraps_nil s ->
  ((exists r, query s = Ok r) <-> ~ lacks_part s) /\ ((exists r, named_query s = Ok r) <-> ~ lacks_part s).
Proof.
  intros s Hs W. destruct (statement_outcome (fun l => proj1 (Hs l)) s W) as [(t & E & N)|(p & E & G & _)];
    unfold query, named_query; rewrite E; cbn [bind].
  - split; (split; [intros _; exact N|intros _; eexists; reflexivity]).
  - split; (split; [intros (r & K); discriminate K|contradiction]).
Qed.
Print Assumptions C57_returns_exactly.

(* String() panics exactly when Query() does, or when a driver.Valuer among the arguments of
   Query() returns an error. *)
Theorem C57_string_exactly {O : Oracle} : forall s,
  ((exists r, to_string s = Ok r) <-> exists sql args, query s = Ok (sql, args) /\ Forall (fun v => valuer_error v = false) args).
Proof.
  intro s. rewrite query_template. destruct (template s) as [q|p] eqn:E.
  - pose proof (to_string_template s q E) as T. destruct (forallb printable (args q)) eqn:F.
    + split; [intros _|intros _; eexists; exact T]. do 2 eexists. split; [reflexivity|]. rewrite forallb_forall in F.
      apply Forall_forall. intros v I. specialize (F v I). rewrite printable_valuer in F. destruct (valuer_error v); [discriminate F|reflexivity].
    + destruct T as (p & T). split; [intros (r & K); congruence|]. intros (sql & a & K & Q). injection K as <- <-. exfalso.
      assert (forallb printable (args q) = true); [|congruence]. apply forallb_forall. intros v I. rewrite Forall_forall in Q.
      rewrite printable_valuer, (Q v I). reflexivity.
  - rewrite (to_string_panic s p E). split; [intros (r & K); discriminate K|intros (a & b & K & _); discriminate K].
Qed.
Print Assumptions C57_string_exactly.

(* The panics are those that package stmt documents, or the dereference of a nil that was given. *)
Theorem C57_panic_messages {O : Oracle} : forall s p, sort_contract o_sort -> ~ stmt_wraps_nil s -> query s = Panic p ->
  (exists m, p = PMsg m /\ In m documented) \/ (p = PNilDeref /\ nil_in s).
Proof.
  intros s p Hs W H. destruct (statement_outcome (fun l => proj1 (Hs l)) s W) as [(t & E & N)|(p' & E & G & K)];
    unfold query in H; rewrite E in H; cbn [bind] in H; [discriminate H|]. injection H as <-. exact K.
Qed.
Print Assumptions C57_panic_messages.

(* ------------------------------------------------------------------------- *)
(* The calls of the API                                                        *)
(* ------------------------------------------------------------------------- *)

(* The hypothesis of the theorems above: no expression made by calls of the API wraps nil, and
   no statement either when its calls are given such expressions. *)
Theorem C57_no_wrapped_nil : forall e, made e -> ~ wraps_nil e.
Proof. exact made_bare. Qed.
Print Assumptions C57_no_wrapped_nil.

Theorem C57_select_exactly {O : Oracle} : forall columns calls q0 q, sort_contract o_sort ->
  lk_select columns = Ok q0 -> sel_run q0 calls = Ok q ->
  (forall x, args_give columns x -> made x) -> (forall c x, In c calls -> sel_given c x -> made x) ->
  ((exists p, query (StSelect q) = Panic p) <-> gap (ESelect q)).
Proof.
  intros columns calls q0 q Hs H0 H F0 F.
  apply (C57_panics_exactly (StSelect q) Hs). exact (C57_no_wrapped_nil _ (made_select columns calls q0 q H0 H F0 F)).
Qed.
Print Assumptions C57_select_exactly.

Theorem C57_insert_exactly {O : Oracle} : forall g calls i0 i, sort_contract o_sort ->
  lk_insert g = Ok i0 -> ins_run i0 calls = Ok i -> (forall c x, In c calls -> ins_given c x -> made x) ->
  ((exists p, query (StInsert i) = Panic p) <-> lacks_part (StInsert i)).
Proof.
  intros g calls i0 i Hs H0 H F. apply (C57_panics_exactly (StInsert i) Hs).
  apply (insert_chain_bare g calls i0 i H0 H). intros c x I G. exact (C57_no_wrapped_nil x (F c x I G)).
Qed.
Print Assumptions C57_insert_exactly.

Theorem C57_update_exactly {O : Oracle} : forall g calls u0 u, sort_contract o_sort ->
  lk_update g = Ok u0 -> upd_run u0 calls = Ok u -> (forall c x, In c calls -> upd_given c x -> made x) ->
  ((exists p, query (StUpdate u) = Panic p) <-> lacks_part (StUpdate u)).
Proof.
  intros g calls u0 u Hs H0 H F. apply (C57_panics_exactly (StUpdate u) Hs).
  apply (update_chain_bare g calls u0 u H0 H). intros c x I G. exact (C57_no_wrapped_nil x (F c x I G)).
Qed.
Print Assumptions C57_update_exactly.

Theorem C57_delete_exactly {O : Oracle} : forall g calls d0 d, sort_contract o_sort ->
  lk_delete g = Ok d0 -> del_run d0 calls = Ok d -> (forall c x, In c calls -> del_given c x -> made x) ->
  ((exists p, query (StDelete d) = Panic p) <-> lacks_part (StDelete d)).
Proof.
  intros g calls d0 d Hs H0 H F. apply (C57_panics_exactly (StDelete d) Hs).
  apply (delete_chain_bare g calls d0 d H0 H). intros c x I G. exact (C57_no_wrapped_nil x (F c x I G)).
Qed.
Print Assumptions C57_delete_exactly.

(* ------------------------------------------------------------------------- *)
(* Conditions                                                                  *)
(* ------------------------------------------------------------------------- *)

(* Which conditions have everything: something to say, and nothing missing in it. *)
Theorem C57_comparisons : forall g o v e, cmp_expr (lk_condition g) o v = Ok e ->
  (solid e <-> g <> GStr "" /\ forall x, expr_of v = Some x -> solid x).
Proof.
  intros g o v e H. rewrite (solid_cmp _ _ _ _ H). unfold lk_condition, solid_value. rewrite solid_ident. tauto.
Qed.
Print Assumptions C57_comparisons.

Theorem C57_in : forall g vs e, expr_in (lk_condition g) vs = Ok e \/ expr_not_in (lk_condition g) vs = Ok e ->
  (solid e <-> g <> GStr "" /\ forall v x, In v (elements vs) -> expr_of v = Some x -> fine x).
Proof.
  intros g vs e H.
  assert (K : exists o a, o <> "" /\ new_array vs = Ok a /\ e = EIn (lk_condition g) o a).
  { destruct H as [H|H]; unfold expr_in, expr_not_in in H; destruct (new_array vs) as [a|]; try discriminate H; cbn [bind] in H; injection H as <-;
      (eexists; exists a; split; [|split; reflexivity]); discriminate. }
  destruct K as (o & a & No & Ea & ->). rewrite (solid_in _ o vs a No Ea). unfold lk_condition. rewrite solid_ident, Forall_forall.
  unfold fine_value. split; intros [A B]; (split; [exact A|]); [intros v x I E; exact (B v I x E)|intros v I x E; exact (B v x I E)].
Qed.
Print Assumptions C57_in.

Theorem C57_between : forall g a b e, ident_between g a b = Ok e \/ ident_not_between g a b = Ok e ->
  (solid e <-> g <> GStr "" /\ (forall x, expr_of a = Some x -> solid x) /\ (forall x, expr_of b = Some x -> solid x)).
Proof.
  intros g a b e H. destruct H as [H|H]; unfold ident_between, ident_not_between in H;
    destruct (new_expression a) as [f|] eqn:Ea; try discriminate H; cbn [bind] in H;
    destruct (new_expression b) as [t|] eqn:Eb; try discriminate H; cbn [bind] in H; injection H as <-;
    rewrite solid_between by discriminate; rewrite (solid_operand a f Ea), (solid_operand b t Eb); unfold solid_value; tauto.
Qed.
Print Assumptions C57_between.

Theorem C57_and_or : forall l r,
  (solid (lk_and l r) <-> solid l /\ solid r) /\ (solid (lk_or l r) <-> solid l /\ solid r)
  /\ (solid (infix_and l r) <-> solid l /\ solid r) /\ (solid (infix_or l r) <-> solid l /\ solid r)
  /\ (solid (lk_and_on l r) <-> solid l /\ solid r) /\ (solid (lk_or_on l r) <-> solid l /\ solid r).
Proof.
  intros l r. unfold lk_and, lk_or, infix_and, infix_or, lk_and_on, lk_or_on.
  rewrite !solid_infix, !solid_infix_on, !solid_wrapper by discriminate. tauto.
Qed.
Print Assumptions C57_and_or.

Theorem C57_leaves : forall a b g s, (solid (lk_on a b) <-> a <> "" /\ b <> "") /\ solid (lk_value g) /\ (solid (lk_raw s) <-> s <> "").
Proof.
  intros a b g s. split; [|split].
  - unfold solid. split.
    + intros [B _]. split; intros ->; apply B; constructor; cbn; tauto.
    + intros [A B]. split; [|apply fine_on]. intro K. inversion K; subst. cbn in *. tauto.
  - apply solid_value_expr.
  - unfold solid, fine, lk_raw. split.
    + intros [B _] ->. apply B. constructor.
    + intro N. split; [intro K; inversion K; subst; contradiction|]. split.
      * intro K. inversion K; subst; [contradiction|]. match goal with W : written _ _ |- _ => inversion W end.
      * intro K. inversion K; subst. contradiction.
Qed.
Print Assumptions C57_leaves.

Theorem C57_exists : forall v e, lk_exists v = Ok e \/ lk_not_exists v = Ok e ->
  (solid e <-> forall x, expr_of v = Some x -> fine x).
Proof.
  intros v e H. destruct H as [H|H]; unfold lk_exists, lk_not_exists in H; destruct (new_expression v) as [x|] eqn:E;
    try discriminate H; cbn [bind] in H; injection H as <-; destruct (solid_exists x) as [A B]; [rewrite A|rewrite B]; exact (fine_operand v x E).
Qed.
Print Assumptions C57_exists.

(* ------------------------------------------------------------------------- *)
(* Chains of calls                                                             *)
(* ------------------------------------------------------------------------- *)

Definition renders {O : Oracle} (s : stmt) : Prop := (exists r, query s = Ok r) /\ (exists r, named_query s = Ok r).

(* Calls with nothing missing in their arguments give a statement that renders. *)
Theorem C57_select_renders {O : Oracle} : forall columns calls q0 q, sort_contract o_sort ->
  lk_select columns = Ok q0 -> sel_run q0 calls = Ok q ->
  sel_fine (SelColumns columns) -> Forall sel_fine calls -> renders (StSelect q) /\ fine (ESelect q).
Proof.
  intros columns calls q0 q Hs H0 H F0 F. pose proof (select_ok_fine q (select_chain_ok columns calls q0 q H0 H F0 F)) as K.
  split; [|exact K]. destruct K as [G W]. destruct (C57_returns_exactly (StSelect q) Hs W) as [A B]. split; [apply A|apply B]; exact G.
Qed.
Print Assumptions C57_select_renders.

Theorem C57_insert_renders {O : Oracle} : forall g calls i0 i, sort_contract o_sort ->
  lk_insert g = Ok i0 -> ins_run i0 calls = Ok i -> Forall ins_fine calls -> renders (StInsert i).
Proof.
  intros g calls i0 i Hs H0 H F. destruct (insert_ok_whole i (insert_chain_ok g calls i0 i H0 H F)) as [G W].
  destruct (C57_returns_exactly (StInsert i) Hs W) as [A B]. split; [apply A|apply B]; exact G.
Qed.
Print Assumptions C57_insert_renders.

(* DoUpdate: the pairs it is given are those of ON CONFLICT. *)
Theorem C57_do_update : forall args g, lk_do_update args = Ok g -> Forall fine_arg args ->
  exists p, g = GConflictUpdate p /\ fine_pairs p.
Proof.
  intros args g H F. unfold lk_do_update in H. destruct (to_set args) as [p|] eqn:E; [|discriminate H]. cbn [bind] in H. injection H as <-.
  exists p. split; [reflexivity|]. exact (proj2 (to_set_inv args p E F)).
Qed.
Print Assumptions C57_do_update.

(* An Update also needs a call that gives a value to a column. *)
Theorem C57_update_renders_exactly {O : Oracle} : forall g calls u0 u, sort_contract o_sort ->
  lk_update g = Ok u0 -> upd_run u0 calls = Ok u -> Forall upd_fine calls ->
  (renders (StUpdate u) <-> Exists (fun c => sets_value c = true) calls).
Proof.
  intros g calls u0 u Hs H0 H F. destruct (update_chain_ok g calls u0 u H0 H F) as [K N].
  destruct (update_ok_whole u K) as [G W]. destruct (C57_returns_exactly (StUpdate u) Hs W) as [A B].
  unfold renders. rewrite A, B, G, N.
  rewrite Exists_exists. destruct (existsb sets_value calls) eqn:E.
  - apply existsb_exists in E. split; [intros _; exact E|]. intros _. split; discriminate.
  - split; [intros [D _]; contradiction D; reflexivity|]. intro D. apply existsb_exists in D. congruence.
Qed.
Print Assumptions C57_update_renders_exactly.

Theorem C57_delete_renders {O : Oracle} : forall g calls d0 d, sort_contract o_sort ->
  lk_delete g = Ok d0 -> no_from g -> del_run d0 calls = Ok d -> Forall del_fine calls -> renders (StDelete d).
Proof.
  intros g calls d0 d Hs H0 N H F. destruct (delete_ok_whole d (delete_chain_ok g calls d0 d H0 N H F)) as [G W].
  destruct (C57_returns_exactly (StDelete d) Hs W) as [A B]. split; [apply A|apply B]; exact G.
Qed.
Print Assumptions C57_delete_renders.

(* ------------------------------------------------------------------------- *)
(* Examples                                                                    *)
(* ------------------------------------------------------------------------- *)

Definition gap_cond (n : string) : expr := EInfix (EIdent (GStr n)) (Some "=") (EValue (GInt KInt 1)).
Definition gap_calls : list sel_call :=
  [SelFrom [GStr "t"]; SelJoin [GStr "LEFT JOIN u ON a = b AND c = d"]; SelWhere (gap_cond "x"); SelAnd (gap_cond "y");
   SelWith [{| wq_name := "c"; wq_sub := lk_raw "SELECT 1" |}]].

Lemma gap_cond_solid : forall n, n <> "" -> solid (gap_cond n).
Proof.
  intros n N. apply (C57_comparisons (GStr n) OpEqual (GInt KInt 1) (gap_cond n)); [reflexivity|].
  split; [congruence|]. intros x K. discriminate K.
Qed.

(* A Select with a parsed join and two conditions. *)
Example C57_select_ex : exists q0 q, lk_select [GStr "a, b"; GSel (lk_count "*")] = Ok q0 /\ sel_run q0 gap_calls = Ok q
  /\ sel_fine (SelColumns [GStr "a, b"; GSel (lk_count "*")]) /\ Forall sel_fine gap_calls
  /\ query (O := go_oracle) (StSelect q)
     = Ok ("WITH c AS (SELECT 1) SELECT ""a"", ""b"", COUNT(*) FROM ""t"" LEFT JOIN ""u"" ON (""a"" = ""b"" AND ""c"" = ""d"") WHERE ((""x"" = $1) AND (""y"" = $2))"%string, [GInt KInt 1; GInt KInt 1]).
Proof.
  eexists. eexists. split; [vm_compute; reflexivity|]. split; [vm_compute; reflexivity|]. split; [|split].
  - split; repeat constructor; intros [K|[K|K]]; discriminate K.
  - repeat constructor; try (apply gap_cond_solid; discriminate).
    + cbn. intro K. inversion K; subst. contradiction.
    + intros (_ & _ & K). destruct (C57_leaves "" "" GNil "SELECT 1") as (_ & _ & [_ R]). destruct (R ltac:(discriminate)) as (_ & G & _). exact (G K).
  - vm_compute. reflexivity.
Qed.

(* The arguments of the same chain are made by the API. *)
Example C57_made_ex : made (lk_and (gap_cond "x") (gap_cond "y")).
Proof.
  assert (K : forall n, made (gap_cond n)).
  { intro n. apply (made_compare (lk_condition (GStr n)) OpEqual (GInt KInt 1)); [constructor| |reflexivity].
    intros x H. inversion H as [v g y I E| | | | |]; subst. inversion I; subst. destruct E as [E|E]; discriminate E. }
  eapply made_and; [apply K|apply K|left; reflexivity].
Qed.

(* A subquery without columns, And of a blank condition, a From that was given a stmt.From. *)
Definition no_columns : select := with_exprs new_select [].
Example C57_gaps_ex :
  (exists e, cmp_expr (lk_condition (GStr "x")) OpEqual (g_select no_columns) = Ok e /\ gap e /\ ~ wraps_nil e)
  /\ (exists q0 q, lk_select [GStr "a"] = Ok q0 /\ sel_run q0 [SelFrom [GFrom []]] = Ok q
        /\ gap (ESelect q) /\ query (O := go_oracle) (StSelect q) = Panic PNilDeref)
  /\ gap (lk_and (gap_cond "x") (lk_condition (GStr ""))).
Proof.
  split; [|split].
  - eexists. split; [reflexivity|]. split.
    + apply gap_operand; [exact I|]. apply blank_infix_right. cbn. constructor. constructor. reflexivity.
    + cbn. rewrite wraps_infix. intros [K|K]; inversion K; subst; cbn in *; try contradiction.
      repeat match goal with H : _ \/ _ |- _ => destruct H as [<- | H] | H : False |- _ => destruct H end.
      match goal with H : wraps_nil (ESelect _) |- _ => inversion H; subst end. cbn in *.
      repeat match goal with H : _ \/ _ |- _ => destruct H as [<- | H] | H : False |- _ => destruct H end;
        match goal with H : wraps_nil ENil |- _ => inversion H; contradiction end.
  - eexists. eexists. split; [reflexivity|]. split; [reflexivity|]. split; [|vm_compute; reflexivity].
    apply gap_table. left. reflexivity.
  - apply gap_operand; [exact I|]. apply blank_infix_right. constructor.
Qed.

(* INSERT with a subquery, an upsert; UPDATE; DELETE. *)
Example C57_dml_ex :
  (exists i0 g i, lk_insert (O := go_oracle) (GStr "t") = Ok i0
     /\ lk_do_update [GPair (GStr "a") (GInt KInt 2)] = Ok g
     /\ ins_run (O := go_oracle) i0 [InsColumns [GStr "id, a"]; InsValues [GInt KInt 1; GInt KInt 2]; InsOnConflict [GStr "id"; g]; InsReturning [GStr "id"]] = Ok i
     /\ Forall ins_fine [InsColumns [GStr "id, a"]; InsValues [GInt KInt 1; GInt KInt 2]; InsOnConflict [GStr "id"; g]; InsReturning [GStr "id"]])
  /\ (exists u0 u, lk_update (GStr "t") = Ok u0 /\ upd_run u0 [UpdSet [GStr "a, b"]; UpdUsing [GInt KInt 1; GInt KInt 2]] = Ok u
     /\ Forall upd_fine [UpdSet [GStr "a, b"]; UpdUsing [GInt KInt 1; GInt KInt 2]]
     /\ Exists (fun c => sets_value c = true) [UpdSet [GStr "a, b"]; UpdUsing [GInt KInt 1; GInt KInt 2]])
  /\ (exists d0 d, lk_delete (GStr "t") = Ok d0 /\ no_from (GStr "t") /\ del_run d0 [DelWhere (gap_cond "x")] = Ok d /\ Forall del_fine [DelWhere (gap_cond "x")]).
Proof.
  assert (V : forall g, (forall v, inside v g -> v = g) -> expr_of g = None -> fine_arg g).
  { intros g A B v I e E. rewrite (A v I), B in E. discriminate E. }
  assert (Vi : forall z, fine_arg (GInt KInt z)) by (intro z; apply V; [intros v I; inversion I; reflexivity|reflexivity]).
  assert (Vs : forall z, fine_arg (GStr z)) by (intro z; apply V; [intros v I; inversion I; reflexivity|reflexivity]).
  split; [|split].
  - do 3 eexists. split; [vm_compute; reflexivity|]. split; [vm_compute; reflexivity|]. split; [vm_compute; reflexivity|].
    constructor; [exact I|]. constructor; [constructor; [apply Vi|constructor; [apply Vi|constructor]]|]. constructor; [|constructor; [repeat constructor|constructor]].
    constructor; [exact I|]. constructor; [|constructor]. split; [|split].
    + intros c [<- | []] _. vm_compute. discriminate.
    + constructor; [|constructor]. exact (fine_value_expr (GInt KInt 2)).
    + constructor.
  - do 2 eexists. split; [reflexivity|]. split; [vm_compute; reflexivity|]. split; [constructor; [constructor; [apply Vs|constructor]|constructor; [constructor; [apply Vi|constructor; [apply Vi|constructor]]|constructor]]|].
    apply Exists_cons_tl. apply Exists_cons_hd. reflexivity.
  - do 2 eexists. split; [reflexivity|]. split; [exact I|]. split; [vm_compute; reflexivity|]. constructor; [apply gap_cond_solid; discriminate|constructor].
Qed.
Example C57_sort_ex : sort_contract (@o_sort go_oracle).
Proof. exact insertion_contract. Qed.
