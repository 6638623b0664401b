(* C35-C37: builders are structs that share slices and maps. *)
From Coq Require Import Lia.
From Verif Require Import Calls CallsP AssignP RowsP PropsClauses Mem Forks MemP ForksP UpdForksP.
Local Open Scope list_scope.

(* ------------------------------------------------------------------------- *)
(* Specification: the chain of calls behind a builder                          *)
(* ------------------------------------------------------------------------- *)

(* The commands that give builders, in order: builder k is given by the k-th. *)
Definition creations {N C} (p : list (cmd N C)) : list (cmd N C) :=
  filter (fun c => match c with Show _ => false | _ => true end) p.

(* Builder k of program p was obtained from New a by the calls cs. *)
Inductive chain {N C} (p : list (cmd N C)) : nat -> N -> list C -> Prop :=
| chain_new k a : nth_error (creations p) k = Some (New a) -> chain p k a []
| chain_call k i c a cs : nth_error (creations p) k = Some (Call i c) -> i < k -> chain p i a cs ->
    chain p k a (cs ++ [c]).

Section ValueRegs.
  Context {N C V : Type} (new : N -> res V) (step : V -> C -> res V).

  Fixpoint value_regs (regs : list (option V)) (p : list (cmd N C)) : list (option V) :=
    match p with
    | [] => regs
    | New a :: p' => value_regs (regs ++ [ok (new a)]) p'
    | Call i c :: p' =>
      value_regs (regs ++ [match nth i regs None with Some v => ok (step v c) | None => None end]) p'
    | Show _ :: p' => value_regs regs p'
    end.

  Lemma value_run_show : forall p regs k,
    value_run new step regs (p ++ [Show k]) = value_run new step regs p ++ [nth k (value_regs regs p) None].
  Proof.
    induction p as [|[a|i c|i] p IH]; intros regs k; cbn [app value_run value_regs]; [reflexivity| | |].
    - apply IH.
    - apply IH.
    - rewrite IH. reflexivity.
  Qed.

  Lemma value_regs_prefix : forall p regs, exists more, value_regs regs p = regs ++ more.
  Proof.
    induction p as [|[a|i c|i] p IH]; intros regs; cbn [value_regs].
    - exists []. symmetry. apply app_nil_r.
    - destruct (IH (regs ++ [ok (new a)])) as (m & ->). rewrite <- app_assoc. eexists. reflexivity.
    - match goal with |- context [value_regs (regs ++ [?x]) p] => destruct (IH (regs ++ [x])) as (m & ->) end.
      rewrite <- app_assoc. eexists. reflexivity.
    - apply IH.
  Qed.

  Lemma value_regs_nth : forall p regs k x, nth_error (creations p) k = Some x ->
    nth (length regs + k) (value_regs regs p) None
    = match x with
      | New a => ok (new a)
      | Call i c => match nth i (firstn (length regs + k) (value_regs regs p)) None with Some v => ok (step v c) | None => None end
      | Show _ => None
      end.
  Proof.
    assert (One : forall p regs (y : option V), nth (length regs) (value_regs (regs ++ [y]) p) None = y
              /\ firstn (length regs) (value_regs (regs ++ [y]) p) = regs).
    { intros p regs y. destruct (value_regs_prefix p (regs ++ [y])) as (m & ->). rewrite <- app_assoc. split.
      - rewrite app_nth2 by apply le_n. rewrite Nat.sub_diag. reflexivity.
      - rewrite firstn_app, Nat.sub_diag, firstn_O, app_nil_r. apply firstn_all. }
    induction p as [|[a|i c|i] p IH]; intros regs k x E; cbn [creations filter value_regs] in *.
    - destruct k; discriminate E.
    - destruct k as [|k]; cbn [nth_error] in E.
      + injection E as <-. rewrite Nat.add_0_r. apply One.
      + specialize (IH (regs ++ [ok (new a)]) k x E). rewrite app_length in IH. cbn [length] in IH.
        rewrite <- Nat.add_assoc in IH. exact IH.
    - match goal with |- context [value_regs (regs ++ [?y]) p] => set (z := y) end.
      destruct k as [|k]; cbn [nth_error] in E.
      + injection E as <-. rewrite Nat.add_0_r. destruct (One p regs z) as [E1 E2]. rewrite E1, E2. reflexivity.
      + specialize (IH (regs ++ [z]) k x E). rewrite app_length in IH. cbn [length] in IH.
        rewrite <- Nat.add_assoc in IH. exact IH.
    - apply IH. exact E.
  Qed.

  Lemma fold_snoc : forall cs c v, fold_res step (cs ++ [c]) v = do v' <- fold_res step cs v; step v' c.
  Proof.
    induction cs as [|d cs IH]; intros c v; cbn [app fold_res bind].
    - destruct (step v c); reflexivity.
    - destruct (step v d); cbn [bind]; [apply IH|reflexivity].
  Qed.

  Lemma value_chain : forall p k a cs, chain p k a cs ->
    nth k (value_regs [] p) None = ok (do v <- new a; fold_res step cs v).
  Proof.
    intros p k a cs H. induction H as [k a E|k i c a cs E L H IH].
    - pose proof (value_regs_nth p [] k _ E) as R. cbn [length Nat.add] in R. rewrite R. destruct (new a); reflexivity.
    - pose proof (value_regs_nth p [] k _ E) as R. cbn [length Nat.add] in R. rewrite R.
      assert (F : nth i (firstn k (value_regs [] p)) None = nth i (value_regs [] p) None).
      { rewrite <- (firstn_skipn k (value_regs [] p)) at 2.
        destruct (Nat.lt_ge_cases i (length (firstn k (value_regs [] p)))) as [Li|Ge].
        - rewrite app_nth1 by exact Li. reflexivity.
        - rewrite firstn_length in Ge. rewrite nth_overflow by (rewrite firstn_length; exact Ge).
          rewrite firstn_skipn. symmetry. apply nth_overflow. lia. }
      rewrite F, IH. destruct (new a) as [v|e]; cbn [bind ok]; [|reflexivity]. rewrite fold_snoc.
      destruct (fold_res step cs v); reflexivity.
  Qed.

  Lemma last_snoc {A} : forall (l : list A) x d, last (l ++ [x]) d = x.
  Proof. intros l x d. apply last_last. Qed.

  (* What a program shows last. *)
  Lemma value_shows : forall p k a cs, chain p k a cs ->
    last (value_run new step [] (p ++ [Show k])) None = ok (do v <- new a; fold_res step cs v).
  Proof. intros p k a cs H. rewrite value_run_show, last_snoc. apply value_chain. exact H. Qed.
End ValueRegs.

(* ------------------------------------------------------------------------- *)
(* Renderings of two updates with the same assignments                         *)
(* ------------------------------------------------------------------------- *)

Definition sql_of {O : Oracle} (u : update) := (query (StUpdate u), named_query (StUpdate u)).

Definition plain_call_keys (c : upd_call) : Prop := match c with UpdSet l => Forall plain_keys l | _ => True end.
(* No Set call of the program names a column with an alias. *)
Definition plain_program (p : list upd_cmd) : Prop := forall i c, In (Call i c) p -> plain_call_keys c.

Definition plain_built (u : update) : Prop :=
  exists g u0 cs, lk_update g = Ok u0 /\ upd_run u0 cs = Ok u /\ Forall plain_keys (set_args cs).

Lemma plain_set_args : forall cs, Forall plain_call_keys cs -> Forall plain_keys (set_args cs).
Proof.
  intros cs H. unfold set_args. induction H as [|c cs Hc H IH]; cbn [flat_map]; [constructor|].
  apply Forall_app. split; [|exact IH]. destruct c; try constructor. exact Hc.
Qed.

Lemma same_renderings {O : Oracle} : forall v u, sort_contract o_sort -> plain_built u -> same_update v u ->
  sql_of v = sql_of u.
Proof.
  intros v u C (g & u0 & cs & L & R & K) [E S]. destruct (lk_update_fresh g u0 L) as [_ E0].
  assert (LK : upd_like v u).
  { split; [|rewrite E; destruct u; reflexivity].
    destruct S as [S1 S2 S3 S4 S5]. split; [exact S1|]. split.
    - intro N. destruct (u_set v), (u_set u). cbn in *. rewrite S1 in N. specialize (S5 N). congruence.
    - intro N. rewrite S1 in N. pose proof (upd_run_set cs u0 u R N) as M. rewrite E0 in M.
      destruct (merge_set_holds PUnknown (set_args cs) (u_set u) ltac:(discriminate) M N) as (h & H & Ho).
      assert (U : unaliased (map fst h)).
      { destruct H as (kvs & HA & HH). apply Forall_forall. intros c Hc. apply in_map_iff in Hc. destruct Hc as ([c' e] & <- & Hc). cbn.
        assert (I1 : In (Ok c') (map (fun kv => to_column (fst kv)) kvs)).
        { rewrite (assigns_keys kvs h HH). apply in_map_iff. exists (c', e). split; [reflexivity|exact Hc]. }
        apply in_map_iff in I1. destruct I1 as (kv & Ekv & Hkv).
        clear -K HA Hkv Ekv. revert kvs HA Hkv. induction (set_args cs) as [|a args IH]; intros kvs HA Hkv; cbn [all_pairs] in HA; [injection HA as <-; destruct Hkv|].
        destruct (pairs_of a) as [l|] eqn:P; [|discriminate HA]. destruct (all_pairs args) as [m|]; [|discriminate HA]. injection HA as <-.
        apply Forall_cons_iff in K. destruct K as [Ka K]. apply in_app_or in Hkv. destruct Hkv as [Hkv|Hkv]; [|exact (IH K m eq_refl Hkv)].
        unfold plain_keys in Ka. rewrite P in Ka. exact (Ka kv c' Hkv Ekv). }
      exists h, h. split; [|split; [exact Ho|split; [reflexivity|exact U]]].
      destruct Ho as (G & (ND & IC) & X & Z). split; [|split; [|split]].
      + intro c. rewrite S2. apply G.
      + split; [exact (Permutation_NoDup (Permutation_sym S4) ND)|]. intro c. rewrite <- IC.
        split; apply Permutation_in; [exact S4|symmetry; exact S4].
      + rewrite S3. exact X.
      + rewrite S2. exact Z. }
  unfold sql_of. rewrite !query_rendered, !named_query_template, (template_like _ _ C LK). reflexivity.
Qed.

Lemma value_run_plain : forall p regs, plain_program p ->
  (forall u, In (Some u) regs -> plain_built u) ->
  forall u, In (Some u) (value_run lk_update upd_step regs p) -> plain_built u.
Proof.
  induction p as [|[a|i c|i] p IH]; intros regs P H u Hu; cbn [value_run] in Hu.
  - destruct Hu.
  - apply (IH (regs ++ [ok (lk_update a)])); [intros j d Hj; apply (P j d); right; exact Hj| |exact Hu].
    intros v Hv. apply in_app_or in Hv. destruct Hv as [Hv|[Hv|[]]]; [exact (H v Hv)|].
    exists a, v, []. destruct (lk_update a); cbn in Hv; [|discriminate Hv]. injection Hv as ->. repeat split. constructor.
  - match type of Hu with In _ (value_run _ _ (regs ++ [?y]) p) => apply (IH (regs ++ [y])) end; [| |exact Hu].
    + intros j d Hj. apply (P j d). right. exact Hj.
    + intros v Hv. apply in_app_or in Hv. destruct Hv as [Hv|[Hv|[]]]; [exact (H v Hv)|].
      destruct (nth i regs None) as [w|] eqn:E; [|discriminate Hv].
      assert (W : plain_built w).
      { apply H. rewrite <- E. apply nth_In. destruct (Nat.lt_ge_cases i (length regs)) as [L|G]; [exact L|].
        rewrite nth_overflow in E by exact G. discriminate E. }
      destruct W as (g & u0 & cs & L & R & K). exists g, u0, (cs ++ [c]).
      destruct (upd_step w c) as [x|] eqn:S; cbn in Hv; [|discriminate Hv]. injection Hv as ->.
      split; [exact L|]. split.
      * unfold upd_run in *. rewrite fold_snoc, R. cbn [bind]. exact S.
      * unfold set_args in *. rewrite flat_map_app. apply Forall_app. split; [exact K|]. cbn [flat_map]. rewrite app_nil_r.
        pose proof (P i c (or_introl eq_refl)) as Pc. destruct c; try constructor. exact Pc.
  - cbn in Hu. destruct Hu as [Hu|Hu].
    + apply H. rewrite <- Hu. apply nth_In. destruct (Nat.lt_ge_cases i (length regs)) as [L|G]; [exact L|].
      rewrite nth_overflow in Hu by exact G. discriminate Hu.
    + apply (IH regs); [intros j d Hj; apply (P j d); right; exact Hj|exact H|exact Hu].
Qed.

Lemma outputs_equal {O : Oracle} : forall vs us, sort_contract o_sort -> Forall2 same_output vs us ->
  (forall u, In (Some u) us -> plain_built u) ->
  map (option_map sql_of) vs = map (option_map sql_of) us.
Proof.
  intros vs us C H. induction H as [|v u vs us S H IH]; intros P; [reflexivity|]. cbn [map].
  rewrite IH by (intros w Hw; apply P; right; exact Hw). f_equal.
  destruct v as [v|], u as [u|]; cbn in S |- *; try contradiction S; [|reflexivity].
  f_equal. apply same_renderings; [exact C|apply P; left; reflexivity|exact S].
Qed.

(* ------------------------------------------------------------------------- *)
(* C35                                                                         *)
(* ------------------------------------------------------------------------- *)

(* If no builder is the receiver of two calls, a program prints what it would print if builders
   were values, whatever the capacities chosen by append. *)
Theorem C35_select : forall g p, NoDup (receivers p) -> sel_memory g p = sel_values p.
Proof. intros g p H. apply select_values; apply once_linear; exact H. Qed.
Print Assumptions C35_select.

(* In particular the statement of a builder is the one of its own chain of calls. *)
Theorem C35_select_chain : forall g p k a cs, NoDup (receivers p) -> chain p k a cs ->
  last (sel_memory g (p ++ [Show k])) None = ok (do q <- lk_select a; sel_run q cs).
Proof.
  intros g p k a cs H Hc. rewrite C35_select.
  - apply value_shows. exact Hc.
  - replace (receivers (p ++ [Show k])) with (receivers p); [exact H|].
    clear. induction p as [|[x|i c|i] p IH]; cbn; [reflexivity|exact IH|rewrite IH; reflexivity|exact IH].
Qed.
Print Assumptions C35_select_chain.

(* Update: a builder is not used, and not rendered, after a call on it; only what the call
   returned is. The same SQL comes out as if builders were values, although rendering reorders
   the columns of the builder that is rendered. Missing: the rendering of a builder after a call
   on it, which C35_update_refuted shows to be wrong. *)
Theorem C35_update_partial {O : Oracle} : forall g p, sort_contract o_sort -> moved [] p -> plain_program p ->
  map (option_map sql_of) (upd_memory g p) = map (option_map sql_of) (upd_values p).
Proof.
  intros g p C M P. apply outputs_equal; [exact C| |].
  - apply update_values; [intro l; apply (proj1 (C l))|]. apply moved_separate. exact M.
  - apply value_run_plain; [exact P|intros u []].
Qed.
Print Assumptions C35_update_partial.

Theorem C35_update_chain_partial {O : Oracle} : forall g p k a cs, sort_contract o_sort -> moved [] (p ++ [Show k]) ->
  plain_program p -> chain p k a cs ->
  option_map sql_of (last (upd_memory g (p ++ [Show k])) None) = option_map sql_of (ok (do u <- lk_update a; upd_run u cs)).
Proof.
  intros g p k a cs C M P Hc.
  assert (L : forall l : list (option update), option_map sql_of (last l None) = last (map (option_map sql_of) l) None).
  { induction l as [|x l IH]; [reflexivity|]. destruct l; [reflexivity|exact IH]. }
  rewrite L, C35_update_partial, <- L; [|exact C|exact M|].
  - f_equal. apply value_shows. exact Hc.
  - intros i c H. apply in_app_or in H. destruct H as [H|[H|[]]]; [exact (P i c H)|discriminate H].
Qed.
Print Assumptions C35_update_chain_partial.

(* Each builder is the receiver of one call at most; but the call changes what the receiver
   prints. *)
Theorem C35_update_refuted :
  let p := [New (GStr "t"); Call 0 (UpdSet [GPair (GStr "a") (GInt KInt 1)]); Show 1;
            Call 1 (UpdSet [GPair (GStr "a") (GInt KInt 2)]); Show 1] in
  NoDup (receivers p)
  /\ map (option_map (fun u => query (O := go_oracle) (StUpdate u))) (upd_memory (O := go_oracle) go_growth p)
  = [Some (Ok ("UPDATE ""t"" SET ""a"" = $1", [GInt KInt 1])); Some (Ok ("UPDATE ""t"" SET ""a"" = $1", [GInt KInt 2]))].
Proof.
  split; [|vm_compute; reflexivity].
  cbn. repeat (constructor; [intro H; repeat destruct H as [H|H]; try discriminate H; destruct H|]). constructor.
Qed.
Print Assumptions C35_update_refuted.

(* With aliases: the same assignments, in some order. *)
Theorem C35_update_any_columns {O : Oracle} : forall g p, (forall l, Permutation l (o_sort l)) -> moved [] p ->
  Forall2 same_output (upd_memory g p) (upd_values p).
Proof. intros g p C M. apply update_values; [exact C|]. apply moved_separate. exact M. Qed.
Print Assumptions C35_update_any_columns.

(* Two chains that grow in turns. *)
Definition turns : list sel_cmd :=
  [New [GStr "x"]; New [GStr "y"]; Call 0 (SelFrom [GStr "t"]); Call 1 (SelFrom [GStr "u"]);
   Call 2 (SelJoin [GStr "a ON a.i = t.i"]); Call 3 (SelJoin [GStr "b ON b.i = u.i"]);
   Call 4 (SelJoin [GStr "c ON c.i = t.i"]); Call 5 (SelOrderBy [{| o_expr := "k"; o_type := "ASC" |}]);
   Show 6; Call 6 (SelJoin [GStr "d ON d.i = t.i"]); Show 7; Show 8].
Example C35_select_example : NoDup (receivers turns)
  /\ map (option_map (fun q => query (O := go_oracle) (StSelect q))) (sel_memory go_growth turns)
     = [Some (Ok ("SELECT ""x"" FROM ""t"" INNER JOIN ""a"" ON ""a"".""i"" = ""t"".""i"" INNER JOIN ""c"" ON ""c"".""i"" = ""t"".""i""", []));
        Some (Ok ("SELECT ""y"" FROM ""u"" INNER JOIN ""b"" ON ""b"".""i"" = ""u"".""i"" ORDER BY k ASC", []));
        Some (Ok ("SELECT ""x"" FROM ""t"" INNER JOIN ""a"" ON ""a"".""i"" = ""t"".""i"" INNER JOIN ""c"" ON ""c"".""i"" = ""t"".""i"" INNER JOIN ""d"" ON ""d"".""i"" = ""t"".""i""", []))].
Proof.
  split; [|vm_compute; reflexivity].
  cbn. repeat (constructor; [intro H; repeat destruct H as [H|H]; try discriminate H; destruct H|]). constructor.
Qed.
Example C35_chain_example : chain turns 8 [GStr "x"]
  [SelFrom [GStr "t"]; SelJoin [GStr "a ON a.i = t.i"]; SelJoin [GStr "c ON c.i = t.i"]; SelJoin [GStr "d ON d.i = t.i"]].
Proof.
  change [SelFrom [GStr "t"]; SelJoin [GStr "a ON a.i = t.i"]; SelJoin [GStr "c ON c.i = t.i"]; SelJoin [GStr "d ON d.i = t.i"]]
    with (((([] ++ [SelFrom [GStr "t"]]) ++ [SelJoin [GStr "a ON a.i = t.i"]]) ++ [SelJoin [GStr "c ON c.i = t.i"]]) ++ [SelJoin [GStr "d ON d.i = t.i"]]).
  apply (chain_call _ 8 6); [reflexivity|lia|]. apply (chain_call _ 6 4); [reflexivity|lia|].
  apply (chain_call _ 4 2); [reflexivity|lia|]. apply (chain_call _ 2 0); [reflexivity|lia|]. apply chain_new. reflexivity.
Qed.

Definition upd_turns : list upd_cmd :=
  [New (GStr "t"); New (GStr "u"); Call 0 (UpdSet [GPair (GStr "b") (GInt KInt 1)]);
   Call 1 (UpdSet [GPair (GStr "b") (GInt KInt 2)]); Call 2 (UpdSet [GPair (GStr "a") (GInt KInt 3)]);
   Show 4; Call 4 (UpdSet [GPair (GStr "b") (GInt KInt 4)]); Show 5; Show 3].
Example C35_update_example : moved [] upd_turns /\ plain_program upd_turns
  /\ map (option_map (fun u => query (O := go_oracle) (StUpdate u))) (upd_memory (O := go_oracle) go_growth upd_turns)
     = [Some (Ok ("UPDATE ""t"" SET ""a"" = $1, ""b"" = $2", [GInt KInt 3; GInt KInt 1]));
        Some (Ok ("UPDATE ""t"" SET ""a"" = $1, ""b"" = $2", [GInt KInt 3; GInt KInt 4]));
        Some (Ok ("UPDATE ""u"" SET ""b"" = $1", [GInt KInt 2]))].
Proof.
  split; [|split; [|vm_compute; reflexivity]].
  - cbn. repeat split; intro H; repeat destruct H as [H|H]; (discriminate H || destruct H).
  - intros i c H. cbn in H.
    repeat (destruct H as [H|H]; [try discriminate H; injection H as <- <-; cbn;
      (constructor; [|constructor]); intros kv c [<-|[]] E; vm_compute in E; injection E as <-; reflexivity|]). destruct H.
Qed.

(* ------------------------------------------------------------------------- *)
(* C36                                                                         *)
(* ------------------------------------------------------------------------- *)

(* Any tree of forks made by calls other than Join, OrderBy and With, over builders that were
   built linearly with any calls. *)
Definition no_append (p : list sel_cmd) : Prop :=
  forall i c, In (Call i c) p -> match c with SelJoin _ | SelOrderBy _ | SelWith _ => False | _ => True end.

Theorem C36_select : forall g p p', NoDup (receivers p) -> no_append p' ->
  sel_memory g (p ++ p') = sel_values (p ++ p').
Proof.
  intros g p p' H N.
  assert (E : forall f, extends_nothing f p').
  { intros f i c I. specialize (N i c I). destruct f, c; try reflexivity; contradiction N. }
  apply select_values; apply once_app; try apply E; apply once_linear; exact H.
Qed.
Print Assumptions C36_select.

(* The general form: no version of the joins, of the orders or of the with queries is extended
   twice. *)
Theorem C36_select_versions : forall g p, appends_once Joins p -> appends_once Orders p -> appends_once Withs p ->
  sel_memory g p = sel_values p.
Proof. exact select_values. Qed.
Print Assumptions C36_select_versions.

(* Update: forks with the methods other than Set, Using and With. *)
Theorem C36_update {O : Oracle} : forall g p, sort_contract o_sort -> separate p -> plain_program p ->
  map (option_map sql_of) (upd_memory g p) = map (option_map sql_of) (upd_values p).
Proof.
  intros g p C S P. apply outputs_equal; [exact C| |].
  - apply update_values; [intro l; apply (proj1 (C l))|exact S].
  - apply value_run_plain; [exact P|intros u []].
Qed.
Print Assumptions C36_update.

Definition three_joins : list sel_cmd :=
  [New [GStr "x"]; Call 0 (SelFrom [GStr "t"]); Call 1 (SelJoin [GStr "a ON a.i = t.i"]);
   Call 2 (SelJoin [GStr "b ON b.i = t.i"]); Call 3 (SelJoin [GStr "c ON c.i = t.i"])].
Example C36_select_example :
  let p' := [Call 4 (SelLimit (GInt KInt 1)); Call 4 (SelLimit (GInt KInt 2)); Call 5 (SelComment "k"); Show 4; Show 5; Show 6; Show 7] in
  NoDup (receivers three_joins) /\ no_append p'
  /\ map (option_map s_limit) (sel_memory go_growth (three_joins ++ p')) = [Some 0%Z; Some 1%Z; Some 2%Z; Some 1%Z].
Proof.
  split; [|split; [|vm_compute; reflexivity]].
  - cbn. repeat (constructor; [intro H; repeat destruct H as [H|H]; try discriminate H; destruct H|]). constructor.
  - intros i c H. cbn in H. repeat (destruct H as [H|H]; [try discriminate H; injection H as <- <-; exact I|]). destruct H.
Qed.
(* Forks of a builder without joins may each add some, and one fork of each version may go on. *)
Example C36_versions_example :
  let p := [New [GStr "x"]; Call 0 (SelFrom [GStr "t"]);
            Call 1 (SelJoin [GStr "a ON a.i = t.i"]); Call 1 (SelJoin [GStr "b ON b.i = t.i"]);
            Call 2 (SelJoin [GStr "c ON c.i = t.i"]); Call 2 (SelLimit (GInt KInt 1)); Show 4; Show 5; Show 2] in
  appends_once Joins p /\ appends_once Orders p /\ appends_once Withs p /\ ~ NoDup (receivers p).
Proof.
  split; [cbn; tauto|]. split; [cbn; tauto|]. split; [cbn; tauto|]. cbn. intro H.
  inversion H as [|? ? _ H1]; subst. inversion H1 as [|? ? H2 _]; subst. apply H2. left. reflexivity.
Qed.
Example C36_update_example :
  let p := [New (GStr "t"); Call 0 (UpdSet [GPair (GStr "b") (GInt KInt 1); GPair (GStr "a") (GInt KInt 2)]);
            Call 1 (UpdComment "k"); Call 1 UpdOnly; Show 2; Show 1; Show 3] in
  separate p /\ plain_program p
  /\ map (option_map (fun u => query (O := go_oracle) (StUpdate u))) (upd_memory (O := go_oracle) go_growth p)
     = [Some (Ok ("UPDATE ""t"" SET ""a"" = $1, ""b"" = $2; -- k", [GInt KInt 2; GInt KInt 1]));
        Some (Ok ("UPDATE ""t"" SET ""a"" = $1, ""b"" = $2", [GInt KInt 2; GInt KInt 1]));
        Some (Ok ("UPDATE ONLY ""t"" SET ""a"" = $1, ""b"" = $2", [GInt KInt 2; GInt KInt 1]))].
Proof.
  split; [|split; [|vm_compute; reflexivity]].
  - cbn. repeat split; intro H; repeat destruct H as [H|H]; (discriminate H || destruct H).
  - intros i c H. cbn in H. repeat (destruct H as [H|H]; [try discriminate H; injection H as <- <-; cbn; try exact I;
      repeat (constructor; [intros kv c [<-|[]] E; vm_compute in E; injection E as <-; reflexivity|]); constructor|]). destruct H.
Qed.

(* ------------------------------------------------------------------------- *)
(* C37                                                                         *)
(* ------------------------------------------------------------------------- *)

(* False for Join, OrderBy and With. With the capacities of the Go runtime, the fourth join of
   one fork replaces the fourth join of the other. *)
Theorem C37_join_refuted :
  let p := three_joins ++ [Call 4 (SelJoin [GStr "d ON d.i = t.i"]); Show 5; Call 4 (SelJoin [GStr "e ON e.i = t.i"]); Show 5] in
  exists q1 q2, sel_memory go_growth p = [Some q1; Some q2]
    /\ sel_values p = [Some q1; Some q1]
    /\ map (fun j => t_name (j_table j)) (s_joins q1) = ["a"; "b"; "c"; "d"]%string
    /\ map (fun j => t_name (j_table j)) (s_joins q2) = ["a"; "b"; "c"; "e"]%string.
Proof.
  eexists. eexists. split; [vm_compute; reflexivity|]. split; [vm_compute; reflexivity|].
  split; vm_compute; reflexivity.
Qed.
Print Assumptions C37_join_refuted.

Theorem C37_order_refuted :
  let o := fun s => {| o_expr := s; o_type := "ASC" |} in
  let p := [New [GStr "x"]; Call 0 (SelFrom [GStr "t"]); Call 1 (SelOrderBy [o "a"]); Call 2 (SelOrderBy [o "b"]);
            Call 3 (SelOrderBy [o "c"]); Call 4 (SelOrderBy [o "d"]); Call 4 (SelOrderBy [o "e"]); Show 5] in
  map (option_map (fun q => query (O := go_oracle) (StSelect q))) (sel_memory go_growth p)
  = [Some (Ok ("SELECT ""x"" FROM ""t"" ORDER BY a ASC, b ASC, c ASC, e ASC", []))]
  /\ map (option_map (fun q => query (O := go_oracle) (StSelect q))) (sel_values p)
  = [Some (Ok ("SELECT ""x"" FROM ""t"" ORDER BY a ASC, b ASC, c ASC, d ASC", []))].
Proof. split; vm_compute; reflexivity. Qed.
Print Assumptions C37_order_refuted.

Theorem C37_with_refuted :
  let w := fun s => {| wq_name := s; wq_sub := ERaw s |} in
  let p := [New [GStr "x"]; Call 0 (SelFrom [GStr "t"]); Call 1 (SelWith [w "a"]); Call 2 (SelWith [w "b"]);
            Call 3 (SelWith [w "c"]); Call 4 (SelWith [w "d"]); Call 4 (SelWith [w "e"]); Show 5] in
  map (option_map (fun q => map wq_name (s_with q))) (sel_memory go_growth p) = [Some ["a"; "b"; "c"; "e"]%string]
  /\ map (option_map (fun q => map wq_name (s_with q))) (sel_values p) = [Some ["a"; "b"; "c"; "d"]%string].
Proof. split; vm_compute; reflexivity. Qed.
Print Assumptions C37_with_refuted.

(* Whatever the growth policy: whenever the array behind the joins of a builder has room, two
   forks by Join end with the same last join, the one of the second fork. *)
Theorem C37_spare_capacity_refuted : forall g h b args args' j j',
  valid (sh_joins h) (sr_joins b) -> sl_len (sr_joins b) < sl_cap (sr_joins b) ->
  join_value args = Ok j -> join_value args' = Ok j' ->
  exists b1 b2, sel_do g h b (SelJoin args) = (fst (sel_do g h b (SelJoin args)), Ok b1)
    /\ let h1 := fst (sel_do g h b (SelJoin args)) in
       sel_do g h1 b (SelJoin args') = (fst (sel_do g h1 b (SelJoin args')), Ok b2)
    /\ let h2 := fst (sel_do g h1 b (SelJoin args')) in
       s_joins (sel_view h1 b1) = s_joins (sel_view h b) ++ [j]
       /\ s_joins (sel_view h2 b1) = s_joins (sel_view h b) ++ [j']
       /\ s_joins (sel_view h2 b2) = s_joins (sel_view h b) ++ [j'].
Proof.
  intros g h b args args' j j' V L E E'. cbn [sel_do]. rewrite E, E'. cbn [fst].
  eexists. eexists. split; [reflexivity|]. cbv zeta. cbn [fst sh_joins]. split; [reflexivity|].
  pose proof (append_view zero_join (g_joins g) (sh_joins h) (sr_joins b) [j] V) as (W1 & _ & _).
  pose proof (append_valid zero_join (g_joins g) (sh_joins h) (sr_joins b) [j] (sr_joins b) V V) as V1.
  pose proof (append_view zero_join (g_joins g) _ (sr_joins b) [j'] V1) as (W2 & _ & _).
  assert (Eb : view (fst (append zero_join (g_joins g) (sh_joins h) (sr_joins b) [j])) (sr_joins b) = view (sh_joins h) (sr_joins b)).
  { apply append_others; [exact V|exact V|]. right. right. apply le_n. }
  assert (Es : forall hh x, snd (append zero_join (g_joins g) hh (sr_joins b) [x])
             = {| sl_ptr := sl_ptr (sr_joins b); sl_len := sl_len (sr_joins b) + 1; sl_cap := sl_cap (sr_joins b) |}).
  { intros hh x. unfold append. cbn [length]. replace (sl_len (sr_joins b) + 1 <=? sl_cap (sr_joins b))%nat with true; [reflexivity|].
    symmetry. apply Nat.leb_le. lia. }
  unfold sel_view. cbn [with_shared with_with with_order_by with_joins s_joins sh_joins sh_orders sh_withs sr_joins sr_orders sr_withs sr_rest].
  split; [exact W1|]. rewrite Es in W2 |- *. rewrite Es, Eb in *. split; exact W2.
Qed.
Print Assumptions C37_spare_capacity_refuted.

(* False for Update.Set. The map of the assignments is shared: a fork changes the base, ... *)
Theorem C37_set_changes_base_refuted :
  let p := [New (GStr "t"); Call 0 (UpdSet [GPair (GStr "a") (GInt KInt 1)]); Show 1;
            Call 1 (UpdSet [GPair (GStr "a") (GInt KInt 2)]); Show 1] in
  map (option_map (fun u => query (O := go_oracle) (StUpdate u))) (upd_memory (O := go_oracle) go_growth p)
  = [Some (Ok ("UPDATE ""t"" SET ""a"" = $1", [GInt KInt 1])); Some (Ok ("UPDATE ""t"" SET ""a"" = $1", [GInt KInt 2]))]
  /\ forall g, upd_memory (O := go_oracle) g p <> upd_values p.
Proof.
  split; [vm_compute; reflexivity|]. intros g H.
  assert (M : map (option_map (fun u => p_map (u_set u))) (upd_memory (O := go_oracle) g
     [New (GStr "t"); Call 0 (UpdSet [GPair (GStr "a") (GInt KInt 1)]); Show 1;
            Call 1 (UpdSet [GPair (GStr "a") (GInt KInt 2)]); Show 1])
     = [Some [(lk_column "a", EValue (GInt KInt 1))]; Some [(lk_column "a", EValue (GInt KInt 2))]]) by (vm_compute; reflexivity).
  rewrite H in M. vm_compute in M. discriminate M.
Qed.
Print Assumptions C37_set_changes_base_refuted.

(* ... and an assignment made by one fork makes the other lose the same column: it is in the map
   already, so it is not added to the columns. *)
Theorem C37_set_loses_column_refuted :
  let p := [New (GStr "t"); Call 0 (UpdSet [GPair (GStr "a") (GInt KInt 1)]);
            Call 1 (UpdSet [GPair (GStr "b") (GInt KInt 2)]); Call 1 (UpdSet [GPair (GStr "b") (GInt KInt 3)]); Show 3] in
  map (option_map (fun u => query (O := go_oracle) (StUpdate u))) (upd_memory (O := go_oracle) go_growth p)
  = [Some (Ok ("UPDATE ""t"" SET ""a"" = $1", [GInt KInt 1]))]
  /\ map (option_map (fun u => query (O := go_oracle) (StUpdate u))) (upd_values p)
  = [Some (Ok ("UPDATE ""t"" SET ""a"" = $1, ""b"" = $2", [GInt KInt 1; GInt KInt 3]))].
Proof. split; vm_compute; reflexivity. Qed.
Print Assumptions C37_set_loses_column_refuted.

(* A Set that panics half way leaves its first assignments in the map of the receiver: the next
   Set on it loses these columns. *)
Theorem C37_failed_set_refuted :
  let p := [New (GStr "t"); Call 0 (UpdSet [GPair (GStr "a") (GInt KInt 1)]);
            Call 1 (UpdSet [GPair (GStr "b") (GInt KInt 2); GNil]); Call 1 (UpdSet [GPair (GStr "b") (GInt KInt 3)]); Show 2; Show 3] in
  map (option_map (fun u => query (O := go_oracle) (StUpdate u))) (upd_memory (O := go_oracle) go_growth p)
  = [None; Some (Ok ("UPDATE ""t"" SET ""a"" = $1", [GInt KInt 1]))]
  /\ map (option_map (fun u => query (O := go_oracle) (StUpdate u))) (upd_values p)
  = [None; Some (Ok ("UPDATE ""t"" SET ""a"" = $1, ""b"" = $2", [GInt KInt 1; GInt KInt 3]))].
Proof. split; vm_compute; reflexivity. Qed.
Print Assumptions C37_failed_set_refuted.

(* When the base has no column yet the other fork is rendered with an empty SET clause. *)
Theorem C37_set_empty_refuted :
  let p := [New (GStr "t"); Call 0 (UpdSet [GPair (GStr "b") (GInt KInt 2)]);
            Call 0 (UpdSet [GPair (GStr "b") (GInt KInt 3)]); Show 2] in
  map (option_map (fun u => query (O := go_oracle) (StUpdate u))) (upd_memory (O := go_oracle) go_growth p)
  = [Some (Ok ("UPDATE ""t"" SET ", []))]
  /\ map (option_map (fun u => query (O := go_oracle) (StUpdate u))) (upd_values p)
  = [Some (Ok ("UPDATE ""t"" SET ""b"" = $1", [GInt KInt 3]))].
Proof. split; vm_compute; reflexivity. Qed.
Print Assumptions C37_set_empty_refuted.
