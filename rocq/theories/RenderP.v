(* Proofs for C02-C05: the three renderings of one template. *)
From Coq Require Import DecimalString Decimal DecimalNat DecimalN DecimalFacts.
From Verif Require Export Template SubstP GoStrP.

(* ------------------------------------------------------------------------- *)
(* Decimal numerals                                                            *)
(* ------------------------------------------------------------------------- *)

Lemma string_of_N_inj : forall a b, string_of_N a = string_of_N b -> a = b.
Proof.
  intros a b H. unfold string_of_N in H.
  assert (E : NilZero.uint_of_string (NilZero.string_of_uint (N.to_uint a))
              = NilZero.uint_of_string (NilZero.string_of_uint (N.to_uint b))) by (rewrite H; reflexivity).
  assert (Nz : forall n, N.to_uint n <> Nil).
  { intros n E'. destruct n; cbn in E'; [discriminate|].
    pose proof (DecimalPos.Unsigned.to_uint_nonnil p). contradiction. }
  rewrite !NilZero.usu in E by apply Nz. injection E as E.
  apply (f_equal N.of_uint) in E. rewrite !DecimalN.Unsigned.of_to in E. exact E.
Qed.

Lemma string_of_nat_inj : forall a b, string_of_nat a = string_of_nat b -> a = b.
Proof. intros a b H. apply string_of_N_inj in H. lia. Qed.

Lemma arg_name_inj : forall a b, arg_name a = arg_name b -> a = b.
Proof. intros a b H. unfold arg_name in H. cbn in H. injection H as H. apply string_of_nat_inj, H. Qed.

(* ------------------------------------------------------------------------- *)
(* Strings and templates                                                       *)
(* ------------------------------------------------------------------------- *)

Lemma lit_app : forall a b, lit (a ++ b) = (lit a ++ lit b)%list.
Proof. induction a as [|x a IH]; intros; cbn; [reflexivity|]. rewrite IH. reflexivity. Qed.
Lemma flatten_app : forall a b, flatten (a ++ b)%list = (flatten a ++ flatten b)%list.
Proof.
  induction a as [|[s|v] a IH]; intros; cbn; [reflexivity| |]; rewrite IH; [apply app_assoc|reflexivity].
Qed.
Lemma args_app : forall a b, args (a ++ b)%list = (args a ++ args b)%list.
Proof. induction a as [|[s|v] a IH]; intros; cbn; [reflexivity| |]; rewrite IH; reflexivity. Qed.
Lemma args_lit : forall s, args (lit s) = [].
Proof. induction s as [|a s IH]; cbn; [reflexivity|exact IH]. Qed.
Lemma fill_lit : forall ph k s, fill ph k (lit s) = s.
Proof. induction s as [|a s IH]; cbn; [reflexivity|]. rewrite IH. reflexivity. Qed.
Lemma fill_app : forall ph a k b, fill ph k (a ++ b)%list = fill ph k a ++ fill ph (k + length (args a)) b.
Proof.
  induction a as [|[s|v] a IH]; intros; cbn [app fill args length].
  - rewrite Nat.add_0_r. reflexivity.
  - rewrite IH. reflexivity.
  - rewrite IH, sapp_assoc, Nat.add_succ_r. reflexivity.
Qed.
Lemma flat_cat : forall a b, flat (a +++ b)
  = match flat a, flat b with
    | Ok x, Ok y => Ok (x ++ y)%list
    | Ok _, Panic p => Panic p
    | Panic p, _ => Panic p
    end.
Proof. intros [a|p] [b|q]; cbn; try reflexivity. rewrite flatten_app. reflexivity. Qed.

(* ------------------------------------------------------------------------- *)
(* Query                                                                       *)
(* ------------------------------------------------------------------------- *)

Lemma run_std_spec : forall t c,
  fold_left std_step t c
  = {| std_buf := std_buf c ++ fill dollar (S (length (std_vals c))) (flatten t);
       std_vals := (std_vals c ++ args (flatten t))%list |}.
Proof.
  induction t as [|[s|v] t IH]; intro c; cbn [fold_left flatten].
  - cbn. rewrite sapp_nil, app_nil_r. destruct c; reflexivity.
  - rewrite IH. cbn [std_step std_buf std_vals]. rewrite fill_app, args_app, args_lit, fill_lit.
    cbn [length app]. rewrite Nat.add_0_r, sapp_assoc. reflexivity.
  - rewrite IH. cbn [std_step std_buf std_vals fill args]. unfold dollar at 2.
    rewrite app_length, sapp_assoc, <- app_assoc. cbn [length app]. rewrite Nat.add_1_r. reflexivity.
Qed.

(* ------------------------------------------------------------------------- *)
(* NamedQuery                                                                  *)
(* ------------------------------------------------------------------------- *)

Definition names_from (k n : nat) : list string := map (fun i => "arg_" ++ string_of_nat i) (seq k n).

Lemma map_set_fresh : forall V k (v : V) m, ~ In k (map fst m) -> map_set k v m = (m ++ [(k, v)])%list.
Proof.
  induction m as [|[k' v'] m IH]; intro H; cbn; [reflexivity|].
  destruct (String.eqb k k') eqn:E.
  - exfalso. apply String.eqb_eq in E. apply H. left. cbn. congruence.
  - rewrite IH; [reflexivity|]. intro Hin. apply H. right. exact Hin.
Qed.

Lemma names_from_S : forall k n, names_from k (S n) = (names_from k n ++ [("arg_" ++ string_of_nat (k + n))%string])%list.
Proof. intros. unfold names_from. rewrite seq_S, map_app. reflexivity. Qed.

Lemma run_named_spec : forall t c,
  map fst (named_vals c) = names_from 1 (length (named_vals c)) ->
  fold_left named_step t c
  = {| named_buf := named_buf c ++ fill colon (S (length (named_vals c))) (flatten t);
       named_vals := (named_vals c ++ combine (names_from (S (length (named_vals c))) (length (args (flatten t))))
                                              (args (flatten t)))%list |}.
Proof.
  induction t as [|[s|v] t IH]; intros c Hc; cbn [fold_left flatten].
  - cbn. rewrite sapp_nil, app_nil_r. destruct c; reflexivity.
  - rewrite IH by exact Hc. cbn [named_step named_buf named_vals].
    rewrite fill_app, args_app, args_lit, fill_lit. cbn [length app]. rewrite Nat.add_0_r, sapp_assoc. reflexivity.
  - assert (F : named_vals (named_step c (B v))
        = (named_vals c ++ [(("arg_" ++ string_of_nat (S (length (named_vals c))))%string, v)])%list).
    { cbn [named_step named_vals]. rewrite map_set_fresh.
      - unfold arg_name. rewrite Nat.add_1_r. reflexivity.
      - rewrite Hc. unfold names_from. intro Hin. apply in_map_iff in Hin.
        destruct Hin as [i [Hi Hin]]. apply in_seq in Hin. apply (arg_name_inj i) in Hi. lia. }
    rewrite IH.
    + rewrite F, app_length. cbn [length named_step named_buf fill args].
      rewrite (Nat.add_1_r (length (named_vals c))). f_equal.
      * unfold colon at 2, arg_name. rewrite !sapp_assoc. reflexivity.
      * rewrite <- app_assoc. f_equal.
    + rewrite F, map_app, Hc, app_length. cbn [length map fst]. rewrite Nat.add_1_r, names_from_S. reflexivity.
Qed.

(* ------------------------------------------------------------------------- *)
(* String                                                                      *)
(* ------------------------------------------------------------------------- *)

Section Raw.
  Context {O : Oracle}.

  (* The literal of a value, when it has one. *)
  Definition literal (v : gval) : string := match format_value v with Ok s => s | Panic _ => "" end.
  Definition printable (v : gval) : bool := is_ok (format_value v).

  Lemma run_raw_spec : forall t buf k,
    match run_raw_from buf t with
    | Ok s => forallb printable (args (flatten t)) = true
              /\ s = buf ++ fill (fun _ => literal) k (flatten t)
    | Panic _ => forallb printable (args (flatten t)) = false
    end.
  Proof.
    induction t as [|[s|v] t IH]; intros buf k; cbn [run_raw_from flatten].
    - split; [reflexivity|]. cbn. rewrite sapp_nil. reflexivity.
    - rewrite args_app, args_lit. cbn [app]. specialize (IH (buf ++ s) k).
      destruct (run_raw_from _ t); [|exact IH]. destruct IH as [Hp ->]. split; [exact Hp|].
      rewrite fill_app, fill_lit, args_lit, sapp_assoc. cbn [length]. rewrite Nat.add_0_r. reflexivity.
    - cbn [args forallb]. destruct (format_value v) as [l|p] eqn:E; cbn [bind].
      + specialize (IH (buf ++ l) (S k)). unfold printable at 1 3. rewrite E. cbn [is_ok andb].
        destruct (run_raw_from _ t); [|exact IH]. destruct IH as [Hp ->]. split; [exact Hp|].
        cbn [fill]. unfold literal at 2. rewrite E, sapp_assoc. reflexivity.
      + unfold printable at 1. rewrite E. reflexivity.
  Qed.

  Lemma query_template : forall s,
    query s = match template s with Ok q => Ok (fill dollar 1 q, args q) | Panic p => Panic p end.
  Proof.
    intro s. unfold query, template, flat. destruct (write_stmt s) as [t|p]; [|reflexivity].
    cbn [bind]. unfold run_std. rewrite run_std_spec. reflexivity.
  Qed.

  Lemma named_query_template : forall s,
    named_query s = match template s with
                    | Ok q => Ok (fill colon 1 q, combine (names_from 1 (length (args q))) (args q))
                    | Panic p => Panic p end.
  Proof.
    intro s. unfold named_query, template, flat. destruct (write_stmt s) as [t|p]; [|reflexivity].
    cbn [bind]. unfold run_named. rewrite run_named_spec by reflexivity. reflexivity.
  Qed.

  Lemma to_string_template : forall s q, template s = Ok q ->
    if forallb printable (args q)
    then to_string s = Ok (fill (fun _ => literal) 1 q)
    else exists p, to_string s = Panic p.
  Proof.
    intros s q H. unfold to_string, template, flat in *. destruct (write_stmt s) as [t|p]; [|discriminate].
    cbn [bind] in *. injection H as <-. unfold run_raw. pose proof (run_raw_spec t "" 1) as R.
    destruct (run_raw_from "" t) as [str|p].
    - destruct R as [-> ->]. reflexivity.
    - rewrite R. exists p. reflexivity.
  Qed.

  Lemma to_string_panic : forall s p, template s = Panic p -> to_string s = Panic p.
  Proof.
    intros s p H. unfold to_string, template, flat in *. destruct (write_stmt s); [discriminate|].
    cbn in *. congruence.
  Qed.

  (* A value fails to print only because a driver.Valuer in it returns an error. *)
  Fixpoint valuer_error (v : gval) : bool :=
    match v with GValuer v' => valuer_error v' | GValuerErr => true | _ => false end.
  Lemma printable_valuer : forall v, printable v = negb (valuer_error v).
  Proof.
    unfold printable. fix IH 1. intro v. destruct v; try reflexivity. cbn. apply IH.
  Qed.
End Raw.

(* ------------------------------------------------------------------------- *)
(* The arguments are the statement's values in reading order                    *)
(* ------------------------------------------------------------------------- *)

Section Values.
  Context {O : Oracle}.

  (* If t renders, it binds exactly l. *)
  Definition binds (t : tr) (l : list gval) : Prop := forall x, t = Ok x -> args (flatten x) = l.

  Lemma binds_cat : forall a b l m, binds a l -> binds b m -> binds (a +++ b) (l ++ m)%list.
  Proof.
    intros [a|p] [b|q] l m Ha Hb x; cbn; try discriminate. intro E. injection E as <-.
    rewrite flatten_app, args_app, (Ha _ eq_refl), (Hb _ eq_refl). reflexivity.
  Qed.
  Lemma binds_w : forall s, binds (w s) [].
  Proof. intros s x E. injection E as <-. cbn. rewrite app_nil_r. apply args_lit. Qed.
  Lemma binds_eps : binds eps [].
  Proof. intros x E. injection E as <-. reflexivity. Qed.
  Lemma binds_closed : forall t, closed t -> binds t [].
  Proof.
    intros t H x E. pose proof (H (fun _ => GNil)) as H1. pose proof (H (fun _ => GStr "")) as H2.
    rewrite E in H1, H2. cbn in H1, H2. injection H1 as H1. injection H2 as H2. clear E H.
    revert H1 H2. induction x as [|[s|u] x IH]; cbn; intros H1 H2; [reflexivity| |].
    - injection H1 as H1. injection H2 as H2. rewrite args_app, args_lit. apply IH; assumption.
    - injection H1 as Hu1 H1. injection H2 as Hu2 H2. congruence.
  Qed.

  Lemma binds_when : forall c t l, binds t l -> binds (when c t) (if c then l else []).
  Proof. intros [] t l H; [exact H|apply binds_eps]. Qed.
  Lemma binds_when_nil : forall c t, binds t [] -> binds (when c t) [].
  Proof. intros [] t H; [exact H|apply binds_eps]. Qed.
  Lemma binds_unless : forall e t l, binds t l ->
    binds (unless e t) (match e with Ok false => l | _ => [] end).
  Proof. intros [[]|p] t l H; cbn; [apply binds_eps|exact H|]. intros x E. discriminate. Qed.
  Lemma binds_panic : forall p l, binds (Panic p) l.
  Proof. intros p l x E. discriminate. Qed.
  Lemma binds_defined : forall e t l, binds t l -> binds (defined e t) l.
  Proof.
    intros e t l H. unfold defined. destruct (is_empty e) as [[]|p]; cbn;
      try apply binds_panic. exact H.
  Qed.
  Lemma binds_sep_by : forall sep A (g : A -> tr) (h : A -> list gval) l,
    (forall x, In x l -> binds (g x) (h x)) -> binds (sep_by sep (map g l)) (flat_map h l).
  Proof.
    intros sep A g h l H. induction l as [|x [|y l] IH].
    - apply binds_eps.
    - cbn. rewrite app_nil_r. apply H. left. reflexivity.
    - change (sep_by sep (map g (x :: y :: l))) with (g x +++ w sep +++ sep_by sep (map g (y :: l))).
      cbn [flat_map]. rewrite <- (app_nil_r (h x)).
      change (h y ++ flat_map h l)%list with (flat_map h (y :: l)).
      apply binds_cat; [apply binds_cat; [|apply binds_w]|].
      + apply H. left. reflexivity.
      + apply IH. intros z Hz. apply H. right. exact Hz.
  Qed.

  Lemma unless_empty_kept : forall e l, is_nil e = false ->
    match is_empty e with Ok false => l | _ => [] end = if_kept e l.
  Proof.
    intros e l H. unfold if_kept, kept, cond_empty. rewrite H. destruct (is_empty e) as [[]|p]; reflexivity.
  Qed.

  Lemma binds_cast : forall t l m, binds t l -> l = m -> binds t m.
  Proof. intros t l m H <-. exact H. Qed.

  Definition binds_expr (e : expr) : Prop := binds (write_expr e) (values_of e).

  Lemma binds_selexpr : forall x, (forall e, In e (selexpr_children x) -> binds_expr e) ->
    binds (write_selexpr write_expr x) (selexpr_values values_of x).
  Proof.
    intros x H. destruct x; cbn [write_selexpr selexpr_values].
    - apply binds_panic.
    - apply binds_closed, closed_column.
    - apply binds_w.
    - apply binds_closed. unfold write_alias.
      repeat first [apply closed_cat | apply closed_when | apply closed_w].
    - eapply binds_cast.
      + apply binds_cat; [apply binds_cat; [apply binds_w | apply H; left; reflexivity] | apply binds_w].
      + cbn. rewrite app_nil_r. reflexivity.
    - eapply binds_cast.
      + apply binds_cat; [apply binds_cat; [apply binds_w | apply H; left; reflexivity] | apply binds_w].
      + cbn. rewrite app_nil_r. reflexivity.
  Qed.

  Lemma binds_with : forall l, (forall e, In e (map wq_sub l) -> binds_expr e) ->
    binds (when (nonempty l) (write_with write_expr l +++ w " ")) (flat_map (with_values values_of) l).
  Proof.
    intros l H.
    assert (B1 : binds (write_with write_expr l) (flat_map (with_values values_of) l)).
    { destruct l as [|q l]; [apply binds_eps|]. unfold write_with. cbn [nonempty when].
      eapply binds_cast; [apply binds_cat; [apply binds_w|apply binds_sep_by with (h := with_values values_of)]|reflexivity].
      intros x Hx. unfold write_withq, withq_empty, with_values.
      assert (Hsub : binds (w (wq_name x ++ " AS (") +++ write_expr (wq_sub x) +++ w ")") (values_of (wq_sub x))).
      { eapply binds_cast.
        - apply binds_cat; [apply binds_cat; [apply binds_w|apply H, in_map, Hx]|apply binds_w].
        - cbn. apply app_nil_r. }
      destruct (no_str (wq_name x)); [apply binds_eps|]. cbn [orb].
      destruct (is_nil (wq_sub x)) eqn:N.
      - unfold if_kept, kept, cond_empty. rewrite N. apply binds_eps.
      - eapply binds_cast; [apply binds_unless, Hsub|]. apply unless_empty_kept, N. }
    destruct l as [|q l]; [apply binds_eps|]. cbn [nonempty when].
    eapply binds_cast; [apply binds_cat; [exact B1|apply binds_w]|apply app_nil_r].
  Qed.

  Lemma binds_joins : forall l, (forall e, In e (map j_cond l) -> binds_expr e) ->
    binds (write_joins write_expr l) (flat_map (fun j => values_of (j_cond j)) l).
  Proof.
    induction l as [|j l IH]; intro H; cbn [write_joins flat_map]; [apply binds_eps|].
    apply binds_cat; [|apply IH; intros e He; apply H; right; exact He].
    eapply binds_cast.
    - apply binds_cat; [apply binds_w|]. unfold write_join.
      apply binds_cat; [apply binds_closed|apply H; left; reflexivity].
      repeat first [apply closed_table | apply closed_w | apply closed_cat].
    - reflexivity.
  Qed.

  Lemma binds_where : forall e, binds_expr e ->
    binds (unless (cond_empty e) (w " " +++ write_where write_expr e)) (if_kept e (values_of e)).
  Proof.
    intros e H. unfold if_kept, kept, write_where. destruct (cond_empty e) as [[]|p]; cbn [unless bind].
    - apply binds_eps.
    - eapply binds_cast; [apply binds_cat; [apply binds_w|apply binds_cat; [apply binds_w|exact H]]|reflexivity].
    - apply binds_panic.
  Qed.
  Lemma binds_having : forall e, binds_expr e ->
    binds (unless (cond_empty e) (w " " +++ write_having write_expr e)) (if_kept e (values_of e)).
  Proof.
    intros e H. unfold if_kept, kept, write_having. destruct (cond_empty e) as [[]|p]; cbn [unless bind].
    - apply binds_eps.
    - eapply binds_cast; [apply binds_cat; [apply binds_w|apply binds_cat; [apply binds_w|exact H]]|reflexivity].
    - apply binds_panic.
  Qed.

  Lemma binds_sels : forall l, (forall e, In e (flat_map selexpr_children l) -> binds_expr e) ->
    binds (sep_by ", " (map (write_selexpr write_expr) l)) (flat_map (selexpr_values values_of) l).
  Proof.
    intros l H. apply binds_sep_by. intros x Hx. apply binds_selexpr. intros e He. apply H.
    apply in_flat_map. exists x. split; assumption.
  Qed.

  Ltac clo := repeat first
    [ apply closed_w | apply closed_eps | apply closed_panic
    | apply closed_distinct_on | apply closed_from | apply closed_group_by | apply closed_order_by
    | apply closed_limit | apply closed_offset | apply closed_comment | apply closed_column
    | apply closed_columns | apply closed_table | apply closed_using | apply closed_target
    | apply closed_cat | apply closed_when ].

  Lemma binds_select : forall s, (forall e, In e (select_children s) -> binds_expr e) ->
    binds (write_select_with write_expr s) (select_values values_of s).
  Proof.
    intros s H. unfold write_select_with. destruct (nonempty (s_exprs s)); [|apply binds_panic].
    unfold select_children in H.
    assert (Hw : binds_expr (s_where s)) by (apply H; rewrite !in_app_iff; cbn; tauto).
    assert (Hh : binds_expr (s_having s)) by (apply H; rewrite !in_app_iff; cbn; tauto).
    unfold write_head, write_middle, write_tail, select_values.
    eapply binds_cast.
    - apply binds_cat; [apply binds_cat|].
      + apply binds_cat; [|apply binds_closed; clo].
        apply binds_cat; [|apply binds_sels; intros e He; apply H; rewrite !in_app_iff; tauto].
        apply binds_cat; [|apply binds_closed; clo].
        apply binds_cat; [|apply binds_closed; clo].
        apply binds_cat; [|apply binds_closed; clo].
        apply binds_cat; [|apply binds_w].
        apply binds_cat; [apply binds_closed; clo|].
        apply binds_with. intros e He; apply H; rewrite !in_app_iff; tauto.
      + apply binds_cat; [|apply binds_having; exact Hh].
        apply binds_cat; [|apply binds_closed; clo].
        apply binds_cat; [|apply binds_where; exact Hw].
        apply binds_joins. intros e He; apply H; rewrite !in_app_iff; tauto.
      + apply binds_closed; clo.
    - cbn [app]. rewrite !app_nil_r, <- !app_assoc. reflexivity.
  Qed.

  Ltac bw := first [apply binds_w | apply binds_closed; solve [clo]].

  Lemma binds_write_expr : forall e, binds_expr e.
  Proof.
    intro e. induction e as [e IH] using expr_children_ind. unfold binds_expr.
    destruct e as [|g|g|l|l|s|x|fn l|l o r|x o v|g o a n b|x|x|s|l r|l o r];
      cbn [children] in IH; cbn [values_of write_expr].
    - apply binds_panic.
    - apply binds_closed, closed_ident.
    - destruct g; cbn [write_value]; try (intros y E; injection E as <-; reflexivity).
    - apply binds_sep_by. intros x Hx. eapply binds_cast.
      + apply binds_cat; [apply binds_cat; [bw|apply IH, Hx]|bw].
      + apply app_nil_r.
    - apply binds_sep_by. exact IH.
    - apply binds_w.
    - eapply binds_cast; [apply binds_cat; [apply binds_cat; [bw|apply IH; left; reflexivity]|bw]|].
      apply app_nil_r.
    - eapply binds_cast; [apply binds_cat; [apply binds_cat; [bw|apply binds_sep_by; exact IH]|bw]|].
      apply app_nil_r.
    - apply binds_defined. eapply binds_cast.
      + repeat (apply binds_cat; [|first [bw | apply IH; cbn; tauto]]). bw.
      + cbn [app]. rewrite !app_nil_r. reflexivity.
    - destruct (is_nil v) eqn:N.
      + destruct v; try discriminate. unfold defined. cbn [is_empty is_nil].
        destruct (is_empty x) as [[]|]; cbn [or_res]; [apply binds_panic| |apply binds_panic].
        destruct (no_str o); apply binds_panic.
      + apply binds_defined. eapply binds_cast.
        * apply binds_cat; [|bw].
          apply binds_cat; [|apply binds_unless, IH; cbn; tauto].
          apply binds_cat; [|bw]. apply binds_cat; [bw|apply IH; cbn; tauto].
        * cbn [app]. rewrite !app_nil_r, unless_empty_kept by exact N. reflexivity.
    - apply binds_defined. eapply binds_cast.
      + repeat (apply binds_cat; [|first [bw | apply IH; cbn; tauto]]).
        apply binds_cat; [bw|apply binds_closed, closed_ident].
      + cbn [app]. rewrite !app_nil_r. reflexivity.
    - eapply binds_cast; [apply binds_cat; [apply binds_cat; [bw|apply IH; left; reflexivity]|bw]|].
      apply app_nil_r.
    - eapply binds_cast; [apply binds_cat; [apply binds_cat; [bw|apply IH; left; reflexivity]|bw]|].
      apply app_nil_r.
    - apply binds_select. exact IH.
    - bw.
    - apply binds_defined. eapply binds_cast.
      + repeat (apply binds_cat; [|first [bw | apply IH; cbn; tauto]]). bw.
      + cbn [app]. rewrite !app_nil_r. reflexivity.
  Qed.

  Lemma binds_pairs_assoc : forall m cols es,
    map_res (fun c => match pm_get c m with
                      | Some e => Ok e
                      | None => Panic (PMsg "loukoum: invalid state for stmt.PairContainer") end) cols = Ok es ->
    binds (sep_by ", " (map write_pair (combine cols es)))
          (flat_map (fun c => match pm_get c m with Some e => values_of e | None => [] end) cols).
  Proof.
    intros m cols es H.
    assert (Q : flat_map (fun c => match pm_get c m with Some e => values_of e | None => [] end) cols
                = flat_map (fun ce : column * expr => values_of (snd ce)) (combine cols es)).
    { revert es H. induction cols as [|c cols IH]; intros es H; cbn [map_res flat_map combine] in *; [reflexivity|].
      destruct (pm_get c m) as [e|]; [|discriminate]. cbn [bind] in H.
      destruct (map_res _ cols) as [es'|]; [|discriminate]. cbn [bind] in H. injection H as <-.
      cbn [combine flat_map snd]. rewrite (IH _ eq_refl). reflexivity. }
    rewrite Q. apply binds_sep_by. intros ce _. unfold write_pair.
    eapply binds_cast; [apply binds_cat; [bw|apply binds_write_expr]|reflexivity].
  Qed.

  Lemma binds_set : forall p, pairs_empty p = false -> binds (write_set p) (set_values p).
  Proof.
    intros p Hp. unfold write_set. eapply binds_cast with (l := ([] ++ set_values p)%list); [|reflexivity].
    apply binds_cat; [bw|]. unfold write_pairs, set_values. rewrite Hp.
    destruct (p_mode p) eqn:M.
    - unfold pairs_empty in Hp. rewrite M in Hp. discriminate.
    - unfold pairs_values. rewrite M.
      destruct (map_res _ (o_sort (p_cols p))) as [es|q] eqn:E; cbn [bind]; [|apply binds_panic].
      cbn [fst snd]. apply binds_pairs_assoc, E.
    - eapply binds_cast.
      + apply binds_cat; [|bw].
        apply binds_cat; [|apply binds_sep_by with (h := values_of); intros; apply binds_write_expr].
        bw.
      + apply app_nil_r.
  Qed.

  Lemma binds_returning : forall l,
    binds (when (nonempty l) (w " " +++ write_returning l)) (flat_map (selexpr_values values_of) l).
  Proof.
    intros [|x l]; [apply binds_eps|]. cbn [nonempty when]. unfold write_returning.
    eapply binds_cast; [apply binds_cat; [bw|apply binds_cat; [bw|apply binds_sels]]|reflexivity].
    intros; apply binds_write_expr.
  Qed.

  Lemma binds_write_stmt : forall s, binds (write_stmt s) (stmt_values s).
  Proof.
    intros [s|i|u|d]; cbn [write_stmt stmt_values].
    - apply binds_select. intros; apply binds_write_expr.
    - unfold write_insert. destruct (no_str _); [apply binds_panic|].
      eapply binds_cast.
      + apply binds_cat; [|bw].
        apply binds_cat; [|apply binds_returning].
        apply binds_cat; [apply binds_cat; [bw|]|].
        * apply binds_unless. unfold write_values. apply binds_cat; [bw|].
          apply binds_unless. apply binds_cat; [bw|apply binds_write_expr].
        * instantiate (1 := match i_conflict_action i with
              | Some (ActUpdate p) => if pairs_empty p then [] else set_values p | _ => [] end).
          destruct (i_conflict_action i) as [[|p]|]; cbn [conflict_empty action_empty negb].
          -- cbn [when write_conflict action_empty write_action]. bw.
          -- destruct (pairs_empty p) eqn:E; cbn [negb when]; [apply binds_eps|].
             cbn [write_conflict action_empty write_action]. rewrite E.
             eapply binds_cast;
               [apply binds_cat; [bw|apply binds_cat; [bw|apply binds_cat; [bw|apply binds_set, E]]]|].
             reflexivity.
          -- apply binds_eps.
      + cbn [app]. unfold if_kept, kept. destruct (cond_empty (i_values i)) as [[]|];
          cbn [app]; rewrite ?app_nil_r, <- ?app_assoc; reflexivity.
    - unfold write_update. destruct (no_str _ || pairs_empty _) eqn:E; [apply binds_panic|].
      apply orb_false_iff in E. destruct E as [_ E].
      eapply binds_cast.
      + apply binds_cat; [|bw].
        apply binds_cat; [|apply binds_returning].
        apply binds_cat; [|apply binds_where, binds_write_expr].
        apply binds_cat; [|bw].
        apply binds_cat; [|apply binds_set, E].
        apply binds_cat; [|bw]. apply binds_cat; [|bw]. apply binds_cat; [|bw]. apply binds_cat; [|bw].
        apply binds_cat; [|bw].
        apply binds_with. intros; apply binds_write_expr.
      + cbn [app]. rewrite ?app_nil_r, <- ?app_assoc. reflexivity.
    - unfold write_delete. destruct (nonempty (d_from d)); [|apply binds_panic].
      eapply binds_cast.
      + apply binds_cat; [|bw].
        apply binds_cat; [|apply binds_returning].
        apply binds_cat; [|apply binds_where, binds_write_expr].
        bw.
      + cbn [app]. rewrite ?app_nil_r, <- ?app_assoc. reflexivity.
  Qed.

  Lemma template_args : forall s q, template s = Ok q -> args q = stmt_values s.
  Proof.
    intros s q H. unfold template, flat in H. destruct (write_stmt s) as [t|] eqn:E; [|discriminate].
    injection H as <-. apply (binds_write_stmt s), E.
  Qed.

  (* No value in that list is nil. *)
  Lemma values_not_nil : forall e, ~ In GNil (values_of e).
  Proof.
    intro e. induction e as [e IH] using expr_children_ind.
    assert (L : forall l : list expr, (forall x, In x l -> ~ In GNil (values_of x)) -> ~ In GNil (flat_map values_of l)).
    { intros l H Hin. apply in_flat_map in Hin. destruct Hin as [x [Hx Hin]]. exact (H x Hx Hin). }
    assert (K : forall x, ~ In GNil (values_of x) -> ~ In GNil (if_kept x (values_of x))).
    { intros x Hx. unfold if_kept. destruct (kept x); [exact Hx|intros []]. }
    destruct e as [|g|g|l|l|s|x|fn l|l o r|x o v|g o a n b|x|x|s|l r|l o r];
      cbn [children] in IH; cbn [values_of]; try (intros []; fail).
    - destruct g; cbn; intuition discriminate.
    - apply L, IH.
    - apply L, IH.
    - apply IH; left; reflexivity.
    - apply L, IH.
    - rewrite in_app_iff. intros [H|H]; revert H; apply IH; cbn; tauto.
    - rewrite in_app_iff. intros [H|H]; revert H; [|apply K]; apply IH; cbn; tauto.
    - rewrite in_app_iff. intros [H|H]; revert H; apply IH; cbn; tauto.
    - apply IH; left; reflexivity.
    - apply IH; left; reflexivity.
    - unfold select_children in IH. unfold select_values. rewrite !in_app_iff.
      assert (Hw : ~ In GNil (values_of (s_where s))) by (apply IH; rewrite !in_app_iff; cbn; tauto).
      assert (Hh : ~ In GNil (values_of (s_having s))) by (apply IH; rewrite !in_app_iff; cbn; tauto).
      intros [H|[H|[H|[H|H]]]].
      + apply in_flat_map in H. destruct H as [q [Hq H]]. unfold with_values in H.
        destruct (no_str _); [destruct H|]. revert H. apply K, IH. rewrite !in_app_iff. left. apply in_map, Hq.
      + apply in_flat_map in H. destruct H as [q [Hq H]].
        destruct q; cbn in H; try contradiction; revert H; apply IH; rewrite !in_app_iff;
          right; left; apply in_flat_map; eexists; (split; [exact Hq|left; reflexivity]).
      + apply in_flat_map in H. destruct H as [q [Hq H]]. revert H. apply IH. rewrite !in_app_iff.
        right; right; left. apply in_map, Hq.
      + exact (K _ Hw H).
      + exact (K _ Hh H).
    - rewrite in_app_iff. intros [H|H]; revert H; apply IH; cbn; tauto.
  Qed.

  Lemma stmt_values_not_nil : forall s, ~ In GNil (stmt_values s).
  Proof.
    assert (K : forall x, ~ In GNil (if_kept x (values_of x))).
    { intros x. unfold if_kept. destruct (kept x); [apply values_not_nil|intros []]. }
    assert (S1 : forall l, ~ In GNil (flat_map (selexpr_values values_of) l)).
    { intros l H. apply in_flat_map in H. destruct H as [q [_ H]].
      destruct q; cbn in H; try contradiction; exact (values_not_nil _ H). }
    assert (S2 : forall p, ~ In GNil (set_values p)).
    { intros p H. unfold set_values in H. destruct (p_mode p); apply in_flat_map in H;
        destruct H as [q [_ H]]; try exact (values_not_nil _ H).
      destruct (pm_get q (p_map p)); [exact (values_not_nil _ H)|exact H]. }
    assert (S3 : forall l, ~ In GNil (flat_map (with_values values_of) l)).
    { intros l H. apply in_flat_map in H. destruct H as [q [_ H]]. unfold with_values in H.
      destruct (no_str _); [exact H|exact (K _ H)]. }
    intros [s|i|u|d]; cbn [stmt_values].
    - exact (values_not_nil (ESelect s)).
    - rewrite !in_app_iff. intros [H|[H|H]]; [exact (K _ H)| |exact (S1 _ H)].
      destruct (i_conflict_action i) as [[|p]|]; try contradiction.
      destruct (pairs_empty p); [exact H|exact (S2 _ H)].
    - rewrite !in_app_iff. intros [H|[H|[H|H]]];
        [exact (S3 _ H)|exact (S2 _ H)|exact (K _ H)|exact (S1 _ H)].
    - rewrite !in_app_iff. intros [H|H]; [exact (K _ H)|exact (S1 _ H)].
  Qed.
End Values.
