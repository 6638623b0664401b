(* Proofs for C11-C14: rendered conditions read back. *)
From Verif Require Export CondApi RenderP QuoteP NumeralsP.

(* ------------------------------------------------------------------------- *)
(* Tokenizer                                                                   *)
(* ------------------------------------------------------------------------- *)

Lemma next_space : forall s, next (" " ++ s) = next s.
Proof. reflexivity. Qed.

(* Text that does not continue a word or number. *)
Definition ends_word (s : string) : bool :=
  match s with EmptyString => true | String a _ => negb (is_alnum a) end.

Lemma span_app : forall f x rest, (forall a, In a (list_ascii_of_string x) -> f a = true) ->
  match rest with String a _ => f a = false | EmptyString => True end ->
  span f (x ++ rest) = (x, rest).
Proof.
  induction x as [|a x IH]; intros rest Hx Hr; cbn [append span].
  - destruct rest as [|b rest]; [reflexivity|]. cbn [span]. rewrite Hr. reflexivity.
  - rewrite (Hx a) by (left; reflexivity). rewrite IH; [reflexivity| |exact Hr].
    intros b Hb. apply Hx. right. exact Hb.
Qed.

Lemma ends_word_alnum : forall rest, ends_word rest = true ->
  match rest with String a _ => is_alnum a = false | EmptyString => True end.
Proof. intros [|a rest] H; [exact I|]. cbn in H. destruct (is_alnum a); [discriminate|reflexivity]. Qed.

Lemma ends_word_num : forall rest, ends_word rest = true ->
  match rest with String a _ => is_num a = false | EmptyString => True end.
Proof.
  intros [|a rest] H; [exact I|]. cbn in H. unfold is_alnum in H. destruct (is_num a); [|reflexivity].
  rewrite orb_true_r in H. discriminate.
Qed.

Lemma next_param : forall k rest, ends_word rest = true ->
  next ("$" ++ string_of_nat k ++ rest) = Some (TParam (N.of_nat k), rest).
Proof.
  intros k rest H. cbn [append next]. change (is_blank "$") with false. cbn iota.
  unfold token_at. change (Ascii.eqb "$" "(") with false. change (Ascii.eqb "$" ")") with false.
  change (Ascii.eqb "$" ",") with false. change (Ascii.eqb "$" dquote) with false.
  change (Ascii.eqb "$" "$") with true. cbn iota.
  rewrite span_app.
  - unfold string_of_nat. rewrite dec_nat_N. reflexivity.
  - intros a Ha. apply string_of_N_digits in Ha. exact Ha.
  - apply ends_word_num, H.
Qed.

Lemma next_null : forall rest, ends_word rest = true -> next ("NULL" ++ rest) = Some (TWord "NULL", rest).
Proof.
  intros rest H.
  change (next ("NULL" ++ rest)) with (let (x, r) := span is_alnum ("NULL" ++ rest) in Some (TWord x, r)).
  rewrite span_app; [reflexivity| |apply ends_word_alnum, H].
  intros a Ha. cbn in Ha. intuition (subst; reflexivity).
Qed.

Section CondText.
  Context {O : Oracle}.

  Lemma next_name : forall x rest, plain_name x = true -> ends_name rest = true ->
    next (quote x ++ rest) = Some (TName (split_on "." x), rest).
  Proof.
    intros x rest Hx Hr. pose proof (pg_name_quote x rest Hx Hr) as P.
    assert (Q : exists t, quote x ++ rest = String """" t).
    { unfold quote. destruct (split_on "." x) as [|p [|p' l]] eqn:E.
      - exfalso. exact (split_nonempty _ _ E).
      - cbn [map join_with]. unfold go_quote, dq, str1. rewrite !sapp_assoc. cbn [append]. eauto.
      - cbn [map]. change (join_with "." (go_quote p :: go_quote p' :: map go_quote l))
          with (go_quote p ++ "." ++ join_with "." (go_quote p' :: map go_quote l)).
        unfold go_quote at 1, dq, str1. rewrite !sapp_assoc. cbn [append]. eauto. }
    destruct Q as [t Q]. rewrite Q in *. cbn [next]. change (is_blank """") with false. cbn iota.
    unfold token_at. change (Ascii.eqb """" "(") with false. change (Ascii.eqb """" ")") with false.
    change (Ascii.eqb """" ",") with false. change (Ascii.eqb """" dquote) with true. cbn iota.
    rewrite P. reflexivity.
  Qed.

  (* ----------------------------------------------------------------------- *)
  (* The text of a condition whose first value has number k                     *)
  (* ----------------------------------------------------------------------- *)

  Definition is_gnil (v : gval) : bool := match v with GNil => true | _ => false end.
  Definition vcount (v : gval) : nat := if is_gnil v then 0 else 1.
  Definition op_text (k : nat) (v : gval) : string :=
    if is_gnil v then "NULL" else "$" ++ string_of_nat k.
  Definition op_num (k : nat) (v : gval) : operand := if is_gnil v then PNull else PArg (N.of_nat k).

  Fixpoint ops_text (k : nat) (vs : list gval) : string :=
    match vs with
    | [] => ""
    | [v] => op_text k v
    | v :: vs' => op_text k v ++ ", " ++ ops_text (k + vcount v) vs'
    end.
  Fixpoint ops_num (k : nat) (vs : list gval) : list operand :=
    match vs with [] => [] | v :: vs' => op_num k v :: ops_num (k + vcount v) vs' end.

  Definition non_nil (vs : list gval) : list gval := filter (fun v => negb (is_gnil v)) vs.

  Fixpoint cond_values (c : cond) : list gval :=
    match c with
    | Cmp _ _ v => non_nil [v]
    | In_ _ _ vs => non_nil vs
    | Between _ _ a b => non_nil [a; b]
    | And_ l r | Or_ l r => (cond_values l ++ cond_values r)%list
    end.
  Definition count (c : cond) : nat := length (cond_values c).

  Fixpoint cond_text (k : nat) (c : cond) : string :=
    match c with
    | Cmp x o v => "(" ++ quote x ++ " " ++ sql_op o ++ " " ++ op_text k v ++ ")"
    | In_ g x vs => "(" ++ quote x ++ (if g then " NOT IN (" else " IN (") ++ ops_text k vs ++ "))"
    | Between g x a b =>
      "(" ++ quote x ++ (if g then " NOT BETWEEN " else " BETWEEN ") ++ op_text k a ++ " AND "
      ++ op_text (k + vcount a) b ++ ")"
    | And_ l r => "(" ++ cond_text k l ++ " AND " ++ cond_text (k + count l) r ++ ")"
    | Or_ l r => "(" ++ cond_text k l ++ " OR " ++ cond_text (k + count l) r ++ ")"
    end.

  Fixpoint cond_num (k : nat) (c : cond) : tree operand :=
    match c with
    | Cmp x o v => LCmp (split_on "." x) (sql_op o) (op_num k v)
    | In_ g x vs => LIn g (split_on "." x) (ops_num k vs)
    | Between g x a b => LBetween g (split_on "." x) (op_num k a) (op_num (k + vcount a) b)
    | And_ l r => LAnd (cond_num k l) (cond_num (k + count l) r)
    | Or_ l r => LOr (cond_num k l) (cond_num (k + count l) r)
    end.

  (* ----------------------------------------------------------------------- *)
  (* The code writes this text                                                  *)
  (* ----------------------------------------------------------------------- *)

  Lemma plain_new : forall v, plain_value v = true -> new_expression v = Ok (EValue v).
  Proof. intros v H. destruct v; try discriminate; reflexivity. Qed.

  Lemma plain_news : forall vs, forallb plain_value vs = true ->
    map_res new_expression vs = Ok (map EValue vs).
  Proof.
    induction vs as [|v vs IH]; cbn [forallb map_res map]; [reflexivity|].
    intro H. apply andb_true_iff in H. destruct H as [Hv Hs].
    rewrite plain_new by exact Hv. cbn [bind]. rewrite IH by exact Hs. reflexivity.
  Qed.

  Lemma plain_wrap : forall v, new_wrapper (EValue v) = EValue v.
  Proof. reflexivity. Qed.

  Lemma plain_cmp : forall l o v, plain_value v = true ->
    cmp_expr l o v = Ok (EInfix l (Some (cmp_text o)) (EValue v)).
  Proof.
    intros l o v H. unfold cmp_expr, infix_wrapped, infix_plain. rewrite plain_new by exact H.
    destruct (cmp_wraps o); reflexivity.
  Qed.

  Lemma plain_array : forall vs, forallb plain_value vs = true ->
    match vs with [] => false | [GNil] => false | _ => true end = true ->
    new_array vs = Ok (EArray (map EValue vs)).
  Proof.
    intros vs H N. unfold new_array. destruct vs as [|v [|v' vs]]; [discriminate| |].
    - cbn [forallb] in H. apply andb_true_iff in H. destruct H as [H _].
      destruct v; try discriminate; reflexivity.
    - rewrite plain_news by exact H. reflexivity.
  Qed.

  Lemma flat_value : forall v, flat (write_value v) = Ok (if is_gnil v then lit "NULL" else [Val v]).
  Proof. intro v. destruct v; reflexivity. Qed.

  Definition op_sql (v : gval) : sql := if is_gnil v then lit "NULL" else [Val v].

  Lemma op_sql_fill : forall k v, fill dollar k (op_sql v) = op_text k v.
  Proof. intros k v. unfold op_sql, op_text. destruct (is_gnil v); cbn; [reflexivity|]. rewrite sapp_nil. reflexivity. Qed.
  Lemma op_sql_args : forall v, args (op_sql v) = non_nil [v].
  Proof. intro v. unfold op_sql, non_nil. cbn. destruct (is_gnil v); reflexivity. Qed.
  Lemma non_nil_count : forall v, length (non_nil [v]) = vcount v.
  Proof. intro v. unfold non_nil, vcount. cbn. destruct (is_gnil v); reflexivity. Qed.

  Lemma flat_w : forall s, flat (w s) = Ok (lit s).
  Proof. intro s. cbn. rewrite app_nil_r. reflexivity. Qed.

  Lemma ops_sql : forall vs, flat (sep_by ", " (map write_expr (map EValue vs))) = Ok (sepd ", " (map op_sql vs)).
  Proof.
    induction vs as [|v [|v' vs] IH]; [reflexivity|cbn [map sep_by sepd write_expr]; apply flat_value|].
    change (sep_by ", " (map write_expr (map EValue (v :: v' :: vs))))
      with (write_value v +++ w ", " +++ sep_by ", " (map write_expr (map EValue (v' :: vs)))).
    rewrite !flat_cat, flat_value, flat_w, IH. cbn [map sepd]. rewrite <- app_assoc. reflexivity.
  Qed.

  Lemma ops_fill : forall vs k, fill dollar k (sepd ", " (map op_sql vs)) = ops_text k vs.
  Proof.
    induction vs as [|v [|v' vs] IH]; intro k; [reflexivity|cbn; apply op_sql_fill|].
    change (sepd ", " (map op_sql (v :: v' :: vs)))
      with (op_sql v ++ lit ", " ++ sepd ", " (map op_sql (v' :: vs)))%list.
    rewrite !fill_app, fill_lit, IH, op_sql_fill, op_sql_args, non_nil_count, args_lit, Nat.add_0_r.
    reflexivity.
  Qed.
  Lemma ops_args : forall vs, args (sepd ", " (map op_sql vs)) = non_nil vs.
  Proof.
    induction vs as [|v [|v' vs] IH]; [reflexivity|cbn [map sepd]; rewrite op_sql_args; reflexivity|].
    change (sepd ", " (map op_sql (v :: v' :: vs)))
      with (op_sql v ++ lit ", " ++ sepd ", " (map op_sql (v' :: vs)))%list.
    rewrite !args_app, args_lit, IH, op_sql_args. unfold non_nil. cbn [filter app].
    destruct (negb (is_gnil v)); reflexivity.
  Qed.

  (* q renders like c *)
  Definition renders (q : sql) (c : cond) : Prop :=
    (forall k, fill dollar k q = cond_text k c) /\ args q = cond_values c.

  Lemma cmp_text_op : forall o, cmp_text o = sql_op o.
  Proof. intros []; reflexivity. Qed.

  Lemma plain_name_nonempty : forall x, plain_name x = true -> no_str x = false.
  Proof. intros x H. destruct x; [vm_compute in H; discriminate|reflexivity]. Qed.

  Lemma builds_shape : forall c e, builds c e -> clean plain_name c = true ->
    is_nil e = false /\ new_wrapper e = e /\ is_empty e = Ok false
    /\ exists q, flat (write_expr e) = Ok q /\ renders q c.
  Proof.
    assert (W : forall l r a b o, o = "AND" \/ o = "OR" ->
      is_nil a = false /\ new_wrapper a = a /\ is_empty a = Ok false
        /\ (exists q, flat (write_expr a) = Ok q /\ renders q l) ->
      is_nil b = false /\ new_wrapper b = b /\ is_empty b = Ok false
        /\ (exists q, flat (write_expr b) = Ok q /\ renders q r) ->
      is_nil (EInfix a (Some o) b) = false
      /\ new_wrapper (EInfix a (Some o) b) = EInfix a (Some o) b
      /\ is_empty (EInfix a (Some o) b) = Ok false
      /\ exists q, flat (write_expr (EInfix a (Some o) b)) = Ok q
                   /\ renders q ((if String.eqb o "AND" then And_ else Or_) l r)).
    { intros l r a b o Ho (Na & Wa & Ea & qa & Fa & Ra) (Nb & Wb & Eb & qb & Fb & Rb).
      split; [reflexivity|]. split; [reflexivity|].
      assert (E : is_empty (EInfix a (Some o) b) = Ok false).
      { cbn [is_empty]. rewrite Na, Nb, Ea, Eb. destruct Ho as [->| ->]; reflexivity. }
      split; [exact E|].
      exists (lit "(" ++ qa ++ lit (" " ++ o ++ " ") ++ qb ++ lit ")")%list. split.
      - cbn [write_expr]. unfold defined. rewrite E. cbn [bind].
        rewrite !flat_cat, !flat_w, Fa, Fb. rewrite <- !app_assoc. reflexivity.
      - destruct Ra as [Ta Va], Rb as [Tb Vb]. split.
        + intro k. rewrite !fill_app, !fill_lit, Ta, Tb, !args_lit, Va. cbn [length].
          rewrite !Nat.add_0_r. destruct Ho as [->| ->]; cbn [String.eqb Ascii.eqb Bool.eqb cond_text append];
            unfold count; reflexivity.
        + rewrite !args_app, !args_lit, Va, Vb, app_nil_r. destruct Ho as [->| ->]; reflexivity. }
    intros c e H. induction H as [x o v e H|x vs e H|x vs e H|x a b e H|x a b e H
                                 |l r a b Hl IHl Hr IHr|l r a b Hl IHl Hr IHr
                                 |l r a b Hl IHl Hr IHr|l r a b Hl IHl Hr IHr]; intro C; cbn [clean] in C.
    - apply andb_true_iff in C. destruct C as [Cx Cv]. rewrite plain_cmp in H by exact Cv. injection H as <-.
      split; [reflexivity|]. split; [reflexivity|].
      assert (E : is_empty (EInfix (lk_condition (GStr x)) (Some (cmp_text o)) (EValue v)) = Ok false).
      { cbn. rewrite plain_name_nonempty by exact Cx. destruct o; reflexivity. }
      split; [exact E|].
      exists (lit "(" ++ lit (quote x) ++ lit (" " ++ sql_op o ++ " ") ++ op_sql v ++ lit ")")%list. split.
      + cbn [write_expr]. unfold defined. rewrite E. cbn [bind lk_condition write_expr write_ident].
        rewrite !flat_cat, !flat_w, flat_value, cmp_text_op. rewrite <- !app_assoc. reflexivity.
      + split.
        * intro k. rewrite !fill_app, !fill_lit, op_sql_fill, !args_lit. cbn [length].
          rewrite !Nat.add_0_r. cbn [cond_text]. rewrite !sapp_assoc. reflexivity.
        * rewrite !args_app, !args_lit, op_sql_args, app_nil_r. reflexivity.
    - rewrite !andb_true_iff in C. destruct C as [[Cx Cv] Cn]. unfold expr_in in H.
      rewrite plain_array in H by assumption. cbn [bind] in H. injection H as <-.
      split; [reflexivity|]. split; [reflexivity|].
      assert (E : is_empty (EIn (lk_condition (GStr x)) "IN" (EArray (map EValue vs))) = Ok false).
      { cbn. rewrite plain_name_nonempty by exact Cx. reflexivity. }
      split; [exact E|].
      exists (lit "(" ++ lit (quote x) ++ lit " IN (" ++ sepd ", " (map op_sql vs) ++ lit "))")%list. split.
      + cbn [write_expr]. unfold defined. rewrite E. cbn [bind lk_condition write_expr write_ident].
        assert (E2 : is_empty (EArray (map EValue vs)) = Ok false).
        { cbn. destruct vs; [discriminate|reflexivity]. }
        rewrite E2. cbn [unless bind].
        rewrite !flat_cat, !flat_w, ops_sql. rewrite <- !app_assoc. reflexivity.
      + split.
        * intro k. rewrite !fill_app, !fill_lit, ops_fill, !args_lit. cbn [length].
          rewrite !Nat.add_0_r. cbn [cond_text]. rewrite ?sapp_assoc. reflexivity.
        * rewrite !args_app, !args_lit, ops_args, app_nil_r. reflexivity.
    - rewrite !andb_true_iff in C. destruct C as [[Cx Cv] Cn]. unfold expr_not_in in H.
      rewrite plain_array in H by assumption. cbn [bind] in H. injection H as <-.
      split; [reflexivity|]. split; [reflexivity|].
      assert (E : is_empty (EIn (lk_condition (GStr x)) "NOT IN" (EArray (map EValue vs))) = Ok false).
      { cbn. rewrite plain_name_nonempty by exact Cx. reflexivity. }
      split; [exact E|].
      exists (lit "(" ++ lit (quote x) ++ lit " NOT IN (" ++ sepd ", " (map op_sql vs) ++ lit "))")%list. split.
      + cbn [write_expr]. unfold defined. rewrite E. cbn [bind lk_condition write_expr write_ident].
        assert (E2 : is_empty (EArray (map EValue vs)) = Ok false).
        { cbn. destruct vs; [discriminate|reflexivity]. }
        rewrite E2. cbn [unless bind].
        rewrite !flat_cat, !flat_w, ops_sql. rewrite <- !app_assoc. reflexivity.
      + split.
        * intro k. rewrite !fill_app, !fill_lit, ops_fill, !args_lit. cbn [length].
          rewrite !Nat.add_0_r. cbn [cond_text]. rewrite ?sapp_assoc. reflexivity.
        * rewrite !args_app, !args_lit, ops_args, app_nil_r. reflexivity.
    - rewrite !andb_true_iff in C. destruct C as [[Cx Ca] Cb]. unfold ident_between in H.
      rewrite (plain_new a Ca), (plain_new b Cb) in H. cbn [bind] in H. injection H as <-.
      split; [reflexivity|]. split; [reflexivity|].
      assert (E : is_empty (EBetween (GStr x) "BETWEEN" (EValue a) "AND" (EValue b)) = Ok false).
      { cbn. rewrite plain_name_nonempty by exact Cx. reflexivity. }
      split; [exact E|].
      exists (lit "(" ++ lit (quote x) ++ lit " BETWEEN " ++ op_sql a ++ lit " AND " ++ op_sql b ++ lit ")")%list.
      split.
      + cbn [write_expr]. unfold defined. rewrite E. cbn [bind write_ident].
        rewrite !flat_cat, !flat_w, !flat_value. rewrite <- !app_assoc. reflexivity.
      + split.
        * intro k. rewrite !fill_app, !fill_lit, !op_sql_fill, !args_lit, !op_sql_args, !non_nil_count.
          cbn [length]. rewrite !Nat.add_0_r. cbn [cond_text]. rewrite ?sapp_assoc. reflexivity.
        * rewrite !args_app, !args_lit, !op_sql_args, app_nil_r. cbn [app].
          cbn [cond_values]. unfold non_nil. cbn [filter]. destruct (is_gnil a), (is_gnil b); reflexivity.
    - rewrite !andb_true_iff in C. destruct C as [[Cx Ca] Cb]. unfold ident_not_between in H.
      rewrite (plain_new a Ca), (plain_new b Cb) in H. cbn [bind] in H. injection H as <-.
      split; [reflexivity|]. split; [reflexivity|].
      assert (E : is_empty (EBetween (GStr x) "NOT BETWEEN" (EValue a) "AND" (EValue b)) = Ok false).
      { cbn. rewrite plain_name_nonempty by exact Cx. reflexivity. }
      split; [exact E|].
      exists (lit "(" ++ lit (quote x) ++ lit " NOT BETWEEN " ++ op_sql a ++ lit " AND " ++ op_sql b ++ lit ")")%list.
      split.
      + cbn [write_expr]. unfold defined. rewrite E. cbn [bind write_ident].
        rewrite !flat_cat, !flat_w, !flat_value. rewrite <- !app_assoc. reflexivity.
      + split.
        * intro k. rewrite !fill_app, !fill_lit, !op_sql_fill, !args_lit, !op_sql_args, !non_nil_count.
          cbn [length]. rewrite !Nat.add_0_r. cbn [cond_text]. rewrite ?sapp_assoc. reflexivity.
        * rewrite !args_app, !args_lit, !op_sql_args, app_nil_r. cbn [app].
          cbn [cond_values]. unfold non_nil. cbn [filter]. destruct (is_gnil a), (is_gnil b); reflexivity.
    - apply andb_true_iff in C. destruct C as [Cl Cr].
      apply (W l r a b "AND"); [left; reflexivity|apply IHl, Cl|apply IHr, Cr].
    - apply andb_true_iff in C. destruct C as [Cl Cr].
      apply (W l r a b "OR"); [right; reflexivity|apply IHl, Cl|apply IHr, Cr].
    - apply andb_true_iff in C. destruct C as [Cl Cr]. unfold infix_and.
      destruct (IHr Cr) as (_ & Wb & _). rewrite Wb.
      apply (W l r a b "AND"); [left; reflexivity|apply IHl, Cl|apply IHr, Cr].
    - apply andb_true_iff in C. destruct C as [Cl Cr]. unfold infix_or.
      destruct (IHr Cr) as (_ & Wb & _). rewrite Wb.
      apply (W l r a b "OR"); [right; reflexivity|apply IHl, Cl|apply IHr, Cr].
  Qed.

  (* ----------------------------------------------------------------------- *)
  (* The text reads back                                                        *)
  (* ----------------------------------------------------------------------- *)

  Lemma p_operand_text : forall k v rest, ends_word rest = true ->
    p_operand (op_text k v ++ rest) = Some (op_num k v, rest).
  Proof.
    intros k v rest H. unfold p_operand, op_text, op_num. destruct (is_gnil v).
    - rewrite next_null by exact H. reflexivity.
    - rewrite sapp_assoc, next_param by exact H. reflexivity.
  Qed.

  Lemma p_operands_text : forall vs n k rest, vs <> [] -> length vs <= n ->
    p_operands n (ops_text k vs ++ ")" ++ rest) = Some (ops_num k vs, ")" ++ rest).
  Proof.
    induction vs as [|v [|v' vs] IH]; intros n k rest N L; [congruence| |];
      (destruct n as [|n]; [cbn in L; lia|]); cbn [p_operands].
    - change (ops_text k [v]) with (op_text k v). rewrite p_operand_text by reflexivity. reflexivity.
    - change (ops_text k (v :: v' :: vs)) with (op_text k v ++ ", " ++ ops_text (k + vcount v) (v' :: vs)).
      rewrite !sapp_assoc. rewrite p_operand_text by reflexivity.
      change (next (", " ++ ops_text (k + vcount v) (v' :: vs) ++ ")" ++ rest))
        with (Some (TComma, " " ++ ops_text (k + vcount v) (v' :: vs) ++ ")" ++ rest)). cbn iota.
      destruct n as [|n]; [cbn in L; lia|].
      assert (E : forall m s, p_operands (S m) (" " ++ s) = p_operands (S m) s) by reflexivity.
      rewrite E, IH; [reflexivity|discriminate|cbn in *; lia].
  Qed.

  Lemma ops_text_length : forall vs k, length vs <= String.length (ops_text k vs).
  Proof.
    assert (P : forall k v, 1 <= String.length (op_text k v)).
    { intros k v. unfold op_text. destruct (is_gnil v); cbn; lia. }
    induction vs as [|v [|v' vs] IH]; intro k; [cbn; lia|apply P|].
    change (ops_text k (v :: v' :: vs)) with (op_text k v ++ ", " ++ ops_text (k + vcount v) (v' :: vs)).
    rewrite !slen_app. specialize (IH (k + vcount v)). specialize (P k v). cbn [length] in *. lia.
  Qed.

  (* The condition without its outer parentheses. *)
  Definition inner (k : nat) (c : cond) : string :=
    match c with
    | Cmp x o v => quote x ++ " " ++ sql_op o ++ " " ++ op_text k v
    | In_ g x vs => quote x ++ (if g then " NOT IN (" else " IN (") ++ ops_text k vs ++ ")"
    | Between g x a b =>
      quote x ++ (if g then " NOT BETWEEN " else " BETWEEN ") ++ op_text k a ++ " AND "
      ++ op_text (k + vcount a) b
    | And_ l r => cond_text k l ++ " AND " ++ cond_text (k + count l) r
    | Or_ l r => cond_text k l ++ " OR " ++ cond_text (k + count l) r
    end.
  Lemma cond_text_inner : forall k c, cond_text k c = "(" ++ inner k c ++ ")".
  Proof. intros k c. destruct c; cbn [cond_text inner]; rewrite ?sapp_assoc; reflexivity. Qed.

  Definition is_atom (c : cond) : bool := match c with And_ _ _ | Or_ _ _ => false | _ => true end.

  Lemma p_operand_space : forall s, p_operand (" " ++ s) = p_operand s.
  Proof. reflexivity. Qed.
  Lemma expect_space : forall x s, expect x (" " ++ s) = expect x s.
  Proof. reflexivity. Qed.

  Lemma cmp_rest_text : forall name op k v rest, ends_word rest = true ->
    cmp_rest name op (" " ++ op_text k v ++ rest) = Some (LCmp name op (op_num k v), rest).
  Proof.
    intros name op k v rest H. unfold cmp_rest. rewrite p_operand_space, p_operand_text by exact H. reflexivity.
  Qed.

  Lemma expect_operand : forall x k v rest, ends_word rest = true -> String.eqb x "NULL" = false ->
    expect x (" " ++ op_text k v ++ rest) = None.
  Proof.
    intros x k v rest H N. rewrite expect_space. unfold expect, op_text. destruct (is_gnil v).
    - rewrite next_null by exact H. rewrite N. reflexivity.
    - rewrite sapp_assoc, next_param by exact H. reflexivity.
  Qed.

  Lemma p_atom_text : forall c k rest, is_atom c = true -> clean plain_name c = true ->
    p_atom (inner k c ++ ")" ++ rest) = Some (cond_num k c, ")" ++ rest).
  Proof.
    intros [x o v|g x vs|g x a b|l r|l r] k rest A C; try discriminate; cbn [inner clean cond_num] in *.
    - apply andb_true_iff in C. destruct C as [Cx Cv]. rewrite !sapp_assoc. unfold p_atom.
      rewrite next_name; [|exact Cx|reflexivity].
      set (t := op_text k v ++ ")" ++ rest).
      assert (R : forall op, cmp_rest (split_on "." x) op (" " ++ t)
                  = Some (LCmp (split_on "." x) op (op_num k v), ")" ++ rest)).
      { intro op. apply cmp_rest_text. reflexivity. }
      assert (E1 : expect "NOT" (" " ++ t) = None) by (apply expect_operand; reflexivity).
      assert (E2 : expect "DISTINCT" (" " ++ t) = None) by (apply expect_operand; reflexivity).
      rewrite next_space.
      destruct o; cbn [sql_op];
        lazymatch goal with
        | |- context [next (?o ++ " " ++ t)] =>
          let r := eval cbv in (next (o ++ " ")) in
          lazymatch r with
          | Some (?tk, _) =>
            match tk with
            | TOp _ => change (next (o ++ " " ++ t)) with (Some (tk, " " ++ t)); cbn iota; apply R
            | TWord "LIKE" => change (next (o ++ " " ++ t)) with (Some (tk, " " ++ t)); apply R
            | TWord "ILIKE" => change (next (o ++ " " ++ t)) with (Some (tk, " " ++ t)); apply R
            | _ => idtac
            end
          end
        end.
      + change (next ("IS" ++ " " ++ t)) with (Some (TWord "IS", " " ++ t)). cbn iota.
        change (String.eqb "IS" "IS") with true. cbn iota. unfold is_rest. rewrite E1, E2. apply R.
      + change (next ("IS NOT" ++ " " ++ t)) with (Some (TWord "IS", " NOT " ++ t)). cbn iota.
        change (String.eqb "IS" "IS") with true. cbn iota. unfold is_rest.
        change (expect "NOT" (" NOT " ++ t)) with (Some (" " ++ t)). cbn iota. rewrite E2. apply R.
      + change (next ("NOT LIKE" ++ " " ++ t)) with (Some (TWord "NOT", " LIKE " ++ t)). cbn iota.
        change (String.eqb "NOT" "IS") with false. change (String.eqb "NOT" "NOT") with true. cbn iota.
        change (next (" LIKE " ++ t)) with (Some (TWord "LIKE", " " ++ t)). cbn iota. apply R.
      + change (next ("NOT ILIKE" ++ " " ++ t)) with (Some (TWord "NOT", " ILIKE " ++ t)). cbn iota.
        change (String.eqb "NOT" "IS") with false. change (String.eqb "NOT" "NOT") with true. cbn iota.
        change (next (" ILIKE " ++ t)) with (Some (TWord "ILIKE", " " ++ t)). cbn iota. apply R.
      + change (next ("IS DISTINCT FROM" ++ " " ++ t)) with (Some (TWord "IS", " DISTINCT FROM " ++ t)). cbn iota.
        change (String.eqb "IS" "IS") with true. cbn iota. unfold is_rest.
        change (expect "NOT" (" DISTINCT FROM " ++ t)) with (@None string).
        change (expect "DISTINCT" (" DISTINCT FROM " ++ t)) with (Some (" FROM " ++ t)). cbn iota.
        change (expect "FROM" (" FROM " ++ t)) with (Some (" " ++ t)). apply R.
      + change (next ("IS NOT DISTINCT FROM" ++ " " ++ t)) with (Some (TWord "IS", " NOT DISTINCT FROM " ++ t)).
        cbn iota. change (String.eqb "IS" "IS") with true. cbn iota. unfold is_rest.
        change (expect "NOT" (" NOT DISTINCT FROM " ++ t)) with (Some (" DISTINCT FROM " ++ t)). cbn iota.
        change (expect "DISTINCT" (" DISTINCT FROM " ++ t)) with (Some (" FROM " ++ t)). cbn iota.
        change (expect "FROM" (" FROM " ++ t)) with (Some (" " ++ t)). apply R.
    - rewrite !andb_true_iff in C. destruct C as [[Cx Cv] Cn].
      assert (N : vs <> []) by (destruct vs; [discriminate|discriminate]).
      rewrite !sapp_assoc. unfold p_atom.
      set (t := ops_text k vs ++ ")" ++ ")" ++ rest).
      assert (R : forall g, in_rest g (split_on "." x) (" (" ++ t)
                  = Some (LIn g (split_on "." x) (ops_num k vs), ")" ++ rest)).
      { intro g'. unfold in_rest. change (next (" (" ++ t)) with (Some (TOpen, t)). cbn iota.
        unfold t. rewrite p_operands_text; [reflexivity|exact N|].
        rewrite slen_app. pose proof (ops_text_length vs k). lia. }
      destruct g; (rewrite next_name; [|exact Cx|reflexivity]).
      + change (next (" NOT IN (" ++ t)) with (Some (TWord "NOT", " IN (" ++ t)). cbn iota.
        change (String.eqb "NOT" "IS") with false. change (String.eqb "NOT" "NOT") with true. cbn iota.
        change (next (" IN (" ++ t)) with (Some (TWord "IN", " (" ++ t)). cbn iota. apply R.
      + change (next (" IN (" ++ t)) with (Some (TWord "IN", " (" ++ t)). cbn iota.
        change (String.eqb "IN" "IS") with false. change (String.eqb "IN" "NOT") with false. cbn iota. apply R.
    - rewrite !andb_true_iff in C. destruct C as [[Cx Ca] Cb]. rewrite !sapp_assoc. unfold p_atom.
      set (t := op_text k a ++ " AND " ++ op_text (k + vcount a) b ++ ")" ++ rest).
      assert (R : forall g, between_rest g (split_on "." x) (" " ++ t)
                  = Some (LBetween g (split_on "." x) (op_num k a) (op_num (k + vcount a) b), ")" ++ rest)).
      { intro g'. unfold between_rest, t. rewrite p_operand_space, p_operand_text by reflexivity.
        change (expect "AND" (" AND " ++ op_text (k + vcount a) b ++ ")" ++ rest))
          with (Some (" " ++ op_text (k + vcount a) b ++ ")" ++ rest)). cbn iota.
        rewrite p_operand_space, p_operand_text by reflexivity. reflexivity. }
      destruct g; (rewrite next_name; [|exact Cx|reflexivity]).
      + change (next (" NOT BETWEEN " ++ t)) with (Some (TWord "NOT", " BETWEEN " ++ t)). cbn iota.
        change (String.eqb "NOT" "IS") with false. change (String.eqb "NOT" "NOT") with true. cbn iota.
        change (next (" BETWEEN " ++ t)) with (Some (TWord "BETWEEN", " " ++ t)). cbn iota. apply R.
      + change (next (" BETWEEN " ++ t)) with (Some (TWord "BETWEEN", " " ++ t)). cbn iota.
        change (String.eqb "BETWEEN" "IS") with false. change (String.eqb "BETWEEN" "NOT") with false. cbn iota.
        apply R.
  Qed.

  Fixpoint depth (c : cond) : nat :=
    match c with And_ l r | Or_ l r => S (Nat.max (depth l) (depth r)) | _ => 1 end.

  Lemma more_close : forall b n lv t rest,
    p_more b (S n) lv t (")" ++ rest) = Some (t, ")" ++ rest).
  Proof. intros [] n [] t rest; reflexivity. Qed.

  Lemma next_open_text : forall k c rest, next (cond_text k c ++ rest) = Some (TOpen, inner k c ++ ")" ++ rest).
  Proof. intros k c rest. rewrite cond_text_inner, !sapp_assoc. reflexivity. Qed.

  Lemma prim_of_loose : forall b n k c t rest,
    p_cond b n Loose (inner k c ++ ")" ++ rest) = Some (t, ")" ++ rest) ->
    p_cond b (S n) Prim (cond_text k c ++ rest) = Some (t, rest).
  Proof. intros b n k c t rest H. cbn [p_cond]. rewrite next_open_text, H. reflexivity. Qed.

  (* A condition at level Loose or Tight that is one primary followed by a closing parenthesis. *)
  Lemma lift_prim : forall b n s t rest,
    p_cond b n Prim s = Some (t, ")" ++ rest) -> n <> 0 ->
    p_cond b (S (S n)) Loose s = Some (t, ")" ++ rest)
    /\ p_cond b (S n) Tight s = Some (t, ")" ++ rest).
  Proof.
    intros b n s t rest H N. destruct n as [|n]; [congruence|].
    assert (Q : p_cond b (S (S n)) Tight s = Some (t, ")" ++ rest)).
    { change (p_cond b (S (S n)) Tight s)
        with (match p_cond b (S n) Prim s with Some (t, r) => p_more b (S n) Tight t r | None => None end).
      rewrite H. apply more_close. }
    split; [|exact Q].
    change (p_cond b (S (S (S n))) Loose s)
      with (match p_cond b (S (S n)) Tight s with Some (t, r) => p_more b (S (S n)) Loose t r | None => None end).
    rewrite Q. apply more_close.
  Qed.

  (* Two primaries joined by a connective. *)
  Lemma loose_pair : forall b n k l m r tl tr rest (isand : bool),
    let o := if isand then " AND " else " OR " in
    (forall rest, p_cond b (S n) Prim (cond_text k l ++ rest) = Some (tl, rest)) ->
    (forall n' rest, S n <= S n' -> p_cond b (S n') Prim (cond_text k l ++ rest) = Some (tl, rest)) ->
    (forall n' rest, S n <= S n' -> p_cond b (S n') Prim (cond_text m r ++ rest) = Some (tr, rest)) ->
    p_cond b (S (S (S (S n)))) Loose (cond_text k l ++ o ++ cond_text m r ++ ")" ++ rest)
    = Some ((if isand then LAnd else LOr) tl tr, ")" ++ rest).
  Proof.
    intros b n k l m r tl tr rest isand o _ Hl Hr.
    set (s := cond_text k l ++ o ++ cond_text m r ++ ")" ++ rest).
    set (s2 := o ++ cond_text m r ++ ")" ++ rest).
    set (s3 := " " ++ cond_text m r ++ ")" ++ rest).
    assert (Sp : forall n' rest, S n <= S n' -> p_cond b (S n') Prim (" " ++ cond_text m r ++ rest) = Some (tr, rest)).
    { intros n' rest' L. change (p_cond b (S n') Prim (" " ++ cond_text m r ++ rest'))
        with (match next (cond_text m r ++ rest') with
              | Some (TOpen, r0) => match p_cond b n' Loose r0 with
                 | Some (t, r1) => match next r1 with Some (TClose, r2) => Some (t, r2) | _ => None end
                 | None => None end
              | _ => p_atom (cond_text m r ++ rest') end).
      change (match next (cond_text m r ++ rest') with
              | Some (TOpen, r0) => match p_cond b n' Loose r0 with
                 | Some (t, r1) => match next r1 with Some (TClose, r2) => Some (t, r2) | _ => None end
                 | None => None end
              | _ => p_atom (cond_text m r ++ rest') end) with (p_cond b (S n') Prim (cond_text m r ++ rest')).
      apply Hr, L. }
    assert (P1 : p_cond b (S (S n)) Prim s = Some (tl, s2)) by (apply Hl; lia).
    change (p_cond b (S (S (S (S n)))) Loose s)
      with (match p_cond b (S (S (S n))) Tight s with
            | Some (t, r) => p_more b (S (S (S n))) Loose t r | None => None end).
    change (p_cond b (S (S (S n))) Tight s)
      with (match p_cond b (S (S n)) Prim s with
            | Some (t, r) => p_more b (S (S n)) Tight t r | None => None end).
    rewrite P1.
    change (p_more b (S (S n)) Tight tl s2)
      with (match expect (connective b Tight) s2 with
            | Some r0 => match p_cond b (S n) Prim r0 with
                         | Some (t, r1) => p_more b (S n) Tight (node b Tight tl t) r1 | None => None end
            | None => Some (tl, s2) end).
    destruct (Bool.bool_dec b isand) as [E|E].
    - assert (X : expect (connective b Tight) s2 = Some s3) by (destruct b, isand; congruence || reflexivity).
      rewrite X. unfold s3. rewrite Sp by lia. rewrite more_close. cbn iota. rewrite more_close.
      destruct b, isand; try congruence; reflexivity.
    - assert (X : expect (connective b Tight) s2 = None) by (destruct b, isand; congruence || reflexivity).
      rewrite X.
      change (p_more b (S (S (S n))) Loose tl s2)
        with (match expect (connective b Loose) s2 with
              | Some r0 => match p_cond b (S (S n)) Tight r0 with
                           | Some (t, r1) => p_more b (S (S n)) Loose (node b Loose tl t) r1 | None => None end
              | None => Some (tl, s2) end).
      assert (Y : expect (connective b Loose) s2 = Some s3) by (destruct b, isand; congruence || reflexivity).
      rewrite Y. unfold s3.
      destruct (lift_prim b (S n) (" " ++ cond_text m r ++ ")" ++ rest) tr rest) as [_ Q];
        [apply Sp; lia|discriminate|].
      rewrite Q, more_close. destruct b, isand; try congruence; reflexivity.
  Qed.

  Lemma p_cond_prim : forall b c n k rest, clean plain_name c = true -> 5 * depth c <= n ->
    p_cond b n Prim (cond_text k c ++ rest) = Some (cond_num k c, rest).
  Proof.
    intro b.
    assert (A : forall c n k rest, is_atom c = true -> clean plain_name c = true -> 5 <= n ->
      p_cond b n Prim (cond_text k c ++ rest) = Some (cond_num k c, rest)).
    { intros c n k rest Ha C L. do 5 (destruct n as [|n]; [lia|]). apply prim_of_loose.
      assert (N : exists p r, next (inner k c ++ ")" ++ rest) = Some (TName p, r)).
      { destruct c as [x o v|g x vs|g x a b'|l r|l r]; try discriminate; cbn [clean inner] in *;
          rewrite !sapp_assoc; repeat (apply andb_true_iff in C; destruct C as [C ?]);
          eexists _, _; apply next_name; try exact C; try (destruct g); reflexivity. }
      destruct N as (p & r & N).
      apply (lift_prim b (S (S n))); [|discriminate].
      cbn [p_cond]. rewrite N. apply p_atom_text; assumption. }
    induction c as [x o v|g x vs|g x a b'|l IHl r IHr|l IHl r IHr]; intros n k rest C L.
    - apply A; auto.
    - apply A; auto.
    - apply A; auto.
    - cbn [clean] in C. apply andb_true_iff in C. destruct C as [Cl Cr]. cbn [depth] in L.
      assert (Dl : 1 <= depth l) by (destruct l; cbn; lia).
      do 6 (destruct n as [|n]; [lia|]). apply prim_of_loose. cbn [inner cond_num]. rewrite !sapp_assoc.
      apply (loose_pair b (S n) k l (k + count l) r (cond_num k l) (cond_num (k + count l) r) rest true);
        intros; [apply IHl|apply IHl|apply IHr]; try assumption; lia.
    - cbn [clean] in C. apply andb_true_iff in C. destruct C as [Cl Cr]. cbn [depth] in L.
      assert (Dl : 1 <= depth l) by (destruct l; cbn; lia).
      do 6 (destruct n as [|n]; [lia|]). apply prim_of_loose. cbn [inner cond_num]. rewrite !sapp_assoc.
      apply (loose_pair b (S n) k l (k + count l) r (cond_num k l) (cond_num (k + count l) r) rest false);
        intros; [apply IHl|apply IHl|apply IHr]; try assumption; lia.
  Qed.

  Lemma depth_length : forall c k, 2 * depth c <= String.length (cond_text k c).
  Proof.
    induction c as [x o v|g x vs|g x a b'|l IHl r IHr|l IHl r IHr]; intro k;
      cbn [depth cond_text]; rewrite !slen_app; try (cbn; lia);
      specialize (IHl k); specialize (IHr (k + count l)); cbn [String.length]; lia.
  Qed.

  Lemma more_ends : forall b n lv t rest, ends_cond rest = true -> p_more b (S n) lv t rest = Some (t, rest).
  Proof.
    intros b n lv t rest H. cbn [p_more].
    assert (E : expect (connective b lv) rest = None).
    { unfold expect, ends_cond in *. destruct (next rest) as [[[] r]|]; try reflexivity.
      destruct (String.eqb_spec s "AND") as [->|]; [discriminate|].
      destruct (String.eqb_spec s "OR") as [->|]; [discriminate|].
      destruct (String.eqb_spec (connective b lv) s) as [E|]; [|reflexivity].
      destruct b, lv; cbn in E; congruence. }
    rewrite E. reflexivity.
  Qed.

  Lemma read_cond_text : forall b c k rest, clean plain_name c = true -> ends_cond rest = true ->
    read_cond b (cond_text k c ++ rest) = Some (cond_num k c, rest).
  Proof.
    intros b c k rest C H. unfold read_cond. rewrite slen_app. pose proof (depth_length c k) as D.
    remember (4 + 4 * (String.length (cond_text k c) + String.length rest)) as n eqn:En.
    destruct n as [|[|[|n]]]; try lia.
    change (p_cond b (S (S (S n))) Loose (cond_text k c ++ rest))
      with (match match p_cond b (S n) Prim (cond_text k c ++ rest) with
                  | Some (t, r) => p_more b (S n) Tight t r | None => None end with
            | Some (t, r) => p_more b (S (S n)) Loose t r | None => None end).
    rewrite p_cond_prim; [|exact C|destruct c; cbn [depth] in *; lia].
    rewrite more_ends by exact H. apply more_ends, H.
  Qed.

  (* ----------------------------------------------------------------------- *)
  (* Operands                                                                   *)
  (* ----------------------------------------------------------------------- *)

  Lemma look_op : forall v pre post,
    look (pre ++ non_nil [v] ++ post) (op_num (S (length pre)) v) = Some v.
  Proof.
    intros v pre post. unfold op_num, non_nil. cbn [filter]. destruct (is_gnil v) eqn:E; cbn [negb].
    - destruct v; try discriminate. reflexivity.
    - cbn [look]. destruct (N.eqb_spec (N.of_nat (S (length pre))) 0) as [X|_]; [lia|].
      rewrite Nnat.Nat2N.id. cbn [Nat.sub]. rewrite Nat.sub_0_r, nth_error_app2 by lia.
      rewrite Nat.sub_diag. reflexivity.
  Qed.

  Lemma look_ops : forall vs pre post,
    map (look (pre ++ non_nil vs ++ post)) (ops_num (S (length pre)) vs) = map Some vs.
  Proof.
    induction vs as [|v vs IH]; intros pre post; [reflexivity|]. cbn [ops_num map].
    assert (E : non_nil (v :: vs) = (non_nil [v] ++ non_nil vs)%list).
    { unfold non_nil. cbn [filter]. destruct (negb (is_gnil v)); reflexivity. }
    rewrite E, <- app_assoc, look_op. f_equal.
    replace (S (length pre) + vcount v) with (S (length (pre ++ non_nil [v]))).
    - rewrite app_assoc. apply IH.
    - rewrite app_length, non_nil_count. lia.
  Qed.

  Lemma look_cond : forall c pre post,
    tree_map (look (pre ++ cond_values c ++ post)) (cond_num (S (length pre)) c)
    = tree_map Some (meant c).
  Proof.
    induction c as [x o v|g x vs|g x a b|l IHl r IHr|l IHl r IHr]; intros pre post;
      cbn [cond_num cond_values meant tree_map].
    - rewrite look_op. reflexivity.
    - rewrite look_ops. reflexivity.
    - assert (E : non_nil [a; b] = (non_nil [a] ++ non_nil [b])%list).
      { unfold non_nil. cbn [filter]. destruct (negb (is_gnil a)); reflexivity. }
      rewrite E, <- app_assoc, look_op. f_equal.
      replace (S (length pre) + vcount a) with (S (length (pre ++ non_nil [a]))).
      + rewrite app_assoc. apply look_op.
      + rewrite app_length, non_nil_count. lia.
    - rewrite <- app_assoc, IHl. f_equal.
      replace (S (length pre) + count l) with (S (length (pre ++ cond_values l))).
      + rewrite app_assoc. apply IHr.
      + rewrite app_length. unfold count. lia.
    - rewrite <- app_assoc, IHl. f_equal.
      replace (S (length pre) + count l) with (S (length (pre ++ cond_values l))).
      + rewrite app_assoc. apply IHr.
      + rewrite app_length. unfold count. lia.
  Qed.
End CondText.
