(* Proofs for C12: what is written is balanced. *)
From Verif Require Export Balance WhereP.

Section BalanceP.
  Context {O : Oracle} (dash_ok : bool).
  Notation scan := (scan dash_ok).
  Notation balanced := (balanced dash_ok).
  Notation good_word := (good_word dash_ok).

  Lemma scan_app : forall a b m d, scan (a ++ b)%list m d =
    match scan a m d with Some (m', d') => scan b m' d' | None => None end.
  Proof.
    induction a as [|[c|v] a IH]; intros b m d; cbn [app scan]; [reflexivity| |].
    - destruct m; try apply IH. destruct (Ascii.eqb c "("); [apply IH|].
      destruct (Ascii.eqb c ")"); [destruct d; [reflexivity|apply IH]|].
      destruct (Ascii.eqb c """"); [apply IH|]. destruct (Ascii.eqb c "'"); [apply IH|].
      destruct (Ascii.eqb c "-"); [destruct dash_ok; [apply IH|reflexivity]|apply IH].
    - destruct m; [apply IH|reflexivity|reflexivity].
  Qed.

  (* More open parentheses outside do no harm. *)
  Lemma scan_up : forall q m d m' d' k, scan q m d = Some (m', d') -> scan q m (d + k) = Some (m', d' + k).
  Proof.
    induction q as [|[c|v] q IH]; intros m d m' d' k H; cbn [scan] in *.
    - injection H as <- <-. reflexivity.
    - destruct m; try (apply IH; exact H). destruct (Ascii.eqb c "("); [apply (IH _ (S d)), H|].
      destruct (Ascii.eqb c ")"); [destruct d; [discriminate|cbn [plus]; apply IH, H]|].
      destruct (Ascii.eqb c """"); [apply IH, H|]. destruct (Ascii.eqb c "'"); [apply IH, H|].
      destruct (Ascii.eqb c "-"); [destruct dash_ok; [apply IH, H|discriminate]|apply IH, H].
    - destruct m; try discriminate. apply IH, H.
  Qed.

  (* t goes from a to b open parentheses. *)
  Definition mv (a b : nat) (t : tr) : Prop := forall q, flat t = Ok q -> scan q Out a = Some (Out, b).
  Notation bal := (mv 0 0).

  Lemma mv_up : forall k a b t, mv a b t -> mv (a + k) (b + k) t.
  Proof. intros k a b t H q E. apply scan_up, H, E. Qed.
  Lemma mv_1 : forall t, bal t -> mv 1 1 t.
  Proof. intros t H. apply (mv_up 1 0 0), H. Qed.
  Lemma mv_2 : forall t, bal t -> mv 2 2 t.
  Proof. intros t H. apply (mv_up 2 0 0), H. Qed.
  Lemma mv_cat : forall a b c x y, mv a b x -> mv b c y -> mv a c (x +++ y).
  Proof.
    intros a b c x y Hx Hy q E. rewrite flat_cat in E.
    destruct (flat x) as [qx|] eqn:Ex; [|discriminate]. destruct (flat y) as [qy|] eqn:Ey; [|discriminate].
    injection E as <-. rewrite scan_app, (Hx _ Ex). apply Hy, Ey.
  Qed.
  Lemma bal_cat : forall x y, bal x -> bal y -> bal (x +++ y).
  Proof. intros x y. apply mv_cat. Qed.
  Lemma bal_eps : bal eps.
  Proof. intros q E. injection E as <-. reflexivity. Qed.
  Lemma bal_panic : forall p a b, mv a b (Panic p).
  Proof. intros p a b q E. discriminate. Qed.
  Lemma bal_when : forall c t, bal t -> bal (when c t).
  Proof. intros [] t H; [exact H|apply bal_eps]. Qed.
  Lemma bal_unless : forall c t, bal t -> bal (unless c t).
  Proof. intros [[]|] t H; cbn; [apply bal_eps|exact H|apply bal_panic]. Qed.
  Lemma bal_sep : forall A sep (g : A -> tr) l, bal (w sep) -> (forall x, In x l -> bal (g x)) ->
    bal (sep_by sep (map g l)).
  Proof.
    intros A sep g l Hs H. induction l as [|x [|y l] IH]; [apply bal_eps|apply H; left; reflexivity|].
    change (sep_by sep (map g (x :: y :: l))) with (g x +++ w sep +++ sep_by sep (map g (y :: l))).
    apply bal_cat; [apply bal_cat; [apply H; left; reflexivity|exact Hs]|].
    apply IH. intros z Hz. apply H. right. exact Hz.
  Qed.
  Lemma mv_w : forall a b s, scan (lit s) Out a = Some (Out, b) -> mv a b (w s).
  Proof. intros a b s H q E. rewrite flat_w in E. injection E as <-. exact H. Qed.
  Lemma bal_w : forall s, balanced (lit s) -> bal (w s).
  Proof. intros s H. apply mv_w, H. Qed.
  Lemma bal_app : forall x y, balanced (lit x) -> balanced (lit y) -> balanced (lit (x ++ y)).
  Proof. intros x y Hx Hy. unfold balanced. rewrite lit_app, scan_app, Hx. exact Hy. Qed.
  Lemma scan_pre : forall x y a b, balanced (lit x) -> scan (lit y) Out a = Some (Out, b) ->
    scan (lit (x ++ y)) Out a = Some (Out, b).
  Proof. intros x y a b Hx Hy. pose proof (scan_up _ _ _ _ _ a Hx) as U. cbn [plus] in U.
    rewrite lit_app, scan_app, U. exact Hy. Qed.
  Lemma bal_const : forall s, scan (lit s) Out 0 = Some (Out, 0) -> bal (w s).
  Proof. intros s H. apply mv_w, H. Qed.

  (* ( t ) *)
  Lemma bal_paren : forall p s t, balanced (lit p) -> balanced (lit s) -> bal t ->
    bal (w (p ++ "(") +++ t +++ w (")" ++ s)).
  Proof.
    intros p s t Hp Hs H. apply (mv_cat 0 1 0); [apply (mv_cat 0 1 1); [|apply mv_1, H]|].
    - apply mv_w, scan_pre; [exact Hp|reflexivity].
    - apply mv_w. exact Hs.
  Qed.
  Lemma bal_paren1 : forall t, bal t -> bal (w "(" +++ t +++ w ")").
  Proof. intros t. apply (bal_paren "" ""); reflexivity. Qed.

  (* ----------------------------------------------------------------------- *)
  (* Names                                                                      *)
  (* ----------------------------------------------------------------------- *)

  Lemma scan_name : forall s rest d, ~ In dquote (list_ascii_of_string s) ->
    scan (lit (s ++ String dquote rest)) InName d = scan (lit rest) Out d.
  Proof.
    induction s as [|c s IH]; intros rest d H; [reflexivity|].
    cbn [append lit scan]. change """"%char with dquote. destruct (Ascii.eqb c dquote) eqn:E.
    - apply Ascii.eqb_eq in E. subst. exfalso. apply H. left. reflexivity.
    - apply IH. intro K. apply H. right. exact K.
  Qed.

  Lemma bal_go_quote : forall p, ~ In dquote (list_ascii_of_string p) -> balanced (lit (go_quote p)).
  Proof.
    intros p H. unfold go_quote, balanced. unfold dq, str1. cbn [append lit scan].
    change (Ascii.eqb """" "(") with false. change (Ascii.eqb """" ")") with false.
    change (Ascii.eqb """" """") with true. cbn iota.
    exact (scan_name _ "" 0 (chunks_no_quote p H)).
  Qed.

  Lemma bal_join : forall l, Forall (fun s => balanced (lit s)) l -> balanced (lit (join_with "." l)).
  Proof.
    induction l as [|x [|y l] IH]; intro H; [reflexivity|inversion_clear H; assumption|].
    change (join_with "." (x :: y :: l)) with (x ++ "." ++ join_with "." (y :: l)).
    inversion_clear H. apply bal_app; [assumption|]. apply bal_app; [reflexivity|]. apply IH. assumption.
  Qed.

  Lemma bal_quote : forall s, good_word (Name s) -> balanced (lit (quote s)).
  Proof.
    intros s H. unfold quote. apply bal_join. apply Forall_forall. intros x Hx.
    apply in_map_iff in Hx. destruct Hx as (p & <- & Hp). apply bal_go_quote.
    intro K. apply H. apply (split_in _ _ _ _ Hp K).
  Qed.

  Definition fine (l : list word) : Prop := Forall good_word l.

  Lemma fine_in : forall x l, fine l -> In x l -> good_word x.
  Proof. intros x l H. apply (proj1 (Forall_forall _ _) H). Qed.
  Lemma fine_incl : forall a b, fine b -> incl a b -> fine a.
  Proof. intros a b H I. apply Forall_forall. intros x Hx. apply (fine_in _ _ H), I, Hx. Qed.
  Lemma fine_flat : forall A (f : A -> list word) l x, fine (flat_map f l) -> In x l -> fine (f x).
  Proof.
    intros A f l x H Hx. apply (fine_incl _ _ H). intros y Hy. apply in_flat_map. exists x. auto.
  Qed.

  Lemma bal_as : forall s c, good_word (Name s) -> bal (when c (w (" AS " ++ quote s))).
  Proof. intros s c H. apply bal_when, bal_w. apply (bal_app " AS "); [reflexivity|apply bal_quote, H]. Qed.

  Lemma bal_column : forall c, fine (column_words c) -> bal (write_column c).
  Proof.
    intros c H. inversion_clear H as [|? ? H1 H2]. inversion_clear H2 as [|? ? H3 _].
    apply bal_cat; [apply bal_w, bal_quote, H1|apply bal_as, H3].
  Qed.
  Lemma bal_columns : forall l, fine (flat_map column_words l) -> bal (write_columns l).
  Proof.
    intros l H. apply bal_sep; [apply bal_const; reflexivity|].
    intros x Hx. apply bal_column, (fine_flat _ _ _ _ H Hx).
  Qed.
  Lemma bal_table : forall t, fine (table_words t) -> bal (write_table t).
  Proof.
    intros t H. inversion_clear H as [|? ? H1 H2]. inversion_clear H2 as [|? ? H3 _].
    apply bal_cat; [apply bal_cat|apply bal_as, H3].
    - apply bal_when, bal_const. reflexivity.
    - apply bal_w, bal_quote, H1.
  Qed.
  Lemma bal_from : forall l, fine (flat_map from_words l) -> bal (write_from l).
  Proof.
    intros l H. apply bal_cat; [apply bal_const; reflexivity|]. apply bal_sep; [apply bal_const; reflexivity|].
    intros x Hx. pose proof (fine_flat _ _ _ _ H Hx) as F. destruct x; cbn in *.
    - apply bal_panic.
    - apply bal_table, F.
    - apply bal_w. inversion_clear F. assumption.
  Qed.
  Lemma bal_ident : forall g, fine (ident_words g) -> bal (write_ident g).
  Proof.
    intros g H. destruct g; try apply bal_eps; cbn in *.
    - inversion_clear H. apply bal_w, bal_quote. assumption.
    - destruct e; try apply bal_eps. inversion_clear H. apply bal_w. assumption.
  Qed.
  Lemma bal_value : forall g, bal (write_value g).
  Proof. intros [] q E; injection E as <-; reflexivity. Qed.

  (* ----------------------------------------------------------------------- *)
  (* Numbers                                                                    *)
  (* ----------------------------------------------------------------------- *)

  Lemma bal_plain : forall s, (forall a, In a (list_ascii_of_string s) -> is_num a = true) -> balanced (lit s).
  Proof.
    unfold balanced. induction s as [|c s IH]; intro H; [reflexivity|]. cbn [lit scan].
    assert (C : Ascii.eqb c "(" = false /\ Ascii.eqb c ")" = false /\ Ascii.eqb c """" = false
                /\ Ascii.eqb c "'" = false /\ Ascii.eqb c "-" = false).
    { pose proof (H c (or_introl eq_refl)) as N.
      repeat split; destruct (Ascii.eqb c _) eqn:E; try reflexivity; apply Ascii.eqb_eq in E; subst; discriminate. }
    destruct C as (-> & -> & -> & -> & ->). apply IH. intros a Ha. apply H. right. exact Ha.
  Qed.
  Lemma num_nat : forall n a, In a (list_ascii_of_string (string_of_N n)) -> is_num a = true.
  Proof. intros n a H. exact (string_of_N_digits n a H). Qed.
  Lemma bal_Z : forall z, good_word (Number z) -> balanced (lit (string_of_Z z)).
  Proof.
    intros z G. destruct z as [|p|p]; cbn [string_of_Z].
    - apply bal_plain. intros a H. apply (num_nat 0), H.
    - apply bal_plain. intros a H. apply (num_nat (Npos p)), H.
    - destruct G as [G|G]; [|lia]. unfold Balance.balanced. cbn [append lit Balance.scan].
      change (Ascii.eqb "-" "-") with true. rewrite G. cbn iota.
      pose proof (bal_plain (string_of_N (Npos p)) (num_nat (Npos p))) as B. rewrite G in B. exact B.
  Qed.

  (* ----------------------------------------------------------------------- *)
  (* Expressions                                                                *)
  (* ----------------------------------------------------------------------- *)

  Definition fine_expr (e : expr) : Prop := fine (words e) -> bal (write_expr e).

  Lemma bal_defined : forall e t, bal t -> bal (defined e t).
  Proof. intros e t H. unfold defined. destruct (is_empty e) as [[]|]; cbn; [apply bal_panic|exact H|apply bal_panic]. Qed.

  Lemma bal_selexpr : forall x, fine (selexpr_words words x) ->
    (forall e, In e (selexpr_children x) -> fine_expr e) -> bal (write_selexpr write_expr x).
  Proof.
    intros [|c|s|f v d a|e|e] H K; cbn [selexpr_words write_selexpr] in *.
    - apply bal_panic.
    - apply bal_column, H.
    - inversion_clear H. apply bal_w. assumption.
    - inversion_clear H as [|? ? Hf H1]. inversion_clear H1 as [|? ? Hv H2]. inversion_clear H2 as [|? ? Ha _].
      apply bal_cat; [|apply bal_when, bal_w; apply (bal_app " AS "); [reflexivity|exact Ha]].
      rewrite cat_assoc with (a := w (f ++ "(")). apply (bal_paren f ""); [exact Hf|reflexivity|].
      apply bal_cat; [apply bal_when, bal_const; reflexivity|apply bal_w, Hv].
    - apply (bal_paren "EXISTS " ""); try reflexivity. apply K; [left; reflexivity|exact H].
    - apply (bal_paren "NOT EXISTS " ""); try reflexivity. apply K; [left; reflexivity|exact H].
  Qed.
  Lemma bal_selexprs : forall l, fine (flat_map (selexpr_words words) l) ->
    (forall e, In e (flat_map selexpr_children l) -> fine_expr e) ->
    bal (sep_by ", " (map (write_selexpr write_expr) l)).
  Proof.
    intros l H K. apply bal_sep; [apply bal_const; reflexivity|].
    intros x Hx. apply bal_selexpr; [apply (fine_flat _ _ _ _ H Hx)|].
    intros e He. apply K. apply in_flat_map. exists x. auto.
  Qed.
  Lemma bal_with : forall l, fine (flat_map (with_words words) l) ->
    (forall e, In e (map wq_sub l) -> fine_expr e) -> bal (write_with write_expr l).
  Proof.
    intros l H K. apply bal_when, bal_cat; [apply bal_const; reflexivity|].
    apply bal_sep; [apply bal_const; reflexivity|]. intros x Hx. pose proof (fine_flat _ _ _ _ H Hx) as F.
    inversion_clear F as [|? ? Hn Hs]. apply bal_unless.
    replace (wq_name x ++ " AS (") with ((wq_name x ++ " AS ") ++ "(") by (rewrite sapp_assoc; reflexivity).
    apply (bal_paren (wq_name x ++ " AS ") ""); [apply bal_app; [exact Hn|reflexivity]|reflexivity|].
    apply K; [apply in_map, Hx|exact Hs].
  Qed.
  Lemma bal_joins : forall l, fine (flat_map (join_words words) l) ->
    (forall e, In e (map j_cond l) -> fine_expr e) -> bal (write_joins write_expr l).
  Proof.
    induction l as [|j l IH]; intros H K; [apply bal_eps|]. cbn [write_joins flat_map] in *.
    apply Forall_app in H. destruct H as [Hj Hl]. apply Forall_inv in Hj as Ht. apply Forall_inv_tail, Forall_app in Hj as Hj'.
    destruct Hj' as [Htb Hc]. apply bal_cat; [apply bal_cat; [apply bal_const; reflexivity|]|].
    - unfold write_join. apply bal_cat; [apply bal_cat; [apply bal_cat|apply bal_const; reflexivity]|].
      + apply bal_w, bal_app; [exact Ht|reflexivity].
      + apply bal_table, Htb.
      + apply K; [left; reflexivity|exact Hc].
    - apply IH; [exact Hl|]. intros e He. apply K. right. exact He.
  Qed.
  Lemma bal_where : forall e, fine (words e) -> fine_expr e ->
    bal (unless (cond_empty e) (w " " +++ write_where write_expr e)).
  Proof.
    intros e H K. apply bal_unless, bal_cat; [apply bal_const; reflexivity|]. unfold write_where.
    destruct (cond_empty e) as [[]|]; cbn [bind]; try apply bal_panic.
    apply bal_cat; [apply bal_const; reflexivity|apply K, H].
  Qed.
  Lemma bal_having : forall e, fine (words e) -> fine_expr e ->
    bal (unless (cond_empty e) (w " " +++ write_having write_expr e)).
  Proof.
    intros e H K. apply bal_unless, bal_cat; [apply bal_const; reflexivity|]. unfold write_having.
    destruct (cond_empty e) as [[]|]; cbn [bind]; try apply bal_panic.
    apply bal_cat; [apply bal_const; reflexivity|apply K, H].
  Qed.
  Lemma bal_comment : forall c, good_word (Remark c) -> bal (write_comment c).
  Proof.
    intros c H. unfold good_word in H. destruct dash_ok eqn:D.
    - apply bal_when, bal_w, bal_app; [rewrite D; reflexivity|rewrite D; exact H].
    - subst. apply bal_eps.
  Qed.

  Lemma bal_select : forall s, fine (select_words words s) ->
    (forall e, In e (select_children s) -> fine_expr e) -> bal (write_select_with write_expr s).
  Proof.
    intros s H K. unfold write_select_with. destruct (nonempty (s_exprs s)); [|apply bal_panic].
    unfold select_words in H. apply Forall_inv in H as Hp. apply Forall_inv_tail in H.
    repeat (apply Forall_app in H; let X := fresh "H" in destruct H as [X H]).
    apply Forall_inv in H as Hli. apply Forall_inv_tail in H. apply Forall_inv in H as Hof. apply Forall_inv_tail in H.
    apply Forall_inv in H as Hsu. apply Forall_inv_tail in H. apply Forall_inv in H as Hco.
    unfold select_children in K.
    apply bal_cat; [apply bal_cat|].
    - unfold write_head. repeat apply bal_cat; try (apply bal_const; reflexivity);
        try (apply bal_when; apply bal_const; reflexivity).
      + apply bal_when, bal_cat; [apply bal_w, Hp|apply bal_const; reflexivity].
      + apply bal_when, bal_cat; [apply bal_with|apply bal_const; reflexivity]; [assumption|].
        intros e He. apply K. rewrite in_app_iff. auto.
      + apply bal_when, bal_cat; [apply bal_const; reflexivity|]. apply bal_when.
        apply (bal_paren "DISTINCT ON " ""); try reflexivity. apply bal_columns. assumption.
      + apply bal_selexprs; [assumption|]. intros e He. apply K. rewrite !in_app_iff. auto.
      + apply bal_when, bal_cat; [apply bal_const; reflexivity|apply bal_from; assumption].
    - unfold write_middle. repeat apply bal_cat.
      + apply bal_joins; [assumption|]. intros e He. apply K. rewrite !in_app_iff. auto.
      + apply bal_where; [assumption|]. apply K. rewrite !in_app_iff. cbn. tauto.
      + apply bal_when, bal_cat; [apply bal_const; reflexivity|].
        apply bal_cat; [apply bal_const; reflexivity|apply bal_columns; assumption].
      + apply bal_having; [assumption|]. apply K. rewrite !in_app_iff. cbn. tauto.
    - unfold write_tail. repeat apply bal_cat.
      + apply bal_when, bal_cat; [apply bal_const; reflexivity|]. apply bal_when.
        apply bal_cat; [apply bal_const; reflexivity|]. apply bal_sep; [apply bal_const; reflexivity|].
        intros x Hx. match goal with F : Forall _ (flat_map order_words _) |- _ =>
          pose proof (fine_flat _ _ _ _ F Hx) as Fo end.
        inversion_clear Fo as [|? ? F1 F2]. inversion_clear F2 as [|? ? F3 _].
        apply bal_when, bal_w, bal_app; [exact F1|]. apply (bal_app " "); [reflexivity|exact F3].
      + apply bal_when, bal_cat; [apply bal_const; reflexivity|]. apply bal_when, bal_w.
        apply (bal_app "LIMIT "); [reflexivity|apply bal_Z, Hli].
      + apply bal_when, bal_cat; [apply bal_const; reflexivity|]. apply bal_when, bal_w.
        apply (bal_app "OFFSET "); [reflexivity|apply bal_Z, Hof].
      + apply bal_when, bal_cat; [apply bal_const; reflexivity|apply bal_w, Hsu].
      + apply bal_comment, Hco.
  Qed.

  Lemma bal_op : forall o, good_word (Verbatim o) -> bal (w (" " ++ o ++ " ")).
  Proof. intros o H. apply bal_w. apply (bal_app " "); [reflexivity|]. apply bal_app; [exact H|reflexivity]. Qed.

  Lemma bal_expr : forall e, fine_expr e.
  Proof.
    apply expr_children_ind. intros e IH H.
    destruct e as [|g|g|l|l|s|x|fn l|l o r|x o v|g o a n b|x|x|s|l r|l o r];
      cbn [words children write_expr] in *.
    - apply bal_panic.
    - apply bal_ident, H.
    - apply bal_value.
    - apply bal_sep; [apply bal_const; reflexivity|]. intros x Hx. apply bal_paren1.
      apply IH; [exact Hx|apply (fine_flat _ _ _ _ H Hx)].
    - apply bal_sep; [apply bal_const; reflexivity|]. intros x Hx.
      apply IH; [exact Hx|apply (fine_flat _ _ _ _ H Hx)].
    - inversion_clear H. apply bal_w. assumption.
    - apply bal_paren1. apply IH; [left; reflexivity|exact H].
    - inversion_clear H as [|? ? Hf Hl]. apply (bal_paren fn ""); [exact Hf|reflexivity|].
      apply bal_sep; [apply bal_const; reflexivity|]. intros x Hx.
      apply IH; [exact Hx|apply (fine_flat _ _ _ _ Hl Hx)].
    - apply Forall_app in H. destruct H as [Hl H]. inversion_clear H as [|? ? Ho Hr]. apply bal_defined.
      rewrite !(cat_assoc (w "(")), <- (cat_assoc (w "(") _ (w ")")). apply bal_paren1.
      apply bal_cat; [apply bal_cat; [apply IH; [left; reflexivity|exact Hl]|apply bal_op, Ho]|].
      apply IH; [right; left; reflexivity|exact Hr].
    - apply Forall_app in H. destruct H as [Hl H]. inversion_clear H as [|? ? Ho Hr]. apply bal_defined.
      apply (mv_cat 0 2 0); [|apply mv_w; reflexivity]. apply (mv_cat 0 2 2).
      + apply (mv_cat 0 1 2); [apply (mv_cat 0 1 1); [apply mv_w; reflexivity|]|].
        * apply mv_1, IH; [left; reflexivity|exact Hl].
        * apply mv_w. rewrite <- sapp_assoc. apply scan_pre; [apply bal_app; [reflexivity|exact Ho]|reflexivity].
      + apply mv_2, bal_unless, IH; [right; left; reflexivity|exact Hr].
    - apply Forall_app in H. destruct H as [Hg H]. cbn [app] in H.
      inversion_clear H as [|? ? Ho H1]. inversion_clear H1 as [|? ? Hn H2]. apply Forall_app in H2.
      destruct H2 as [Ha Hb]. apply bal_defined. rewrite !(cat_assoc (w "(")), <- (cat_assoc (w "(") _ (w ")")). apply bal_paren1.
      apply bal_cat; [|apply IH; [right; left; reflexivity|exact Hb]].
      apply bal_cat; [|apply bal_op, Hn]. apply bal_cat; [|apply IH; [left; reflexivity|exact Ha]].
      apply bal_cat; [apply bal_ident, Hg|apply bal_op, Ho].
    - apply (bal_paren "EXISTS " ""); try reflexivity. apply IH; [left; reflexivity|exact H].
    - apply (bal_paren "NOT EXISTS " ""); try reflexivity. apply IH; [left; reflexivity|exact H].
    - apply bal_select; assumption.
    - apply Forall_app in H. destruct H as [Hl Hr]. apply bal_cat; [apply bal_cat|].
      + apply bal_column, Hl.
      + apply bal_const. reflexivity.
      + apply bal_column, Hr.
    - apply Forall_app in H. destruct H as [Hl H]. inversion_clear H as [|? ? Ho Hr]. apply bal_defined.
      rewrite !(cat_assoc (w "(")), <- (cat_assoc (w "(") _ (w ")")). apply bal_paren1.
      apply bal_cat; [apply bal_cat; [apply IH; [left; reflexivity|exact Hl]|apply bal_op, Ho]|].
      apply IH; [right; left; reflexivity|exact Hr].
  Qed.

  (* ----------------------------------------------------------------------- *)
  (* Statements                                                                 *)
  (* ----------------------------------------------------------------------- *)

  Lemma col_eqb_eq : forall a b, col_eqb a b = true -> a = b.
  Proof.
    intros [n a] [n' a'] H. unfold col_eqb in H. cbn in H. apply andb_prop in H as [H1 H2].
    apply String.eqb_eq in H1, H2. subst. reflexivity.
  Qed.
  Lemma pm_get_in : forall c m e, pm_get c m = Some e -> In (c, e) m.
  Proof.
    induction m as [|[c' e'] m IH]; intros e H; [discriminate|]. cbn [pm_get] in H.
    destruct (col_eqb c c') eqn:E.
    - apply col_eqb_eq in E. injection H as ->. subst. left. reflexivity.
    - right. apply IH, H.
  Qed.
  Lemma map_res_combine : forall A B (f : A -> res B) l l', map_res f l = Ok l' ->
    forall p, In p (combine l l') -> f (fst p) = Ok (snd p).
  Proof.
    induction l as [|x l IH]; intros l' H p Hp; cbn [map_res] in H.
    - injection H as <-. destruct Hp.
    - destruct (f x) as [y|] eqn:E; [|discriminate]. cbn [bind] in H.
      destruct (map_res f l) as [ys|] eqn:Es; [|discriminate]. injection H as <-.
      destruct Hp as [<-|Hp]; [exact E|]. apply (IH ys eq_refl p Hp).
  Qed.

  Lemma bal_pairs : forall p, fine (pairs_words p) -> bal (write_pairs p).
  Proof.
    intros p H. unfold write_pairs. destruct (pairs_empty p); [apply bal_panic|].
    unfold pairs_words in H. apply Forall_app in H. destruct H as [Hm H]. apply Forall_app in H. destruct H as [Hc He].
    unfold pairs_values. destruct (p_mode p).
    - apply bal_eps.
    - match goal with |- context [map_res ?f ?l] => destruct (map_res f l) as [es|] eqn:E end; cbn [bind];
        [|apply bal_panic]. cbn [fst snd]. apply bal_sep; [apply bal_const; reflexivity|].
      intros [c e] Hx. pose proof (map_res_combine _ _ _ _ _ E _ Hx) as G. cbn [fst snd] in G.
      destruct (pm_get c (p_map p)) as [e'|] eqn:Eg; [|discriminate]. injection G as ->.
      apply pm_get_in in Eg. pose proof (fine_flat _ _ _ _ Hm Eg) as F. cbn [fst snd] in F.
      apply Forall_app in F. destruct F as [F1 F2]. unfold write_pair. cbn [fst snd].
      apply bal_cat; [apply bal_cat; [apply bal_column, F1|apply bal_const; reflexivity]|apply bal_expr, F2].
    - rewrite !cat_assoc. rewrite <- (cat_assoc (write_columns _)), <- (cat_assoc (w "(")).
      apply bal_cat; [rewrite <- cat_assoc; apply bal_paren1, bal_columns, Hc|].
      apply bal_cat; [apply bal_const; reflexivity|].
      rewrite <- cat_assoc. apply bal_paren1.
      apply bal_sep; [apply bal_const; reflexivity|]. intros x Hx. apply bal_expr, (fine_flat _ _ _ _ He Hx).
  Qed.

  Lemma bal_set : forall p, fine (pairs_words p) -> bal (write_set p).
  Proof. intros p H. apply bal_cat; [apply bal_const; reflexivity|apply bal_pairs, H]. Qed.

  Lemma bal_returning : forall c l, fine (flat_map (selexpr_words words) l) ->
    bal (when c (w " " +++ write_returning l)).
  Proof.
    intros c l H. apply bal_when, bal_cat; [apply bal_const; reflexivity|].
    apply bal_cat; [apply bal_const; reflexivity|]. apply bal_selexprs; [exact H|]. intros e _. apply bal_expr.
  Qed.

  Lemma bal_stmt : forall s, fine (stmt_words s) -> bal (write_stmt s).
  Proof.
    intros [q|i|u|d] H; cbn [stmt_words write_stmt] in *.
    - apply bal_select; [exact H|]. intros e _. apply bal_expr.
    - repeat (apply Forall_app in H; let X := fresh "H" in destruct H as [X H]). apply Forall_inv in H.
      unfold write_insert. destruct (no_str _); [apply bal_panic|].
      apply bal_cat; [|apply bal_comment, H]. apply bal_cat; [|apply bal_returning; assumption].
      apply bal_cat; [|].
      + apply bal_cat; [apply bal_cat; [apply bal_cat|]|].
        * apply bal_const. reflexivity.
        * apply bal_table. assumption.
        * apply bal_when. apply (bal_paren " " ""); try reflexivity. apply bal_columns. assumption.
        * apply bal_unless, bal_cat; [apply bal_const; reflexivity|]. apply bal_unless.
          apply bal_cat; [apply bal_const; reflexivity|apply bal_expr; assumption].
      + apply bal_when, bal_cat; [apply bal_const; reflexivity|]. unfold write_conflict.
        destruct (i_conflict_action i) as [a|]; [|apply bal_eps]. destruct (action_empty a); [apply bal_eps|].
        apply bal_cat; [apply bal_cat; [apply bal_const; reflexivity|]|].
        * apply bal_when, bal_cat; [apply bal_when, bal_paren1, bal_columns; assumption|apply bal_const; reflexivity].
        * destruct a as [|p]; [apply bal_const; reflexivity|].
          apply bal_cat; [apply bal_const; reflexivity|apply bal_set; assumption].
    - repeat (apply Forall_app in H; let X := fresh "H" in destruct H as [X H]). apply Forall_inv in H.
      unfold write_update. destruct (no_str _ || _); [apply bal_panic|].
      apply bal_cat; [|apply bal_comment, H]. apply bal_cat; [|apply bal_returning; assumption].
      apply bal_cat; [|apply bal_where; [assumption|apply bal_expr]].
      apply bal_cat; [|apply bal_when, bal_cat; [apply bal_const; reflexivity|apply bal_from; assumption]].
      apply bal_cat; [|apply bal_set; assumption]. apply bal_cat; [|apply bal_const; reflexivity].
      apply bal_cat; [|apply bal_table; assumption]. apply bal_cat; [|apply bal_const; reflexivity].
      apply bal_cat; [|apply bal_when, bal_const; reflexivity]. apply bal_cat; [|apply bal_const; reflexivity].
      apply bal_when, bal_cat; [|apply bal_const; reflexivity]. apply bal_with; [assumption|]. intros e _. apply bal_expr.
    - repeat (apply Forall_app in H; let X := fresh "H" in destruct H as [X H]). apply Forall_inv in H.
      unfold write_delete. destruct (nonempty (d_from d)); [|apply bal_panic].
      apply bal_cat; [|apply bal_comment, H]. apply bal_cat; [|apply bal_returning; assumption].
      apply bal_cat; [|apply bal_where; [assumption|apply bal_expr]].
      apply bal_cat; [apply bal_cat|].
      + apply bal_const. reflexivity.
      + apply bal_from. assumption.
      + apply bal_when, bal_cat; [apply bal_const; reflexivity|]. apply bal_when.
        apply bal_cat; [apply bal_const; reflexivity|]. apply bal_sep; [apply bal_const; reflexivity|].
        intros x Hx. apply bal_table. match goal with F : Forall _ (flat_map table_words _) |- _ =>
          apply (fine_flat _ _ _ _ F Hx) end.
  Qed.

  (* ----------------------------------------------------------------------- *)
  (* Texts                                                                      *)
  (* ----------------------------------------------------------------------- *)

  (* A placeholder without quotes and parentheses reads like a bound value. *)
  Lemma scan_fill : forall ph q k m d r,
    (forall i v, In v (args q) -> balanced (lit (ph i v))) -> scan q m d = Some r -> scan (lit (fill ph k q)) m d = Some r.
  Proof.
    intros ph. induction q as [|[c|v] q IH]; intros k m d r P H; cbn [fill lit scan args] in *.
    - exact H.
    - destruct m; try (apply IH; assumption). destruct (Ascii.eqb c "("); [apply IH; assumption|].
      destruct (Ascii.eqb c ")"); [destruct d; [discriminate|apply IH; assumption]|].
      destruct (Ascii.eqb c """"); [apply IH; assumption|]. destruct (Ascii.eqb c "'"); [apply IH; assumption|].
      destruct (Ascii.eqb c "-"); [destruct dash_ok; [apply IH; assumption|discriminate]|apply IH; assumption].
    - destruct m; try discriminate. rewrite lit_app, scan_app.
      pose proof (scan_up _ _ _ _ _ d (P k v (or_introl eq_refl))) as U. cbn [plus] in U. rewrite U. apply IH; [|exact H].
      intros i x Hx. apply P. right. exact Hx.
  Qed.
  Lemma bal_dollar : forall i v, balanced (lit (dollar i v)).
  Proof.
    intros i v. unfold dollar. apply (bal_app "$"); [reflexivity|]. apply bal_plain.
    intros a H. apply (num_nat _ a H).
  Qed.
  Lemma bal_colon : forall i v, balanced (lit (colon i v)).
  Proof.
    intros i v. unfold colon. apply (bal_app ":arg_"); [reflexivity|]. apply bal_plain.
    intros a H. apply (num_nat _ a H).
  Qed.
End BalanceP.
