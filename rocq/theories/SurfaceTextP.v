(* Proofs for C61: every text that is written is made of the pieces of the specification. *)
From Verif Require Export Surface BalanceP.

(* ------------------------------------------------------------------------- *)
(* Texts made of pieces                                                        *)
(* ------------------------------------------------------------------------- *)

Definition made_of (Q : string -> Prop) (s : string) : Prop :=
  exists ps, s = concat_str ps /\ Forall Q ps.

Lemma concat_str_app : forall a b, concat_str (a ++ b)%list = concat_str a ++ concat_str b.
Proof. induction a as [|x a IH]; intro b; [reflexivity|]. cbn [app concat_str]. rewrite IH, sapp_assoc. reflexivity. Qed.

Lemma made_nil : forall Q, made_of Q "".
Proof. intro Q. exists []. split; [reflexivity|constructor]. Qed.
Lemma made_one : forall (Q : string -> Prop) s, Q s -> made_of Q s.
Proof. intros Q s H. exists [s]. split; [symmetry; apply sapp_nil|]. constructor; [exact H|constructor]. Qed.
Lemma made_app : forall Q a b, made_of Q a -> made_of Q b -> made_of Q (a ++ b).
Proof.
  intros Q a b (pa & -> & Ha) (pb & -> & Hb). exists (pa ++ pb)%list. split; [symmetry; apply concat_str_app|].
  apply Forall_app. split; assumption.
Qed.
Lemma made_weaken : forall (Q R : string -> Prop) s, (forall p, Q p -> R p) -> made_of Q s -> made_of R s.
Proof. intros Q R s H (ps & E & F). exists ps. split; [exact E|]. eapply Forall_impl; [|exact F]. exact H. Qed.
(* What holds of every piece and of texts put together holds of the whole. *)
Lemma made_holds : forall (Q P : string -> Prop) s, P "" -> (forall a b, P a -> P b -> P (a ++ b)) ->
  (forall p, Q p -> P p) -> made_of Q s -> P s.
Proof.
  intros Q P s P0 Pa H (ps & -> & F). induction F as [|x l Hx F IH]; [exact P0|]. apply Pa; [apply H, Hx|exact IH].
Qed.

(* A text cut into words and single other characters. *)
Definition letter_char (a : ascii) : bool := ((65 <=? N_of_ascii a) && (N_of_ascii a <=? 90))%N.
Fixpoint cut (acc s : string) : list string :=
  match s with
  | EmptyString => [acc]
  | String a s' => if letter_char a then cut (acc ++ String a "") s' else acc :: String a "" :: cut "" s'
  end.
Lemma cut_concat : forall s acc, concat_str (cut acc s) = acc ++ s.
Proof.
  induction s as [|a s IH]; intro acc; cbn [cut]; [reflexivity|]. destruct (letter_char a).
  - rewrite IH, sapp_assoc. reflexivity.
  - cbn [concat_str]. rewrite IH. reflexivity.
Qed.
Definition spelled_out (s : string) : bool :=
  forallb (fun p => String.eqb p "" || existsb (String.eqb p) vocabulary) (cut "" s).

Section Text.
  Context {O : Oracle} (ws : list word).
  Notation M := (made_of (sql_piece ws)).

  Lemma made_const : forall s, spelled_out s = true -> M s.
  Proof.
    intros s H. replace s with (concat_str (cut "" s)) by apply cut_concat. unfold spelled_out in H. revert H.
    generalize (cut "" s) as l. induction l as [|p l IH]; intro H; [apply made_nil|]. cbn [forallb] in H.
    apply andb_prop in H. destruct H as [H1 H2]. cbn [concat_str]. apply made_app; [|apply IH, H2].
    apply orb_prop in H1. destruct H1 as [E|E].
    - apply String.eqb_eq in E. subst. apply made_nil.
    - apply existsb_exists in E. destruct E as (v & Hv & E). apply String.eqb_eq in E. subst. apply made_one, piece_word, Hv.
  Qed.

  (* What a writer writes is made of pieces. *)
  Definition good (t : tr) : Prop := forall x, t = Ok x -> forall s, In (W s) x -> M s.

  Lemma good_eps : good eps.
  Proof. intros x E s H. injection E as <-. destruct H. Qed.
  Lemma good_panic : forall p, good (Panic p).
  Proof. intros p x E. discriminate E. Qed.
  Lemma good_cat : forall a b, good a -> good b -> good (a +++ b).
  Proof.
    intros a b Ha Hb x E s H. unfold cat in E. destruct a as [xa|]; [|discriminate E]. destruct b as [xb|]; [|discriminate E].
    cbn [bind] in E. injection E as <-. apply in_app_or in H. destruct H; [apply (Ha xa)|apply (Hb xb)]; auto.
  Qed.
  Lemma good_when : forall c t, good t -> good (when c t).
  Proof. intros [] t H; [exact H|apply good_eps]. Qed.
  Lemma good_unless : forall c t, good t -> good (unless c t).
  Proof. intros [[]|] t H; cbn; [apply good_eps|exact H|apply good_panic]. Qed.
  Lemma good_defined : forall e t, good t -> good (defined e t).
  Proof. intros e t H. unfold defined. destruct (is_empty e) as [[]|]; cbn; [apply good_panic|exact H|apply good_panic]. Qed.
  Lemma good_sep : forall A sep (g : A -> tr) l, good (w sep) -> (forall x, In x l -> good (g x)) ->
    good (sep_by sep (map g l)).
  Proof.
    intros A sep g l Hs H. induction l as [|x [|y l] IH]; [apply good_eps|apply H; left; reflexivity|].
    change (sep_by sep (map g (x :: y :: l))) with (g x +++ w sep +++ sep_by sep (map g (y :: l))).
    apply good_cat; [apply good_cat; [apply H; left; reflexivity|exact Hs]|].
    apply IH. intros z Hz. apply H. right. exact Hz.
  Qed.
  Lemma good_w : forall s, M s -> good (w s).
  Proof. intros s H x E s' Hs. injection E as <-. destruct Hs as [Hs|[]]. injection Hs as <-. exact H. Qed.
  Lemma good_const : forall s, spelled_out s = true -> good (w s).
  Proof. intros s H. apply good_w, made_const, H. Qed.
  Ltac const := apply good_const; reflexivity.

  Definition ours (l : list word) : Prop := incl l ws.

  Lemma ours_app : forall a b, ours (a ++ b)%list -> ours a /\ ours b.
  Proof. intros a b H. split; intros x Hx; apply H, in_or_app; auto. Qed.
  Lemma ours_cons : forall a b, ours (a :: b) -> In a ws /\ ours b.
  Proof. intros a b H. split; [apply H; left; reflexivity|intros x Hx; apply H; right; exact Hx]. Qed.
  Lemma ours_flat : forall A (f : A -> list word) l x, ours (flat_map f l) -> In x l -> ours (f x).
  Proof. intros A f l x H Hx y Hy. apply H, in_flat_map. exists x. auto. Qed.

  Lemma m_name : forall s, In (Name s) ws -> M (quote s).
  Proof. intros s H. apply made_one, piece_name, H. Qed.
  Lemma m_verb : forall s, In (Verbatim s) ws -> M s.
  Proof. intros s H. apply made_one, piece_verbatim, H. Qed.
  Lemma m_pre : forall a s, spelled_out a = true -> M s -> M (a ++ s).
  Proof. intros a s Ha H. apply made_app; [apply made_const, Ha|exact H]. Qed.
  Lemma m_post : forall a s, spelled_out a = true -> M s -> M (s ++ a).
  Proof. intros a s Ha H. apply made_app; [exact H|apply made_const, Ha]. Qed.

  Lemma good_as : forall s c, In (Name s) ws -> good (when c (w (" AS " ++ quote s))).
  Proof. intros s c H. apply good_when, good_w, (m_pre " AS "); [reflexivity|apply m_name, H]. Qed.
  Lemma good_column : forall c, ours (column_words c) -> good (write_column c).
  Proof.
    intros c H. apply ours_cons in H as [H1 H]. apply ours_cons in H as [H2 _].
    apply good_cat; [apply good_w, m_name, H1|apply good_as, H2].
  Qed.
  Lemma good_columns : forall l, ours (flat_map column_words l) -> good (write_columns l).
  Proof. intros l H. apply good_sep; [const|]. intros x Hx. apply good_column, (ours_flat _ _ _ _ H Hx). Qed.
  Lemma good_table : forall t, ours (table_words t) -> good (write_table t).
  Proof.
    intros t H. apply ours_cons in H as [H1 H]. apply ours_cons in H as [H2 _].
    apply good_cat; [apply good_cat|apply good_as, H2]; [apply good_when; const|apply good_w, m_name, H1].
  Qed.
  Lemma good_from : forall l, ours (flat_map from_words l) -> good (write_from l).
  Proof.
    intros l H. apply good_cat; [const|]. apply good_sep; [const|].
    intros x Hx. pose proof (ours_flat _ _ _ _ H Hx) as F. destruct x; cbn in *.
    - apply good_panic.
    - apply good_table, F.
    - apply good_w, m_verb, F. left. reflexivity.
  Qed.
  Lemma good_ident : forall g, ours (ident_words g) -> good (write_ident g).
  Proof.
    intros g H. destruct g; try apply good_eps; cbn in *.
    - apply good_w, m_name, H. left. reflexivity.
    - destruct e; try apply good_eps. apply good_w, m_verb, H. left. reflexivity.
  Qed.
  Lemma good_value : forall g, good (write_value g).
  Proof.
    assert (V : forall g : gval, good (Ok [B g])).
    { intros g x E s H. injection E as <-. destruct H as [H|[]]. discriminate H. }
    intros g. destruct g; try apply V. const.
  Qed.

  Definition ok_expr (e : expr) : Prop := ours (words e) -> good (write_expr e).

  Lemma good_selexpr : forall x, ours (selexpr_words words x) ->
    (forall e, In e (selexpr_children x) -> ok_expr e) -> good (write_selexpr write_expr x).
  Proof.
    intros [|c|s|f v d a|e|e] H K; cbn [selexpr_words write_selexpr] in *.
    - apply good_panic.
    - apply good_column, H.
    - apply good_w, m_verb, H. left. reflexivity.
    - apply ours_cons in H as [Hf H]. apply ours_cons in H as [Hv H]. apply ours_cons in H as [Ha _].
      repeat apply good_cat.
      + apply good_w, m_post; [reflexivity|apply m_verb, Hf].
      + apply good_when. const.
      + apply good_w, m_verb, Hv.
      + const.
      + apply good_when, good_w, (m_pre " AS "); [reflexivity|apply m_verb, Ha].
    - repeat apply good_cat; try const. apply K; [left; reflexivity|exact H].
    - repeat apply good_cat; try const. apply K; [left; reflexivity|exact H].
  Qed.
  Lemma good_selexprs : forall l, ours (flat_map (selexpr_words words) l) ->
    (forall e, In e (flat_map selexpr_children l) -> ok_expr e) ->
    good (sep_by ", " (map (write_selexpr write_expr) l)).
  Proof.
    intros l H K. apply good_sep; [const|].
    intros x Hx. apply good_selexpr; [apply (ours_flat _ _ _ _ H Hx)|].
    intros e He. apply K. apply in_flat_map. exists x. auto.
  Qed.
  Lemma good_with : forall l, ours (flat_map (with_words words) l) ->
    (forall e, In e (map wq_sub l) -> ok_expr e) -> good (write_with write_expr l).
  Proof.
    intros l H K. apply good_when, good_cat; [const|].
    apply good_sep; [const|]. intros x Hx. pose proof (ours_flat _ _ _ _ H Hx) as F.
    apply ours_cons in F as [Hn Hs]. apply good_unless. repeat apply good_cat; try const.
    - apply good_w, m_post; [reflexivity|apply m_verb, Hn].
    - apply K; [apply in_map, Hx|exact Hs].
  Qed.
  Lemma good_joins : forall l, ours (flat_map (join_words words) l) ->
    (forall e, In e (map j_cond l) -> ok_expr e) -> good (write_joins write_expr l).
  Proof.
    induction l as [|j l IH]; intros H K; [apply good_eps|]. cbn [write_joins flat_map] in *.
    apply ours_app in H as [Hj Hl]. apply ours_cons in Hj as [Ht Hj]. apply ours_app in Hj as [Htb Hc].
    apply good_cat; [apply good_cat; [const|]|].
    - unfold write_join. apply good_cat; [apply good_cat; [apply good_cat|const]|].
      + apply good_w, m_post; [reflexivity|apply m_verb, Ht].
      + apply good_table, Htb.
      + apply K; [left; reflexivity|exact Hc].
    - apply IH; [exact Hl|]. intros e He. apply K. right. exact He.
  Qed.
  Lemma good_where : forall e, ours (words e) -> ok_expr e ->
    good (unless (cond_empty e) (w " " +++ write_where write_expr e)).
  Proof.
    intros e H K. apply good_unless, good_cat; [const|]. unfold write_where.
    destruct (cond_empty e) as [[]|]; cbn [bind]; try apply good_panic.
    apply good_cat; [const|apply K, H].
  Qed.
  Lemma good_having : forall e, ours (words e) -> ok_expr e ->
    good (unless (cond_empty e) (w " " +++ write_having write_expr e)).
  Proof.
    intros e H K. apply good_unless, good_cat; [const|]. unfold write_having.
    destruct (cond_empty e) as [[]|]; cbn [bind]; try apply good_panic.
    apply good_cat; [const|apply K, H].
  Qed.
  Lemma good_comment : forall c, In (Remark c) ws -> good (write_comment c).
  Proof.
    intros c H. unfold write_comment. destruct (no_str c) eqn:E; [apply good_eps|].
    apply good_w, made_one, piece_comment; [exact H|]. intros ->. discriminate E.
  Qed.
  Lemma m_number : forall a z, spelled_out a = true -> In (Number z) ws -> M (a ++ string_of_Z z).
  Proof. intros a z Ha H. apply m_pre; [exact Ha|apply made_one, piece_number, H]. Qed.

  Lemma good_select : forall s, ours (select_words words s) ->
    (forall e, In e (select_children s) -> ok_expr e) -> good (write_select_with write_expr s).
  Proof.
    intros s H K. unfold write_select_with. destruct (nonempty (s_exprs s)); [|apply good_panic].
    unfold select_words in H. apply ours_cons in H as [Hp H].
    apply ours_app in H as [Hw H]. apply ours_app in H as [Hdo H]. apply ours_app in H as [Hex H].
    apply ours_app in H as [Hfr H]. apply ours_app in H as [Hjo H]. apply ours_app in H as [Hwh H].
    apply ours_app in H as [Hgb H]. apply ours_app in H as [Hha H]. apply ours_app in H as [Hob H].
    apply ours_cons in H as [Hli H]. apply ours_cons in H as [Hof H]. apply ours_cons in H as [Hsu H].
    apply ours_cons in H as [Hco _].
    unfold select_children in K.
    apply good_cat; [apply good_cat|].
    - unfold write_head. repeat apply good_cat; try const; try (apply good_when; const).
      + apply good_when, good_cat; [apply good_w, m_verb, Hp|const].
      + apply good_when, good_cat; [apply good_with|const]; [assumption|].
        intros e He. apply K. rewrite in_app_iff. auto.
      + apply good_when, good_cat; [const|]. apply good_when.
        repeat apply good_cat; try const. apply good_columns. assumption.
      + apply good_selexprs; [assumption|]. intros e He. apply K. rewrite !in_app_iff. auto.
      + apply good_when, good_cat; [const|apply good_from; assumption].
    - unfold write_middle. repeat apply good_cat.
      + apply good_joins; [assumption|]. intros e He. apply K. rewrite !in_app_iff. auto.
      + apply good_where; [assumption|]. apply K. rewrite !in_app_iff. cbn. tauto.
      + apply good_when, good_cat; [const|]. apply good_cat; [const|apply good_columns; assumption].
      + apply good_having; [assumption|]. apply K. rewrite !in_app_iff. cbn. tauto.
    - unfold write_tail. repeat apply good_cat.
      + apply good_when, good_cat; [const|]. apply good_when.
        apply good_cat; [const|]. apply good_sep; [const|].
        intros x Hx. pose proof (ours_flat _ _ _ _ Hob Hx) as Fo.
        apply ours_cons in Fo as [F1 Fo]. apply ours_cons in Fo as [F2 _].
        apply good_when, good_w, made_app; [apply m_verb, F1|]. apply (m_pre " "); [reflexivity|apply m_verb, F2].
      + apply good_when, good_cat; [const|]. apply good_when, good_w, (m_number "LIMIT "); [reflexivity|exact Hli].
      + apply good_when, good_cat; [const|]. apply good_when, good_w, (m_number "OFFSET "); [reflexivity|exact Hof].
      + apply good_when, good_cat; [const|apply good_w, m_verb, Hsu].
      + apply good_comment, Hco.
  Qed.

  Lemma good_op : forall o, In (Verbatim o) ws -> good (w (" " ++ o ++ " ")).
  Proof. intros o H. apply good_w, (m_pre " "); [reflexivity|]. apply m_post; [reflexivity|apply m_verb, H]. Qed.

  Lemma good_expr : forall e, ok_expr e.
  Proof.
    apply expr_children_ind. intros e IH H.
    destruct e as [|g|g|l|l|s|x|fn l|l o r|x o v|g o a n b|x|x|s|l r|l o r];
      cbn [words children write_expr] in *.
    - apply good_panic.
    - apply good_ident, H.
    - apply good_value.
    - apply good_sep; [const|]. intros x Hx. repeat apply good_cat; try const.
      apply IH; [exact Hx|apply (ours_flat _ _ _ _ H Hx)].
    - apply good_sep; [const|]. intros x Hx. apply IH; [exact Hx|apply (ours_flat _ _ _ _ H Hx)].
    - apply good_w, m_verb, H. left. reflexivity.
    - repeat apply good_cat; try const. apply IH; [left; reflexivity|exact H].
    - apply ours_cons in H as [Hf Hl]. repeat apply good_cat; try const.
      + apply good_w, m_post; [reflexivity|apply m_verb, Hf].
      + apply good_sep; [const|]. intros x Hx. apply IH; [exact Hx|apply (ours_flat _ _ _ _ Hl Hx)].
    - apply ours_app in H as [Hl H]. apply ours_cons in H as [Ho Hr]. apply good_defined.
      repeat apply good_cat; try const.
      + apply IH; [left; reflexivity|exact Hl].
      + apply good_op, Ho.
      + apply IH; [right; left; reflexivity|exact Hr].
    - apply ours_app in H as [Hl H]. apply ours_cons in H as [Ho Hr]. apply good_defined.
      repeat apply good_cat; try const.
      + apply IH; [left; reflexivity|exact Hl].
      + apply good_w, (m_pre " "); [reflexivity|]. apply m_post; [reflexivity|apply m_verb, Ho].
      + apply good_unless, IH; [right; left; reflexivity|exact Hr].
    - apply ours_app in H as [Hg H]. apply ours_app in H as [Hop H]. apply ours_app in H as [Ha Hb].
      apply ours_cons in Hop as [Ho Hop]. apply ours_cons in Hop as [Hn _]. apply good_defined.
      repeat apply good_cat; try const.
      + apply good_ident, Hg.
      + apply good_op, Ho.
      + apply IH; [left; reflexivity|exact Ha].
      + apply good_op, Hn.
      + apply IH; [right; left; reflexivity|exact Hb].
    - repeat apply good_cat; try const. apply IH; [left; reflexivity|exact H].
    - repeat apply good_cat; try const. apply IH; [left; reflexivity|exact H].
    - apply good_select; assumption.
    - apply ours_app in H as [Hl Hr]. apply good_cat; [apply good_cat|]; [apply good_column, Hl|const|apply good_column, Hr].
    - apply ours_app in H as [Hl H]. apply ours_cons in H as [Ho Hr]. apply good_defined.
      repeat apply good_cat; try const.
      + apply IH; [left; reflexivity|exact Hl].
      + apply good_op, Ho.
      + apply IH; [right; left; reflexivity|exact Hr].
  Qed.

  Lemma good_pairs : forall p, ours (pairs_words p) -> good (write_pairs p).
  Proof.
    intros p H. unfold write_pairs. destruct (pairs_empty p); [apply good_panic|].
    unfold pairs_words in H. apply ours_app in H as [Hm H]. apply ours_app in H as [Hc He].
    unfold pairs_values. destruct (p_mode p).
    - apply good_eps.
    - match goal with |- context [map_res ?f ?l] => destruct (map_res f l) as [es|] eqn:E end; cbn [bind];
        [|apply good_panic]. cbn [fst snd]. apply good_sep; [const|].
      intros [c e] Hx. pose proof (map_res_combine _ _ _ _ _ E _ Hx) as G. cbn [fst snd] in G.
      destruct (pm_get c (p_map p)) as [e'|] eqn:Eg; [|discriminate]. injection G as ->.
      apply pm_get_in in Eg. pose proof (ours_flat _ _ _ _ Hm Eg) as F. cbn [fst snd] in F.
      apply ours_app in F as [F1 F2]. unfold write_pair. cbn [fst snd].
      apply good_cat; [apply good_cat; [apply good_column, F1|const]|apply good_expr, F2].
    - repeat apply good_cat; try const; [apply good_columns, Hc|].
      apply good_sep; [const|]. intros x Hx. apply good_expr, (ours_flat _ _ _ _ He Hx).
  Qed.
  Lemma good_set : forall p, ours (pairs_words p) -> good (write_set p).
  Proof. intros p H. apply good_cat; [const|apply good_pairs, H]. Qed.
  Lemma good_returning : forall c l, ours (flat_map (selexpr_words words) l) ->
    good (when c (w " " +++ write_returning l)).
  Proof.
    intros c l H. apply good_when, good_cat; [const|].
    apply good_cat; [const|]. apply good_selexprs; [exact H|]. intros e _. apply good_expr.
  Qed.

  Lemma good_stmt : forall s, ours (stmt_words s) -> good (write_stmt s).
  Proof.
    intros [q|i|u|d] H; cbn [stmt_words write_stmt] in *.
    - apply good_select; [exact H|]. intros e _. apply good_expr.
    - apply ours_app in H as [Ht H]. apply ours_app in H as [Hc H]. apply ours_app in H as [Hv H].
      apply ours_app in H as [Htg H]. apply ours_app in H as [Ha H]. apply ours_app in H as [Hr H].
      apply ours_cons in H as [Hco _].
      unfold write_insert. destruct (no_str _); [apply good_panic|].
      apply good_cat; [|apply good_comment, Hco]. apply good_cat; [|apply good_returning; assumption].
      apply good_cat; [apply good_cat; [apply good_cat; [apply good_cat|]|]|].
      + const.
      + apply good_table, Ht.
      + apply good_when. repeat apply good_cat; try const. apply good_columns, Hc.
      + apply good_unless, good_cat; [const|]. apply good_unless, good_cat; [const|apply good_expr, Hv].
      + apply good_when, good_cat; [const|]. unfold write_conflict.
        destruct (i_conflict_action i) as [a|]; [|apply good_eps]. destruct (action_empty a); [apply good_eps|].
        apply good_cat; [apply good_cat; [const|]|].
        * apply good_when, good_cat; [|const]. apply good_when. repeat apply good_cat; try const. apply good_columns, Htg.
        * destruct a as [|p]; [const|]. apply good_cat; [const|apply good_set, Ha].
    - apply ours_app in H as [Hw H]. apply ours_app in H as [Ht H]. apply ours_app in H as [Hf H].
      apply ours_app in H as [Hs H]. apply ours_app in H as [Hwh H]. apply ours_app in H as [Hr H].
      apply ours_cons in H as [Hco _].
      unfold write_update. destruct (no_str _ || _); [apply good_panic|].
      apply good_cat; [|apply good_comment, Hco]. apply good_cat; [|apply good_returning; assumption].
      apply good_cat; [|apply good_where; [assumption|apply good_expr]].
      apply good_cat; [|apply good_when, good_cat; [const|apply good_from; assumption]].
      apply good_cat; [|apply good_set, Hs]. apply good_cat; [|const].
      apply good_cat; [|apply good_table, Ht]. apply good_cat; [|const].
      apply good_cat; [|apply good_when; const]. apply good_cat; [|const].
      apply good_when, good_cat; [|const]. apply good_with; [assumption|]. intros e _. apply good_expr.
    - apply ours_app in H as [Hf H]. apply ours_app in H as [Hu H]. apply ours_app in H as [Hwh H].
      apply ours_app in H as [Hr H]. apply ours_cons in H as [Hco _].
      unfold write_delete. destruct (nonempty (d_from d)); [|apply good_panic].
      apply good_cat; [|apply good_comment, Hco]. apply good_cat; [|apply good_returning; assumption].
      apply good_cat; [|apply good_where; [assumption|apply good_expr]].
      apply good_cat; [apply good_cat|].
      + const.
      + apply good_from, Hf.
      + apply good_when, good_cat; [const|]. apply good_when.
        apply good_cat; [const|]. apply good_sep; [const|].
        intros x Hx. apply good_table, (ours_flat _ _ _ _ Hu Hx).
  Qed.
End Text.

(* ------------------------------------------------------------------------- *)
(* The three texts                                                             *)
(* ------------------------------------------------------------------------- *)

Section Texts.
  Context (P Q : string -> Prop) (HPQ : forall s, P s -> Q s).
  Notation M := (made_of Q).

  Lemma std_text : forall (t : trace) c, M (std_buf c) -> (forall s, In (W s) t -> made_of P s) ->
    (forall k, length (std_vals c) < k <= length (std_vals (fold_left std_step t c)) -> Q ("$" ++ string_of_nat k)) ->
    M (std_buf (fold_left std_step t c)).
  Proof.
    induction t as [|o t IH]; intros c Hc Ht Hk; [exact Hc|]. cbn [fold_left] in *. apply IH.
    - destruct o as [s|v]; cbn [std_step std_buf].
      + apply made_app; [exact Hc|]. apply (made_weaken P); [exact HPQ|]. apply Ht. left. reflexivity.
      + apply made_app; [exact Hc|]. apply made_one, Hk. split; [lia|].
        assert (L : forall t c, length (std_vals c) <= length (std_vals (fold_left std_step t c))).
        { clear. induction t as [|o t IH]; intro c; [apply le_n|]. cbn [fold_left]. etransitivity; [|apply IH].
          destruct o; cbn [std_step std_vals]; [apply le_n|]. rewrite app_length. lia. }
        etransitivity; [|apply L]. cbn [std_step std_vals]. rewrite app_length. cbn [length]. lia.
    - intros s Hs. apply Ht. right. exact Hs.
    - intros k Hk'. apply Hk. destruct o; cbn [std_step std_vals] in *; [exact Hk'|]. rewrite app_length in Hk'. lia.
  Qed.

  Lemma named_text : forall (t : trace) c, M (named_buf c) -> (forall s, In (W s) t -> made_of P s) ->
    (forall k, Q (":arg_" ++ string_of_nat k)) -> M (named_buf (fold_left named_step t c)).
  Proof.
    induction t as [|o t IH]; intros c Hc Ht Hk; [exact Hc|]. cbn [fold_left] in *. apply IH.
    - destruct o as [s|v]; cbn [named_step named_buf].
      + apply made_app; [exact Hc|]. apply (made_weaken P); [exact HPQ|]. apply Ht. left. reflexivity.
      + apply made_app; [exact Hc|]. apply made_one. exact (Hk _).
    - intros s Hs. apply Ht. right. exact Hs.
    - exact Hk.
  Qed.

  Lemma raw_text {O : Oracle} : forall (t : trace) buf x, M buf -> (forall s, In (W s) t -> made_of P s) ->
    (forall v l, In (B v) t -> format_value v = Ok l -> Q l) -> run_raw_from buf t = Ok x -> M x.
  Proof.
    induction t as [|o t IH]; intros buf x Hb Ht Hv E; cbn [run_raw_from] in E; [injection E as <-; exact Hb|].
    destruct o as [s|v].
    - apply (IH (buf ++ s)); try assumption.
      + apply made_app; [exact Hb|]. apply (made_weaken P); [exact HPQ|]. apply Ht. left. reflexivity.
      + intros s' Hs. apply Ht. right. exact Hs.
      + intros v l Hi. apply Hv. right. exact Hi.
    - destruct (format_value v) as [l|] eqn:F; [|discriminate E]. cbn [bind] in E. apply (IH (buf ++ l)); try assumption.
      + apply made_app; [exact Hb|]. apply made_one, (Hv v); [left; reflexivity|exact F].
      + intros s' Hs. apply Ht. right. exact Hs.
      + intros v' l' Hi. apply Hv. right. exact Hi.
  Qed.
End Texts.

(* The arguments of Query() are the values bound, in order. *)
Lemma std_vals_in : forall (t : trace) c v, In (B v) t -> In v (std_vals (fold_left std_step t c)).
Proof.
  assert (K : forall (t : trace) c v, In v (std_vals c) -> In v (std_vals (fold_left std_step t c))).
  { induction t as [|o t IH]; intros c v H; [exact H|]. cbn [fold_left]. apply IH.
    destruct o; cbn [std_step std_vals]; [exact H|]. apply in_or_app. left. exact H. }
  induction t as [|o t IH]; intros c v H; [destruct H|]. cbn [fold_left]. destruct H as [->|H]; [|apply IH, H].
  apply K. cbn [std_step std_vals]. apply in_or_app. right. left. reflexivity.
Qed.
