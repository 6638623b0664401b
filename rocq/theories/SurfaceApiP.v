(* Proofs for C61: the words of a statement are those of the arguments of the calls that made it. *)
From Verif Require Export SurfaceTextP ConvP.

(* ------------------------------------------------------------------------- *)
(* Results of loops                                                            *)
(* ------------------------------------------------------------------------- *)

Lemma bind_ok {A B} : forall (r : res A) (f : A -> res B) b, bind r f = Ok b -> exists a, r = Ok a /\ f a = Ok b.
Proof. intros [a|p] f b H; [exists a; auto|discriminate H]. Qed.
Lemma map_res_ok {A B} (f : A -> res B) : forall l m, map_res f l = Ok m ->
  forall y, In y m -> exists x, In x l /\ f x = Ok y.
Proof.
  induction l as [|x l IH]; intros m E y H; cbn [map_res] in E; [injection E as <-; destruct H|].
  destruct (bind_ok _ _ _ E) as (y0 & E0 & E1). destruct (bind_ok _ _ _ E1) as (ys & E2 & E3). injection E3 as <-.
  destruct H as [<-|H]; [exists x; split; [left; reflexivity|exact E0]|].
  destruct (IH ys E2 y H) as (x' & H1 & H2). exists x'. split; [right; exact H1|exact H2].
Qed.
Lemma fold_res_inv {A B} (f : A -> B -> res A) (I : A -> Prop) (P : B -> Prop) :
  (forall a b a', I a -> P b -> f a b = Ok a' -> I a') ->
  forall l a a', I a -> (forall b, In b l -> P b) -> fold_res f l a = Ok a' -> I a'.
Proof.
  intros S. induction l as [|b l IH]; intros a a' Ha Hl E; cbn [fold_res] in E; [injection E as <-; exact Ha|].
  destruct (bind_ok _ _ _ E) as (a1 & E1 & E2). apply (IH a1); [|intros b' Hb; apply Hl; right; exact Hb|exact E2].
  apply (S a b); [exact Ha|apply Hl; left; reflexivity|exact E1].
Qed.
Lemma Forall_flat {A B} (P : B -> Prop) (f : A -> list B) : forall l,
  Forall P (flat_map f l) <-> forall x, In x l -> Forall P (f x).
Proof.
  intro l. split.
  - intros H x Hx. apply Forall_forall. intros y Hy. apply (proj1 (Forall_forall _ _) H). apply in_flat_map. exists x. auto.
  - intros H. apply Forall_forall. intros y Hy. apply in_flat_map in Hy. destruct Hy as (x & Hx & Hy).
    apply (proj1 (Forall_forall _ _) (H x Hx)), Hy.
Qed.

(* ------------------------------------------------------------------------- *)
(* Names cut out of texts                                                      *)
(* ------------------------------------------------------------------------- *)

Lemma chars_concat : forall l a, In a (list_ascii_of_string (concat_str l)) <->
  exists s, In s l /\ In a (list_ascii_of_string s).
Proof.
  assert (A : forall x y, list_ascii_of_string (x ++ y) = (list_ascii_of_string x ++ list_ascii_of_string y)%list).
  { induction x as [|c x IH]; intro y; [reflexivity|]. cbn [append list_ascii_of_string app]. rewrite IH. reflexivity. }
  induction l as [|x l IH]; intro a; cbn [concat_str].
  - split; [intros []|intros (s & [] & _)].
  - rewrite A, in_app_iff, IH. split.
    + intros [H|(s & H1 & H2)]; [exists x; split; [left; reflexivity|exact H]|exists s; split; [right; exact H1|exact H2]].
    + intros (s & [<-|H1] & H2); [left; exact H2|right; exists s; auto].
Qed.
Lemma cut_refl : forall s, cut_from s s.
Proof. intro s. exists "", "". rewrite sapp_nil. reflexivity. Qed.
Lemma cut_trans : forall a b c, cut_from a b -> cut_from b c -> cut_from a c.
Proof.
  intros a b c (x & y & ->) (x' & y' & ->). exists (x' ++ x), (y ++ y'). rewrite !sapp_assoc. reflexivity.
Qed.
Lemma cut_chars : forall n s, cut_from n s -> forall a, In a (list_ascii_of_string n) -> In a (list_ascii_of_string s).
Proof.
  intros n s (x & y & ->) a H. replace (x ++ n ++ y) with (concat_str [x; n; y]) by (cbn [concat_str]; rewrite sapp_nil; reflexivity).
  apply chars_concat. exists n. split; [cbn; tauto|exact H].
Qed.
Lemma trim_cut : forall s, cut_from (trim_space s) s.
Proof.
  intro s. destruct (trim_trimmed s) as (x & m & y & E & _ & _ & _ & _ & ->).
  exists (concat_str (map chunk_bytes x)), (concat_str (map chunk_bytes y)).
  rewrite <- (chunks_bytes s) at 1. rewrite E, !map_app, !concat_str_app. reflexivity.
Qed.
Lemma split_cut : forall sep s p, In p (split_on sep s) -> cut_from p s.
Proof.
  intros sep s p H. rewrite <- (join_split sep s). revert H. generalize (split_on sep s) as l.
  induction l as [|x l IH]; intro H; [destruct H|]. destruct l as [|y l].
  - destruct H as [<-|[]]. apply cut_refl.
  - change (join_with (str1 sep) (x :: y :: l)) with (x ++ str1 sep ++ join_with (str1 sep) (y :: l)).
    destruct H as [<-|H]; [exists "", (str1 sep ++ join_with (str1 sep) (y :: l)); reflexivity|].
    apply (cut_trans _ _ _ (IH H)). exists (x ++ str1 sep), "". rewrite sapp_nil, sapp_assoc. reflexivity.
Qed.

Lemma word_char : forall r, is_word r = true -> forall a, In a (list_ascii_of_string (encode_rune r)) -> plain_char a = true.
Proof.
  intros r H a Ha. unfold encode_rune in Ha.
  assert (L : (r < 128)%N).
  { unfold is_word, is_letter, is_digit, between in H.
    repeat (apply orb_prop in H; destruct H as [H|H]); try (apply andb_prop in H; destruct H as [H1 H2];
      apply N.leb_le in H2; lia); apply N.eqb_eq in H; lia. }
  rewrite (proj2 (N.ltb_lt _ _) L) in Ha. destruct Ha as [<-|[]]. unfold plain_char, digit_char, chr.
  rewrite N_ascii_embedding by lia. unfold is_word, is_letter, is_digit, between in H. cbv zeta.
  repeat (apply orb_prop in H; destruct H as [H|H]); rewrite H, ?orb_true_r; reflexivity.
Qed.
Definition plain_token (t : token) : Prop :=
  tk_type t = "Literal" -> forall a, In a (list_ascii_of_string (tk_value t)) -> plain_char a = true.
Lemma lex_plain : forall n rs t, In t (lex_all n rs) -> plain_token t.
Proof.
  induction n as [|n IH]; intros rs t H; [destruct H|]. cbn [lex_all] in H.
  destruct (lex_next rs) as [[t0 rest]|] eqn:E; [|destruct H]. destruct H as [<-|H]; [|exact (IH _ _ H)].
  unfold lex_next in E. destruct (drop_while is_whitespace rs) as [|r rs']; [discriminate E|].
  destruct (r =? 0)%N; [discriminate E|]. destruct (r =? 10)%N; [injection E as <- _; intro K; discriminate K|].
  destruct (symbol r) as [s|] eqn:S.
  - injection E as <- _. intro K. cbn in K. subst s. unfold symbol in S.
    repeat match type of S with context [if ?b then _ else _] => destruct b; [discriminate S|] end. discriminate S.
  - destruct (is_word r) eqn:Wr; [|injection E as <- _; intro K; discriminate K].
    destruct (read_word (r :: rs')) as [wd rest'] eqn:R. injection E as <- _. intros _ a Ha. cbn [tk_value] in Ha.
    unfold string_of_runes in Ha. apply chars_concat in Ha. destruct Ha as (x & Hx & Ha).
    apply in_map_iff in Hx. destruct Hx as (y & <- & Hy). apply (word_char y); [|exact Ha].
    assert (Q : forall l w rest, read_word l = (w, rest) -> forall y, In y w -> is_word y = true).
    { clear. induction l as [|z l IH]; intros w rest E y Hy; cbn [read_word] in E; [injection E as <- _; destruct Hy|].
      destruct (is_word z) eqn:Z; [|injection E as <- _; destruct Hy].
      destruct (read_word l) as [w' rest'] eqn:R. injection E as <- _. destruct Hy as [<-|Hy]; [exact Z|exact (IH _ _ eq_refl y Hy)]. }
    exact (Q _ _ _ R y Hy).
Qed.

(* ------------------------------------------------------------------------- *)
(* What holds of the words of the arguments holds of the words of the statement *)
(* ------------------------------------------------------------------------- *)

Section Api.
  Context {O : Oracle} (ok : word -> Prop).
  Hypothesis ok_cut : forall s n, ok (Name s) -> cut_from n s -> ok (Name n).
  Hypothesis ok_plain : forall n, (forall a, In a (list_ascii_of_string n) -> plain_char a = true) -> ok (Name n).
  Hypothesis ok_star : ok (Name "*").
  Hypothesis ok_own : forall v, In v own_texts -> ok (Verbatim v).
  Hypothesis ok_number : forall z, ok (Number z).
  Hypothesis ok_remark : ok (Remark "").

  Notation okl := (Forall ok).

  Lemma ok_empty_name : ok (Name "").
  Proof. apply ok_plain. intros a []. Qed.
  Lemma okl_column : forall n, ok (Name n) -> okl (column_words (lk_column n)).
  Proof. intros n H. repeat constructor; [exact H|apply ok_empty_name]. Qed.
  Lemma okl_table : forall n, ok (Name n) -> okl (table_words (lk_table n)).
  Proof. intros n H. repeat constructor; [exact H|apply ok_empty_name]. Qed.
  Lemma ok_trim : forall s, ok (Name s) -> ok (Name (trim_space s)).
  Proof. intros s H. apply (ok_cut s); [exact H|apply trim_cut]. Qed.

  Lemma check_ok : forall c c', check_column c = Ok c' -> c' = c.
  Proof. intros c c' H. unfold check_column in H. destruct (no_str (c_name c)); [discriminate H|]. injection H as <-. reflexivity. Qed.
  Lemma okl_split : forall s cols, ok (Name s) -> split_columns s = Ok cols -> okl (flat_map column_words cols).
  Proof.
    intros s cols H E. apply Forall_flat. intros c Hc. destruct (map_res_ok _ _ _ E c Hc) as (i & Hi & Ec).
    apply check_ok in Ec. subst c. apply okl_column, ok_trim. apply (ok_cut s); [exact H|].
    exact (split_cut _ _ _ Hi).
  Qed.
  Lemma okl_to_column : forall g c, okl (column_arg g) -> to_column g = Ok c -> okl (column_words c).
  Proof.
    intros g c H E. destruct (bind_ok _ _ _ E) as (c0 & E0 & E1). destruct (no_str (c_name c0)); [discriminate E1|].
    injection E1 as <-. destruct g; try discriminate E0; injection E0 as <-; cbn [column_arg] in H.
    - apply okl_column, ok_trim. inversion_clear H. assumption.
    - exact H.
  Qed.
  Lemma okl_to_columns1 : forall g cols, okl (column_arg g) -> to_columns1 g = Ok cols -> okl (flat_map column_words cols).
  Proof.
    intros g cols H E. destruct g; try discriminate E; cbn [to_columns1 column_arg] in *.
    - apply (okl_split s); [inversion_clear H; assumption|exact E].
    - destruct (bind_ok _ _ _ E) as (c0 & E0 & E1). apply check_ok in E0. subst c0. injection E1 as <-.
      cbn [flat_map]. rewrite app_nil_r. exact H.
  Qed.
  Lemma okl_concat : forall A B (f : A -> res (list B)) (h : B -> list word) l r,
    (forall x y, In x l -> f x = Ok y -> okl (flat_map h y)) ->
    concat_res (map f l) = Ok r -> okl (flat_map h r).
  Proof.
    intros A B f h l r H E. destruct (bind_ok _ _ _ E) as (ls & E0 & E1). injection E1 as <-.
    apply Forall_flat. intros b Hb. apply in_concat in Hb. destruct Hb as (y & Hy & Hb).
    destruct (map_res_ok _ _ _ E0 y Hy) as (fx & Hfx & Ey). apply in_map_iff in Hfx. destruct Hfx as (x & <- & Hx).
    exact (proj1 (Forall_flat _ _ _) (H x y Hx Ey) b Hb).
  Qed.
  Lemma okl_to_columns : forall l cols, okl (flat_map column_arg l) -> to_columns l = Ok cols -> okl (flat_map column_words cols).
  Proof.
    intros l cols H E.
    assert (G : concat_res (map to_columns1 l) = Ok cols -> okl (flat_map column_words cols)).
    { apply (okl_concat _ _ to_columns1). intros x y Hx. apply okl_to_columns1, (proj1 (Forall_flat _ _ _) H x Hx). }
    destruct l as [|g [|g' l]]; [apply G; exact E| |destruct g; apply G; exact E]. destruct g; try (apply G; exact E); cbn [to_columns] in E.
    - cbn [flat_map column_arg] in H. rewrite app_nil_r in H.
      refine (okl_concat _ _ (fun s => to_columns1 (GStr s)) column_words _ _ _ E).
      intros x y Hx Ey. apply (okl_to_columns1 (GStr x)); [|exact Ey]. constructor; [|constructor].
      apply (proj1 (Forall_forall _ _) H). apply in_map, Hx.
    - cbn [flat_map column_arg] in H. rewrite app_nil_r in H. apply Forall_flat. intros c Hc.
      destruct (map_res_ok _ _ _ E c Hc) as (c0 & H0 & E0). apply check_ok in E0. subst c0.
      apply (proj1 (Forall_flat _ _ _) H c H0).
  Qed.

  Lemma okl_scolumns : forall cols, okl (flat_map column_words cols) -> okl (flat_map (selexpr_words words) (map SColumn cols)).
  Proof. intros cols H. rewrite flat_map_concat_map, map_map, <- flat_map_concat_map. exact H. Qed.
  Lemma as_selexpr_words : forall g x, as_selexpr g = Some x -> okl (select_arg g) -> okl (selexpr_words words x).
  Proof.
    intros g x E H. destruct g; try discriminate E.
    - destruct e; try discriminate E; injection E as <-; exact H.
    - injection E as <-. exact H.
    - destruct s; try discriminate E; injection E as <-; exact H.
  Qed.
  Lemma okl_to_selexprs1 : forall g l, okl (select_arg g) -> to_selexprs1 g = Ok l -> okl (flat_map (selexpr_words words) l).
  Proof.
    intros g l H E. unfold to_selexprs1 in E. destruct (as_selexpr g) as [x|] eqn:A.
    - destruct (selexpr_empty x); [discriminate E|]. injection E as <-. cbn [flat_map]. rewrite app_nil_r.
      exact (as_selexpr_words g x A H).
    - destruct g; try discriminate E. destruct (bind_ok _ _ _ E) as (cols & E0 & E1). injection E1 as <-.
      apply okl_scolumns, (okl_split s); [inversion_clear H; assumption|exact E0].
  Qed.
  Lemma okl_to_selexprs : forall l r, okl (flat_map select_arg l) -> to_selexprs l = Ok r -> okl (flat_map (selexpr_words words) r).
  Proof.
    intros l r H E.
    assert (G : concat_res (map to_selexprs1 l) = Ok r -> okl (flat_map (selexpr_words words) r)).
    { apply (okl_concat _ _ to_selexprs1). intros x y Hx. apply okl_to_selexprs1, (proj1 (Forall_flat _ _ _) H x Hx). }
    destruct l as [|g [|g' l]]; [apply G; exact E| |destruct g; apply G; exact E]. destruct g; try (apply G; exact E); cbn [to_selexprs] in E;
      cbn [flat_map select_arg column_arg] in H; rewrite app_nil_r in H.
    - injection E as <-. apply Forall_flat. intros x Hx. apply in_map_iff in Hx. destruct Hx as (s & <- & Hs).
      apply okl_column. apply (proj1 (Forall_forall _ _) H), in_map, Hs.
    - destruct (bind_ok _ _ _ E) as (cols & E0 & E1). injection E1 as <-. apply okl_scolumns, Forall_flat. intros c Hc.
      destruct (map_res_ok _ _ _ E0 c Hc) as (c0 & H0 & E2). apply check_ok in E2. subst c0.
      apply (proj1 (Forall_flat _ _ _) H c H0).
    - injection E as <-. exact H.
  Qed.

  Lemma okl_to_table : forall g t, okl (table_arg g) -> to_table g = Ok t -> okl (table_words t).
  Proof.
    intros g t H E. destruct (bind_ok _ _ _ E) as (t0 & E0 & E1). destruct (no_str (t_name t0)); [discriminate E1|].
    injection E1 as <-. destruct g; try discriminate E0; injection E0 as <-; [|exact H].
    apply okl_table. inversion_clear H. assumption.
  Qed.
  Lemma okl_to_into : forall g t, okl (table_arg g) -> to_into g = Ok t -> okl (table_words t).
  Proof.
    intros g t H E. destruct (bind_ok _ _ _ E) as (t0 & E0 & E1). destruct (no_str (t_name t0)); [discriminate E1|].
    injection E1 as <-. destruct g; try discriminate E0; injection E0 as <-; try exact H.
    apply okl_table. inversion_clear H. assumption.
  Qed.
  Lemma okl_to_from : forall l r, okl (flat_map table_arg l) -> to_from l = Ok r -> okl (flat_map from_words r).
  Proof.
    intros l r H E. destruct (bind_ok _ _ _ E) as (r0 & E0 & E1). destruct (nonempty r0); [|discriminate E1]. injection E1 as <-.
    apply Forall_flat. intros x Hx. destruct (map_res_ok _ _ _ E0 x Hx) as (g & Hg & Eg).
    pose proof (proj1 (Forall_flat _ _ _) H g Hg) as F. destruct g; try discriminate Eg; cbn [to_fromitem table_arg] in *.
    - injection Eg as <-. apply okl_table. inversion_clear F. assumption.
    - destruct e; try discriminate Eg. injection Eg as <-. exact F.
    - injection Eg as <-. exact F.
    - injection Eg as <-. constructor.
  Qed.
  Lemma okl_affix : forall g s, okl (affix_arg g) -> (to_suffix g = Ok s \/ to_prefix g = Ok s) -> ok (Verbatim s).
  Proof.
    intros g s H [E|E]; destruct (bind_ok _ _ _ E) as (t0 & E0 & E1); destruct (no_str t0); try discriminate E1;
      injection E1 as <-; destruct g; try discriminate E0; injection E0 as <-; inversion_clear H; assumption.
  Qed.

  (* -- joins ---------------------------------------------------------------- *)

  Lemma join_parts : forall j, okl (join_words words j) <->
    ok (Verbatim (j_type j)) /\ okl (table_words (j_table j)) /\ okl (words (j_cond j)).
  Proof. intro j. unfold join_words. rewrite Forall_cons_iff, Forall_app. reflexivity. Qed.
  Lemma okl_parse : forall n toks, length toks <= n -> (forall t, In t toks -> plain_token t) ->
    forall ch j j', okl (join_words words j) -> parse_loop ch toks j = Ok (j', None) -> okl (join_words words j').
  Proof.
    assert (Ty : forall j ty, okl (join_words words j) -> In ty own_texts -> okl (join_words words (set_type j ty))).
    { intros j ty H I. apply join_parts in H. apply join_parts. destruct H as (H1 & H2 & H3).
      split; [apply ok_own, I|split; assumption]. }
    assert (Tb : forall j n, okl (join_words words j) -> ok (Name n) -> okl (join_words words (set_table j (lk_table n)))).
    { intros j n H I. apply join_parts in H. apply join_parts. destruct H as (H1 & H2 & H3).
      split; [exact H1|split; [apply okl_table, I|exact H3]]. }
    assert (Cd : forall j c, okl (join_words words j) -> okl (words c) -> okl (join_words words (set_cond j c))).
    { intros j c H I. apply join_parts in H. apply join_parts. destruct H as (H1 & H2 & H3).
      split; [exact H1|split; [exact H2|exact I]]. }
    assert (On : forall l r, ok (Name l) -> ok (Name r) -> okl (words (EOn (lk_column l) (lk_column r)))).
    { intros l r Hl Hr. cbn [words]. apply Forall_app. split; apply okl_column; assumption. }
    assert (Cond : forall j, okl (join_words words j) -> okl (words (j_cond j))).
    { intros j H. apply join_parts in H. apply H. }
    assert (Lit : forall t, plain_token t -> is_type "Literal" t = true -> ok (Name (tk_value t))).
    { intros t H I. apply String.eqb_eq in I. apply ok_plain. exact (H I). }
    induction n as [|n IH]; intros toks L P ch j j' Hj E; destruct toks as [|e rest]; cbn [length] in L;
      try (cbn [parse_loop] in E; injection E as <-; exact Hj); [lia|].
    assert (Pr : forall t, In t rest -> plain_token t) by (intros t Ht; apply P; right; exact Ht).
    cbn [parse_loop] in E.
    destruct (ch && (is_type "AND" e || is_type "OR" e)).
    { destruct rest as [|l rest1]; [discriminate E|]. destruct (is_type "Literal" l) eqn:Ll; [|discriminate E].
      destruct rest1 as [|q rest2]; [discriminate E|]. destruct (is_type "=" q); [|discriminate E].
      destruct rest2 as [|r rest3]; [discriminate E|]. destruct (is_type "Literal" r) eqn:Lr; [|discriminate E].
      cbn [length] in L. refine (IH rest3 _ _ _ _ _ _ E); [lia|intros t Ht; apply Pr; do 3 right; exact Ht|].
      apply Cd; [exact Hj|]. cbn [words]. apply Forall_app. split; [apply Cond, Hj|]. constructor.
      - apply ok_own. destruct (is_type "AND" e); cbn; tauto.
      - apply (On (tk_value l) (tk_value r)); apply Lit; try assumption; apply Pr; cbn; tauto. }
    destruct (is_type "JOIN" e); [refine (IH rest _ Pr _ _ _ Hj E); lia|].
    destruct (is_type "INNER" e || is_type "LEFT" e || is_type "RIGHT" e).
    { destruct rest as [|x rest1]; [injection E as <-; exact Hj|].
      destruct (is_type "JOIN" x); [|injection E as <-; exact Hj]. cbn [length] in L.
      refine (IH rest1 _ _ _ _ _ _ E); [lia|intros t Ht; apply Pr; right; exact Ht|]. apply Ty; [exact Hj|].
      destruct (is_type "INNER" e); [cbn; tauto|]. destruct (is_type "LEFT" e); cbn; tauto. }
    destruct (is_type "Literal" e) eqn:Le.
    { destruct rest as [|x rest1]; [injection E as <-; exact Hj|]. cbn [length] in L.
      destruct (is_type "ON" x).
      - refine (IH rest1 _ _ _ _ _ _ E); [lia|intros t Ht; apply Pr; right; exact Ht|]. apply Tb; [exact Hj|].
        apply Lit; [apply P; left; reflexivity|exact Le].
      - destruct (is_type "=" x); [|injection E as <-; exact Hj].
        destruct rest1 as [|r rest2]; [discriminate E|]. destruct (is_type "Literal" r) eqn:Lr; [|discriminate E].
        cbn [length] in L. refine (IH rest2 _ _ _ _ _ _ E); [lia|intros t Ht; apply Pr; do 2 right; exact Ht|].
        apply Cd; [exact Hj|]. apply On; apply Lit; try assumption; [apply P; left; reflexivity|apply Pr; cbn; tauto]. }
    destruct (is_type "ON" e || is_type "(" e || is_type ")" e); [refine (IH rest _ Pr _ _ _ Hj E); lia|].
    injection E as <-. exact Hj.
  Qed.
  Lemma okl_must_parse : forall s j, must_parse_join s = Ok j -> okl (join_words words j).
  Proof.
    intros s j E. destruct (bind_ok _ _ _ E) as ([j0 o] & E0 & E1). cbn [fst snd] in E1. destruct o; [discriminate E1|].
    injection E1 as <-. unfold parse_join in E0. refine (okl_parse _ _ (le_n _) _ _ _ _ _ E0).
    - intros t Ht. exact (lex_plain _ _ t Ht).
    - repeat constructor; try apply ok_empty_name. apply ok_own. cbn. tauto.
  Qed.
  Lemma okl_set_table : forall j t, okl (join_words words j) -> okl (table_words t) -> okl (join_words words (set_table j t)).
  Proof.
    intros j t H I. apply join_parts in H. apply join_parts. destruct H as (H1 & H2 & H3).
    split; [exact H1|split; [exact I|exact H3]].
  Qed.
  Lemma okl_handle : forall a b j, okl (table_arg a) -> okl (match b with GExpr e => words e | _ => [] end) ->
    handle_join a b = Ok j -> okl (join_words words j).
  Proof.
    intros a b j Ha Hb E. destruct (bind_ok _ _ _ E) as (t & Et & E1). destruct (bind_ok _ _ _ E1) as (j0 & Ej & E2).
    injection E2 as <-.
    assert (Ht : okl (table_words t)).
    { destruct a; try discriminate Et; injection Et as <-; [|exact Ha]. apply okl_table. inversion_clear Ha. assumption. }
    apply okl_set_table; [|exact Ht]. destruct b; try discriminate Ej; [exact (okl_must_parse _ _ Ej)|].
    destruct e; try discriminate Ej; injection Ej as <-; (constructor; [apply ok_own; cbn; tauto|];
      apply Forall_app; split; [exact Ht|exact Hb]).
  Qed.

  (* -- values --------------------------------------------------------------- *)

  Lemma okl_new_expression : forall g e, okl (value_arg g) -> new_expression g = Ok e -> okl (words e).
  Proof.
    intros g e H E. destruct g; try discriminate E; cbn [new_expression value_arg] in *;
      try (injection E as <-; constructor);
      repeat (match type of E with context [match ?x with _ => _ end] => is_var x; destruct x end; try discriminate E);
      injection E as <-; first [exact H|constructor].
  Qed.
  Lemma okl_wrapper : forall e, okl (words e) -> okl (words (new_wrapper e)).
  Proof. intros e H. destruct e; exact H. Qed.
  Lemma okl_elements : forall (l : list gval) es, okl (flat_map value_arg l) -> map_res new_expression l = Ok es -> okl (flat_map words es).
  Proof.
    intros l es H E. apply Forall_flat. intros e He. destruct (map_res_ok _ _ _ E e He) as (g & Hg & Eg).
    exact (okl_new_expression g e (proj1 (Forall_flat _ _ _) H g Hg) Eg).
  Qed.
  Lemma value_nil : forall A (f : A -> gval) l, (forall x, value_arg (f x) = []) -> okl (flat_map value_arg (map f l)).
  Proof. intros A f l H. apply Forall_flat. intros g Hg. apply in_map_iff in Hg. destruct Hg as (x & <- & _). rewrite H. constructor. Qed.
  Lemma okl_to_array : forall g es, okl (list_arg g) -> to_array g = Ok es -> okl (flat_map words es).
  Proof.
    intros g es H E.
    assert (One : okl (value_arg g) -> map_res new_expression [g] = Ok es -> okl (flat_map words es)).
    { intros H1. apply okl_elements. cbn [flat_map]. rewrite app_nil_r. exact H1. }
    destruct g; cbn [to_array slice_elems list_arg] in *; try (injection E as <-; constructor); try (apply One; [exact H|exact E]);
      try (refine (okl_elements _ _ _ E); apply value_nil; reflexivity).
    - destruct k; try (apply One; [exact H|exact E]); refine (okl_elements _ _ _ E); apply value_nil; reflexivity.
    - refine (okl_elements _ _ _ E). rewrite flat_map_concat_map, map_map, <- flat_map_concat_map. exact H.
    - exact (okl_elements _ _ H E).
    - destruct e; try (apply One; [exact H|exact E]). injection E as <-. constructor.
  Qed.
  Lemma list_of_value : forall g, okl (list_arg g) -> forall e, new_expression g = Ok e -> okl (words e).
  Proof.
    intros g H e E. apply (okl_new_expression g e); [|exact E]. destruct g; try exact H; constructor.
  Qed.
  Lemma okl_new_array : forall l e, okl (flat_map list_arg l) -> new_array l = Ok e -> okl (words e).
  Proof.
    intros l e H E. destruct (bind_ok _ _ _ E) as (es & E0 & E1). injection E1 as <-. cbn [words].
    assert (G : map_res new_expression l = Ok es -> okl (flat_map words es)).
    { intros E'. apply Forall_flat. intros x Hx. destruct (map_res_ok _ _ _ E' x Hx) as (g & Hg & Eg).
      exact (list_of_value g (proj1 (Forall_flat _ _ _) H g Hg) x Eg). }
    destruct l as [|g [|g' l]]; try (apply G; exact E0).
    cbn [flat_map] in H. rewrite app_nil_r in H. exact (okl_to_array g es H E0).
  Qed.
  Lemma okl_rows : forall g es, okl (rows_arg g) -> to_array_list g = Ok es -> okl (flat_map words es).
  Proof.
    intros g es H E. apply Forall_flat. intros e He. destruct (map_res_ok _ _ _ E e He) as (row & Hr & Er).
    refine (okl_new_array row e _ Er). apply Forall_flat. intros v Hv.
    assert (Plain : forall A (f : A -> gval) rows, (forall x, list_arg (f x) = []) -> In row (map (map f) rows) -> okl (list_arg v)).
    { intros A f rows N I. apply in_map_iff in I. destruct I as (r & <- & _). apply in_map_iff in Hv. destruct Hv as (x & <- & _).
      rewrite N. constructor. }
    destruct g; cbn [row_elems rows_arg] in *; try (destruct Hr).
    - refine (Plain _ _ _ _ Hr); reflexivity.
    - destruct k; try destruct Hr; refine (Plain _ _ _ _ Hr); reflexivity.
    - refine (Plain _ _ _ _ Hr); reflexivity.
    - apply in_map_iff in Hr. destruct Hr as (r & <- & Hr). apply in_map_iff in Hv. destruct Hv as (x & <- & Hx).
      cbn [list_arg value_arg]. exact (proj1 (Forall_flat _ _ _) (proj1 (Forall_flat _ _ _) H r Hr) x Hx).
    - exact (proj1 (Forall_flat _ _ _) (proj1 (Forall_flat _ _ _) H row Hr) v Hv).
  Qed.
  Lemma rows_of_list : forall g, okl (rows_arg g) -> (forall es, to_array_list g = Ok es -> nonempty es = true) \/ okl (list_arg g).
  Proof. intros g H. destruct g; try (right; exact H); right; constructor. Qed.
  Lemma okl_array_list : forall l e, okl (flat_map rows_arg l) -> new_array_list l = Ok e -> okl (words e).
  Proof.
    intros l e H E. destruct l as [|g l]; [discriminate E|]. cbn [new_array_list] in E.
    destruct (bind_ok _ _ _ E) as (es & E0 & E1).
    destruct (nonempty es).
    - injection E1 as <-. cbn [words]. apply (okl_rows g); [|exact E0]. cbn [flat_map] in H. apply Forall_app in H. apply H.
    - destruct (bind_ok _ _ _ E1) as (a & E2 & E3). injection E3 as <-. cbn [words flat_map]. rewrite app_nil_r.
      refine (okl_new_array _ _ _ E2). apply Forall_flat. intros x Hx. pose proof (proj1 (Forall_flat _ _ _) H x Hx) as F.
      destruct x; try exact F; constructor.
  Qed.

  (* -- SET ------------------------------------------------------------------ *)

  Lemma okl_pairs : forall p, okl (pairs_words p) <->
    (forall c e, In (c, e) (p_map p) -> okl (column_words c) /\ okl (words e))
    /\ okl (flat_map column_words (p_cols p)) /\ okl (flat_map words (p_exprs p)).
  Proof.
    intro p. unfold pairs_words. rewrite !Forall_app, Forall_flat. split; intros (H1 & H2 & H3); (split; [|split; assumption]).
    - intros c e H. pose proof (H1 _ H) as F. cbn [fst snd] in F. apply Forall_app in F. exact F.
    - intros [c e] H. cbn [fst snd]. apply Forall_app. exact (H1 c e H).
  Qed.
  Lemma pm_set_in : forall c e m c' e', In (c', e') (pm_set c e m) -> (c', e') = (c, e) \/ In (c', e') m.
  Proof.
    induction m as [|[c0 e0] m IH]; intros c' e' H; cbn [pm_set] in H.
    - destruct H as [H|[]]. left. symmetry. exact H.
    - destruct (col_eqb c c0).
      + destruct H as [H|H]; [left; symmetry; exact H|right; right; exact H].
      + destruct H as [H|H]; [right; left; exact H|]. destruct (IH _ _ H) as [K|K]; [left; exact K|right; right; exact K].
  Qed.
  Lemma okl_add : forall p c e p', okl (pairs_words p) -> okl (column_words c) -> okl (words e) ->
    pairs_add p c e = Ok p' -> okl (pairs_words p').
  Proof.
    intros p c e p' H Hc He E. unfold pairs_add in E. apply okl_pairs in H. destruct H as (H1 & H2 & H3).
    destruct (p_mode p); try discriminate E; cbv zeta in E; injection E as <-; apply okl_pairs; cbn [p_map p_cols p_exprs];
      (split; [|split; [|exact H3]]).
    1,3: intros c' e' I; apply pm_set_in in I; destruct I as [I|I]; [injection I as -> ->; auto|exact (H1 _ _ I)].
    all: destruct (pm_get c (p_map p)); [exact H2|]; rewrite flat_map_app; apply Forall_app; split; [exact H2|];
      cbn [flat_map]; rewrite app_nil_r; exact Hc.
  Qed.
  Lemma okl_pset : forall p c p', okl (pairs_words p) -> okl (column_words c) -> pairs_set p c = Ok p' -> okl (pairs_words p').
  Proof.
    intros p c p' H Hc E. unfold pairs_set in E. apply okl_pairs in H. destruct H as (H1 & H2 & H3).
    destruct (p_mode p); try discriminate E; cbv zeta in E; injection E as <-; apply okl_pairs; cbn [p_map p_cols p_exprs];
      (split; [exact H1|split; [|exact H3]]); rewrite flat_map_app; apply Forall_app; (split; [exact H2|]);
      cbn [flat_map]; rewrite app_nil_r; exact Hc.
  Qed.
  Lemma okl_use : forall p e p', okl (pairs_words p) -> okl (words e) -> pairs_use p e = Ok p' -> okl (pairs_words p').
  Proof.
    intros p e p' H He E. unfold pairs_use in E. apply okl_pairs in H. destruct H as (H1 & H2 & H3).
    destruct (p_mode p); try discriminate E; injection E as <-; apply okl_pairs; cbn [p_map p_cols p_exprs].
    split; [exact H1|split; [exact H2|]]. rewrite flat_map_app; apply Forall_app; split; [exact H3|].
    cbn [flat_map]. rewrite app_nil_r. exact He.
  Qed.
  Lemma okl_merge_pair : forall p kv p', okl (pairs_words p) -> okl (column_arg (fst kv) ++ value_arg (snd kv)) ->
    merge_pair p kv = Ok p' -> okl (pairs_words p').
  Proof.
    intros p kv p' H Hkv E. apply Forall_app in Hkv. destruct Hkv as [Hk Hv].
    destruct (bind_ok _ _ _ E) as (c & Ec & E1). destruct (bind_ok _ _ _ E1) as (e & Ee & E2).
    refine (okl_add _ _ _ _ H _ _ E2); [exact (okl_to_column _ _ Hk Ec)|]. apply okl_wrapper. exact (okl_new_expression _ _ Hv Ee).
  Qed.
  Lemma okl_merge_arg : forall p g p', okl (pairs_words p) -> okl (set_arg g) -> merge_arg p g = Ok p' -> okl (pairs_words p').
  Proof.
    intros p g p' H Hg E.
    assert (Cols : okl (column_arg g) -> (do cols <- to_columns [g]; fold_res pairs_set cols p) = Ok p' -> okl (pairs_words p')).
    { intros Hc E'. destruct (bind_ok _ _ _ E') as (cols & E0 & E1).
      assert (K : okl (flat_map column_words cols)).
      { refine (okl_to_columns _ _ _ E0). cbn [flat_map]. rewrite app_nil_r. exact Hc. }
      refine (fold_res_inv pairs_set (fun p => okl (pairs_words p)) (fun c => okl (column_words c)) _ _ _ _ H _ E1).
      - intros a b a'. apply okl_pset.
      - exact (proj1 (Forall_flat _ _ _) K). }
    destruct g; try discriminate E; cbn [merge_arg set_arg] in *.
    - exact (Cols Hg E).
    - refine (fold_res_inv merge_pair (fun p => okl (pairs_words p)) (fun kv => okl (column_arg (fst kv) ++ value_arg (snd kv))) _ _ _ _ H _ E).
      + intros a b a'. apply okl_merge_pair.
      + intros kv I. apply in_map_iff in I. destruct I as (kv0 & <- & I). exact (proj1 (Forall_flat _ _ _) Hg kv0 I).
    - refine (fold_res_inv merge_pair (fun p => okl (pairs_words p)) (fun kv => okl (column_arg (fst kv) ++ value_arg (snd kv))) _ _ _ _ H _ E).
      + intros a b a'. apply okl_merge_pair.
      + intros kv I. exact (proj1 (Forall_flat _ _ _) Hg kv I).
    - exact (okl_merge_pair p (_, _) p' H Hg E).
    - exact (Cols Hg E).
  Qed.
  Lemma okl_merge_set : forall p l p', okl (pairs_words p) -> okl (flat_map set_arg l) -> merge_set p l = Ok p' -> okl (pairs_words p').
  Proof.
    intros p l p' H Hl E.
    refine (fold_res_inv merge_arg (fun p => okl (pairs_words p)) (fun g => okl (set_arg g)) _ _ _ _ H _ E).
    - intros a b a'. apply okl_merge_arg.
    - exact (proj1 (Forall_flat _ _ _) Hl).
  Qed.
  Lemma okl_to_set : forall l p, okl (flat_map set_arg l) -> to_set l = Ok p -> okl (pairs_words p).
  Proof. intros l p. apply okl_merge_set. constructor. Qed.
  Lemma okl_pairs_values : forall p cols es, okl (pairs_words p) -> pairs_values p = Ok (cols, es) ->
    okl (flat_map column_words cols) /\ okl (flat_map words es).
  Proof.
    intros p cols es H E. apply okl_pairs in H. destruct H as (H1 & H2 & H3). unfold pairs_values in E.
    destruct (p_mode p); try (injection E as <- <-; split; assumption).
    destruct (bind_ok _ _ _ E) as (es0 & E0 & E1). injection E1 as <- <-. split; apply Forall_flat.
    - intros c Hc.
      assert (F : forall l r, map_res (fun c => match pm_get c (p_map p) with Some e => Ok e
                                | None => Panic (PMsg "loukoum: invalid state for stmt.PairContainer") end) l = Ok r ->
                  In c l -> exists e, pm_get c (p_map p) = Some e).
      { induction l as [|x l IH]; intros r Er I; [destruct I|]. cbn [map_res] in Er.
        destruct (bind_ok _ _ _ Er) as (y & Ey & Er1). destruct (bind_ok _ _ _ Er1) as (ys & Eys & _).
        destruct I as [->|I]; [|exact (IH _ Eys I)]. destruct (pm_get c (p_map p)) as [e|]; [exists e; reflexivity|discriminate Ey]. }
      destruct (F _ _ E0 Hc) as (e & Ee). apply pm_get_in in Ee. apply (H1 _ _ Ee).
    - intros e He. destruct (map_res_ok _ _ _ E0 e He) as (c & _ & Ec). destruct (pm_get c (p_map p)) as [e'|] eqn:G; [|discriminate Ec].
      injection Ec as ->. apply pm_get_in in G. apply (H1 _ _ G).
  Qed.

  (* -- conditions of WHERE -------------------------------------------------- *)

  Lemma okl_infix : forall l o r, okl (words l) -> In o own_texts -> okl (words r) -> okl (words (EInfix l (Some o) (new_wrapper r))).
  Proof.
    intros l o r Hl Ho Hr. cbn [words]. apply Forall_app. split; [exact Hl|]. constructor; [apply ok_own, Ho|apply okl_wrapper, Hr].
  Qed.
  Lemma okl_where : forall wh c wh', okl (words wh) -> okl (words c) ->
    where_where wh c = Ok wh' \/ where_and wh c = Ok wh' \/ where_or wh c = Ok wh' -> okl (words wh').
  Proof.
    intros wh c wh' Hw Hc E.
    assert (A : where_and wh c = Ok wh' -> okl (words wh')).
    { intros E'. destruct (bind_ok _ _ _ E') as (b & _ & E1). destruct b; [discriminate E1|]. injection E1 as <-.
      apply okl_infix; [exact Hw|cbn; tauto|exact Hc]. }
    destruct E as [E|[E|E]]; [|exact (A E)|].
    - destruct (bind_ok _ _ _ E) as (b & _ & E1). destruct b; [|exact (A E1)]. injection E1 as <-. apply okl_wrapper, Hc.
    - destruct (bind_ok _ _ _ E) as (b & _ & E1). destruct b; [discriminate E1|]. injection E1 as <-.
      apply okl_infix; [exact Hw|cbn; tauto|exact Hc].
  Qed.

  (* -- the four builders ----------------------------------------------------- *)

  Definition ok_select (s : select) : Prop :=
    ok (Verbatim (s_prefix s)) /\ okl (flat_map (with_words words) (s_with s)) /\ okl (flat_map column_words (s_distinct_on s))
    /\ okl (flat_map (selexpr_words words) (s_exprs s)) /\ okl (flat_map from_words (s_from s))
    /\ okl (flat_map (join_words words) (s_joins s)) /\ okl (words (s_where s)) /\ okl (flat_map column_words (s_group_by s))
    /\ okl (words (s_having s)) /\ okl (flat_map order_words (s_order_by s)) /\ ok (Verbatim (s_suffix s)) /\ ok (Remark (s_comment s)).
  Lemma ok_select_words : forall s, ok_select s <-> okl (select_words words s).
  Proof.
    intro s. unfold ok_select, select_words. rewrite Forall_cons_iff, !Forall_app, !Forall_cons_iff. split.
    - intros (H1 & H2 & H3 & H4 & H5 & H6 & H7 & H8 & H9 & H10 & H11 & H12).
      repeat (split; [first [assumption|apply ok_number]|]). repeat split; try assumption; try apply ok_number. constructor.
    - intuition.
  Qed.
  Ltac field H := destruct H as (H1 & H2 & H3 & H4 & H5 & H6 & H7 & H8 & H9 & H10 & H11 & H12);
    unfold ok_select;
    cbn [with_prefix with_with with_distinct with_distinct_on with_exprs with_from with_joins with_where with_group_by
         with_having with_order_by with_limit with_offset with_suffix with_comment s_prefix s_with s_distinct_on s_exprs s_from
         s_joins s_where s_group_by s_having s_order_by s_suffix s_comment];
    repeat (split; [first [assumption|idtac]|]); try assumption.

  Lemma sel_step_ok : forall q c q', ok_select q -> okl (sel_call_words c) -> sel_step q c = Ok q' -> ok_select q'.
  Proof.
    intros q c q' H Hc E. destruct c; cbn [sel_step sel_call_words] in *.
    - destruct (nonempty _); [discriminate E|]. destruct (bind_ok _ _ _ E) as (cols & E0 & E1). destruct (nonempty cols); [|discriminate E1].
      injection E1 as <-. field H. exact (okl_to_columns _ _ Hc E0).
    - injection E as <-. field H.
    - destruct (bind_ok _ _ _ E) as (es & E0 & E1). injection E1 as <-. field H.
      refine (okl_to_selexprs _ _ _ E0). destruct args; [|exact Hc]. repeat constructor. exact ok_star.
    - destruct (nonempty _); [discriminate E|]. destruct (bind_ok _ _ _ E) as (f & E0 & E1). injection E1 as <-. field H.
      exact (okl_to_from _ _ Hc E0).
    - assert (Add : forall j, okl (join_words words j) -> add_join q j = Ok q' -> ok_select q').
      { intros j Hj E'. destruct (bind_ok _ _ _ E') as (b & _ & E1). destruct b; [discriminate E1|]. injection E1 as <-. field H.
        rewrite flat_map_app. apply Forall_app. split; [assumption|]. cbn [flat_map]. rewrite app_nil_r. exact Hj. }
      destruct args as [|a0 [|a1 [|a2 [|a3 args]]]]; try discriminate E; cbn [sel_join] in E.
      + destruct (bind_ok _ _ _ E) as (j & E0 & E1). apply (Add j); [|exact E1].
        destruct a0; try discriminate E0; [exact (okl_must_parse _ _ E0)|]. injection E0 as <-. exact Hc.
      + destruct (bind_ok _ _ _ E) as (j & E0 & E1). apply (Add j); [|exact E1].
        assert (Hc' : okl (table_arg a0 ++ match a1 with GExpr e => words e | _ => [] end)) by (destruct a0; exact Hc).
        apply Forall_app in Hc'. destruct Hc' as [Ha Hb]. exact (okl_handle _ _ _ Ha Hb E0).
      + destruct (bind_ok _ _ _ E) as (j & E0 & E1). destruct a2; try discriminate E1. apply (Add (set_type j s)); [|exact E1].
        assert (Hc' : okl (table_arg a0 ++ match a1 with GExpr e => words e | _ => [] end ++ [Verbatim s])) by (destruct a0; exact Hc).
        apply Forall_app in Hc'. destruct Hc' as [Ha Hb]. apply Forall_app in Hb. destruct Hb as [Hb Hk].
        pose proof (okl_handle _ _ _ Ha Hb E0) as Hj. inversion_clear Hj. constructor; [|assumption]. inversion_clear Hk. assumption.
    - injection E as <-. field H. destruct (nonempty (s_with q)); [|exact Hc]. rewrite flat_map_app. apply Forall_app. split; assumption.
    - destruct (is_nil _); [discriminate E|]. destruct (bind_ok _ _ _ E) as (wh & E0 & E1). injection E1 as <-. field H.
      refine (okl_where _ _ _ _ Hc (or_introl E0)). assumption.
    - destruct (is_nil _); [discriminate E|]. destruct (bind_ok _ _ _ E) as (wh & E0 & E1). injection E1 as <-. field H.
      refine (okl_where _ _ _ _ Hc (or_intror (or_introl E0))). assumption.
    - destruct (bind_ok _ _ _ E) as (wh & E0 & E1). injection E1 as <-. field H.
      refine (okl_where _ _ _ _ Hc (or_intror (or_intror E0))). assumption.
    - destruct (nonempty _); [discriminate E|]. destruct (bind_ok _ _ _ E) as (cols & E0 & E1). destruct (nonempty cols); [|discriminate E1].
      injection E1 as <-. field H. exact (okl_to_columns _ _ Hc E0).
    - destruct (bind_ok _ _ _ E) as (b & _ & E1). destruct b; [|discriminate E1]. injection E1 as <-. field H.
    - injection E as <-. field H. rewrite flat_map_app. apply Forall_app. split; assumption.
    - destruct (s_limit q =? 0)%Z; [|discriminate E]. destruct (bind_ok _ _ _ E) as (z & E0 & E1). injection E1 as <-. field H.
    - destruct (s_offset q =? 0)%Z; [|discriminate E]. destruct (bind_ok _ _ _ E) as (z & E0 & E1). injection E1 as <-. field H.
    - destruct (s_offset q =? 0)%Z; [|discriminate E]. destruct (bind_ok _ _ _ E) as (z & E0 & E1). injection E1 as <-. field H.
      exact (okl_affix _ _ Hc (or_introl E0)).
    - destruct (s_offset q =? 0)%Z; [|discriminate E]. destruct (bind_ok _ _ _ E) as (z & E0 & E1). injection E1 as <-.
      pose proof (okl_affix _ _ Hc (or_intror E0)) as Hz. field H.
    - injection E as <-. apply Forall_inv in Hc. field H.
  Qed.

  Definition ok_action (a : option conflict_action) : Prop :=
    okl (match a with Some (ActUpdate p) => pairs_words p | _ => [] end).
  Definition ok_insert (i : insert) : Prop :=
    okl (table_words (i_into i)) /\ okl (flat_map column_words (i_columns i)) /\ okl (words (i_values i))
    /\ okl (flat_map column_words (i_conflict_target i)) /\ ok_action (i_conflict_action i)
    /\ okl (flat_map (selexpr_words words) (i_returning i)) /\ ok (Remark (i_comment i)).
  Lemma ok_insert_words : forall i, ok_insert i <-> okl (stmt_words (StInsert i)).
  Proof.
    intro i. unfold ok_insert, ok_action. cbn [stmt_words]. rewrite !Forall_app, !Forall_cons_iff. intuition.
  Qed.
  Lemma okl_conflict_loop : forall args target r, okl (flat_map conflict_arg args) -> okl (flat_map column_words target) ->
    on_conflict_loop args target = Ok r -> okl (flat_map column_words (fst r)) /\ ok_action (Some (snd r)).
  Proof.
    induction args as [|g args IH]; intros target r H Ht E; [discriminate E|]. cbn [on_conflict_loop flat_map] in *.
    apply Forall_app in H. destruct H as [Hg H].
    assert (Col : okl (column_arg g) -> (do c <- to_column g; on_conflict_loop args (target ++ [c])%list) = Ok r ->
                  okl (flat_map column_words (fst r)) /\ ok_action (Some (snd r))).
    { intros Hg' E'. destruct (bind_ok _ _ _ E') as (c & Ec & E1). refine (IH _ _ H _ E1). rewrite flat_map_app. apply Forall_app.
      split; [exact Ht|]. cbn [flat_map]. rewrite app_nil_r. exact (okl_to_column _ _ Hg' Ec). }
    destruct g; try discriminate E; try (exact (Col Hg E)).
    - injection E as <-. split; [exact Ht|constructor].
    - destruct (nonempty target); [|discriminate E]. injection E as <-. split; [exact Ht|exact Hg].
  Qed.
  Ltac ifield H := destruct H as (H1 & H2 & H3 & H4 & H5 & H6 & H7); unfold ok_insert;
    cbn [ins_with_into ins_with_columns ins_with_values ins_with_conflict ins_with_returning ins_with_comment
         i_into i_columns i_values i_conflict_target i_conflict_action i_returning i_comment];
    repeat (split; [first [assumption|idtac]|]); try assumption.
  Lemma ins_step_ok : forall i c i', ok_insert i -> okl (ins_call_words c) -> ins_step i c = Ok i' -> ok_insert i'.
  Proof.
    intros i c i' H Hc E. destruct c; cbn [ins_step ins_call_words] in *.
    - destruct (no_str _); [|discriminate E]. destruct (bind_ok _ _ _ E) as (t & E0 & E1). injection E1 as <-.
      pose proof (okl_to_into _ _ Hc E0) as Ht. ifield H.
    - destruct args as [|a args]; [injection E as <-; exact H|]. destruct (nonempty _); [discriminate E|].
      destruct (bind_ok _ _ _ E) as (cols & E0 & E1). injection E1 as <-. ifield H. exact (okl_to_columns _ _ Hc E0).
    - destruct (bind_ok _ _ _ E) as (b & _ & E1). destruct b; [|discriminate E1]. destruct (bind_ok _ _ _ E1) as (e & E2 & E3).
      injection E3 as <-. ifield H. exact (okl_array_list _ _ Hc E2).
    - destruct (nonempty _); [discriminate E|]. destruct (bind_ok _ _ _ E) as (l & E0 & E1). injection E1 as <-. ifield H.
      exact (okl_to_selexprs _ _ Hc E0).
    - injection E as <-. apply Forall_inv in Hc. ifield H.
    - destruct (conflict_empty _); [|discriminate E]. destruct args as [|a args]; [discriminate E|].
      destruct (bind_ok _ _ _ E) as (r & E0 & E1). injection E1 as <-.
      destruct (okl_conflict_loop _ _ _ Hc (proj1 (proj2 (proj2 (proj2 H)))) E0) as [K1 K2]. ifield H.
    - destruct (nonempty _); [discriminate E|]. destruct (bind_ok _ _ _ E) as (b & _ & E1). destruct b; [|discriminate E1].
      destruct (bind_ok _ _ _ E1) as (p & Ep & E2). destruct (bind_ok _ _ _ E2) as ([cols es] & Ev & E3). cbn [fst snd] in E3.
      destruct (bind_ok _ _ _ E3) as (e & Ee & E4). injection E4 as <-.
      destruct (okl_pairs_values _ _ _ (okl_to_set _ _ Hc Ep) Ev) as [K1 K2].
      assert (Ke : okl (words e)).
      { refine (okl_array_list _ _ _ Ee). cbn [flat_map rows_arg list_arg]. rewrite app_nil_r. exact K2. }
      ifield H.
  Qed.

  Definition ok_update (u : update) : Prop :=
    okl (flat_map (with_words words) (u_with u)) /\ okl (table_words (u_table u)) /\ okl (flat_map from_words (u_from u))
    /\ okl (pairs_words (u_set u)) /\ okl (words (u_where u)) /\ okl (flat_map (selexpr_words words) (u_returning u))
    /\ ok (Remark (u_comment u)).
  Lemma ok_update_words : forall u, ok_update u <-> okl (stmt_words (StUpdate u)).
  Proof. intro u. unfold ok_update. cbn [stmt_words]. rewrite !Forall_app, !Forall_cons_iff. intuition. Qed.
  Ltac ufield H := destruct H as (H1 & H2 & H3 & H4 & H5 & H6 & H7); unfold ok_update;
    cbn [upd_with_with upd_with_only upd_with_from upd_with_set upd_with_where upd_with_returning upd_with_comment
         u_with u_table u_only u_from u_set u_where u_returning u_comment];
    repeat (split; [first [assumption|idtac]|]); try assumption.
  Lemma upd_step_ok : forall u c u', ok_update u -> okl (upd_call_words c) -> upd_step u c = Ok u' -> ok_update u'.
  Proof.
    intros u c u' H Hc E. destruct c; cbn [upd_step upd_call_words] in *.
    - injection E as <-. ufield H.
    - destruct args as [|a args]; [discriminate E|]. destruct (bind_ok _ _ _ E) as (p & E0 & E1). injection E1 as <-. ufield H.
      refine (okl_merge_set _ _ _ _ Hc E0). assumption.
    - destruct (p_mode (u_set u)); try discriminate E. destruct args as [|a args]; [discriminate E|].
      destruct (bind_ok _ _ _ E) as (p & E0 & E1). injection E1 as <-. ufield H.
      refine (fold_res_inv _ (fun p => okl (pairs_words p)) (fun g => okl (value_arg g)) _ _ _ _ _ _ E0); [|assumption|].
      + intros x g x' Hx Hg Ex. destruct (bind_ok _ _ _ Ex) as (e & E2 & E3).
        exact (okl_use _ _ _ Hx (okl_new_expression _ _ Hg E2) E3).
      + exact (proj1 (Forall_flat _ _ _) Hc).
    - injection E as <-. ufield H. destruct (nonempty (u_with u)); [|exact Hc]. rewrite flat_map_app. apply Forall_app. split; assumption.
    - destruct (bind_ok _ _ _ E) as (wh & E0 & E1). injection E1 as <-. ufield H.
      refine (okl_where _ _ _ _ Hc (or_introl E0)). assumption.
    - destruct (bind_ok _ _ _ E) as (wh & E0 & E1). injection E1 as <-. ufield H.
      refine (okl_where _ _ _ _ Hc (or_intror (or_introl E0))). assumption.
    - destruct (bind_ok _ _ _ E) as (wh & E0 & E1). injection E1 as <-. ufield H.
      refine (okl_where _ _ _ _ Hc (or_intror (or_intror E0))). assumption.
    - destruct (nonempty _); [discriminate E|]. destruct (bind_ok _ _ _ E) as (f & E0 & E1). injection E1 as <-. ufield H.
      refine (okl_to_from _ _ _ E0). cbn [flat_map]. rewrite app_nil_r. exact Hc.
    - destruct (nonempty _); [discriminate E|]. destruct (bind_ok _ _ _ E) as (l & E0 & E1). injection E1 as <-. ufield H.
      exact (okl_to_selexprs _ _ Hc E0).
    - injection E as <-. apply Forall_inv in Hc. ufield H.
  Qed.

  Definition ok_delete (d : delete) : Prop :=
    okl (flat_map from_words (d_from d)) /\ okl (flat_map table_words (d_using d)) /\ okl (words (d_where d))
    /\ okl (flat_map (selexpr_words words) (d_returning d)) /\ ok (Remark (d_comment d)).
  Lemma ok_delete_words : forall d, ok_delete d <-> okl (stmt_words (StDelete d)).
  Proof. intro d. unfold ok_delete. cbn [stmt_words]. rewrite !Forall_app, !Forall_cons_iff. intuition. Qed.
  Ltac dfield H := destruct H as (H1 & H2 & H3 & H4 & H5); unfold ok_delete;
    cbn [del_with_from del_with_using del_with_where del_with_returning del_with_comment
         d_from d_using d_where d_returning d_comment];
    repeat (split; [first [assumption|idtac]|]); try assumption.
  Lemma del_step_ok : forall d c d', ok_delete d -> okl (del_call_words c) -> del_step d c = Ok d' -> ok_delete d'.
  Proof.
    intros d c d' H Hc E. destruct c; cbn [del_step del_call_words] in *.
    - destruct (nonempty _); [discriminate E|]. destruct (bind_ok _ _ _ E) as (f & E0 & E1). injection E1 as <-.
      pose proof (okl_to_from _ _ Hc E0) as K. dfield H.
    - destruct (nonempty _); [discriminate E|]. destruct (bind_ok _ _ _ E) as (l & E0 & E1). injection E1 as <-. dfield H.
      apply Forall_flat. intros t Ht. destruct (map_res_ok _ _ _ E0 t Ht) as (g & Hg & Eg).
      exact (okl_to_table g t (proj1 (Forall_flat _ _ _) Hc g Hg) Eg).
    - destruct (bind_ok _ _ _ E) as (wh & E0 & E1). injection E1 as <-. dfield H.
      refine (okl_where _ _ _ _ Hc (or_introl E0)). assumption.
    - destruct (bind_ok _ _ _ E) as (wh & E0 & E1). injection E1 as <-. dfield H.
      refine (okl_where _ _ _ _ Hc (or_intror (or_introl E0))). assumption.
    - destruct (bind_ok _ _ _ E) as (wh & E0 & E1). injection E1 as <-. dfield H.
      refine (okl_where _ _ _ _ Hc (or_intror (or_intror E0))). assumption.
    - destruct (nonempty _); [discriminate E|]. destruct (bind_ok _ _ _ E) as (l & E0 & E1). injection E1 as <-. dfield H.
      exact (okl_to_selexprs _ _ Hc E0).
    - injection E as <-. apply Forall_inv in Hc. dfield H.
  Qed.

  Lemma ok_nothing : ok (Verbatim "").
  Proof. apply ok_own. left. reflexivity. Qed.

  Lemma built_ok : forall ws s, built ws s -> okl ws -> okl (stmt_words s).
  Proof.
    intros ws s Hb H. destruct Hb as [cols q0 cs q E0 E|t i0 cs i E0 E|t u0 cs u E0 E|t d0 cs d E0 E];
      apply Forall_app in H; destruct H as [Ha Hc].
    - apply ok_select_words.
      refine (fold_res_inv sel_step ok_select (fun c => okl (sel_call_words c)) sel_step_ok _ _ _ _ (proj1 (Forall_flat _ _ _) Hc) E).
      refine (sel_step_ok new_select (SelColumns cols) _ _ Ha E0). apply ok_select_words. cbn.
      repeat (constructor; try apply ok_nothing; try apply ok_number; try apply ok_remark).
    - apply ok_insert_words.
      refine (fold_res_inv ins_step ok_insert (fun c => okl (ins_call_words c)) ins_step_ok _ _ _ _ (proj1 (Forall_flat _ _ _) Hc) E).
      refine (ins_step_ok new_insert (InsInto t) _ _ Ha E0). apply ok_insert_words. cbn.
      repeat (constructor; try apply ok_empty_name; try apply ok_remark).
    - apply ok_update_words.
      refine (fold_res_inv upd_step ok_update (fun c => okl (upd_call_words c)) upd_step_ok _ _ _ _ (proj1 (Forall_flat _ _ _) Hc) E).
      destruct (bind_ok _ _ _ E0) as (t0 & Et & E1). injection E1 as <-. unfold ok_update. cbn.
      pose proof (okl_to_table _ _ Ha Et) as Ht. repeat split; try constructor; try apply ok_remark; inversion_clear Ht; assumption.
    - apply ok_delete_words.
      refine (fold_res_inv del_step ok_delete (fun c => okl (del_call_words c)) del_step_ok _ _ _ _ (proj1 (Forall_flat _ _ _) Hc) E).
      refine (del_step_ok new_delete (DelFrom [t]) _ _ _ E0).
      + apply ok_delete_words. cbn. repeat constructor. apply ok_remark.
      + cbn [del_call_words flat_map]. rewrite app_nil_r. exact Ha.
  Qed.
End Api.

(* ------------------------------------------------------------------------- *)
(* Conditions                                                                  *)
(* ------------------------------------------------------------------------- *)

Lemma new_expression_words : forall g e, new_expression g = Ok e -> words e = value_arg g.
Proof.
  intros g e E. destruct g; try discriminate E; cbn [new_expression value_arg] in *;
    try (injection E as <-; reflexivity);
    repeat (match type of E with context [match ?x with _ => _ end] => is_var x; destruct x end; try discriminate E);
    injection E as <-; reflexivity.
Qed.
Lemma wrapper_words : forall e, words (new_wrapper e) = words e.
Proof. destruct e; reflexivity. Qed.

Section Made.
  Context {O : Oracle} (ok : word -> Prop).
  Hypothesis ok_op : forall v, In v operator_texts -> ok (Verbatim v).
  Hypothesis ok_no_name : ok (Name "").
  Notation okl := (Forall ok).

  Lemma okl_cmp : forall l c v e, okl (words l) -> okl (value_arg v) -> cmp_expr l c v = Ok e -> okl (words e).
  Proof.
    intros l c v e Hl Hv E.
    assert (Hc : ok (Verbatim (cmp_text c))) by (apply ok_op; destruct c; cbn; tauto).
    unfold cmp_expr, infix_wrapped, infix_plain in E.
    destruct (cmp_wraps c); destruct (bind_ok _ _ _ E) as (r & Er & E1); injection E1 as <-; cbn [words];
      rewrite ?wrapper_words, (new_expression_words _ _ Er); apply Forall_app; (split; [exact Hl|]); constructor; assumption.
  Qed.
  Lemma okl_in : forall l vs e o, In o operator_texts -> okl (words l) -> okl (flat_map list_arg vs) ->
    (do a <- new_array vs; Ok (EIn l o a)) = Ok e -> okl (words e).
  Proof.
    intros l vs e o Ho Hl Hv E. destruct (bind_ok _ _ _ E) as (a & Ea & E1). injection E1 as <-. cbn [words].
    apply Forall_app. split; [exact Hl|]. constructor; [apply ok_op, Ho|]. exact (okl_new_array ok _ _ Hv Ea).
  Qed.
  Lemma made_ok : forall ws e, made ws e -> okl ws -> okl (words e).
  Proof.
    fix IH 3. intros ws e H. destruct H as [s|s|v|s|f args wss F|ws l c v e Hl E|ws l b e Hl E|ws l vs e Hl E|ws l vs e Hl E
      |s a b e E|s a b e E|wl l wr r Hl Hr|wl l wr r Hl Hr|wl l wr r Hl Hr|wl l wr r Hl Hr|g e E|g e E|l r|wl l wr r Hl Hr|wl l wr r Hl Hr]; intro G.
    - exact G.
    - exact G.
    - constructor.
    - exact G.
    - inversion_clear G as [|? ? G1 G2]. constructor; [exact G1|]. clear G1. revert G2.
      revert wss args F. fix IHl 3. intros wss args F. destruct F as [|w a wss args Ha F]; intro G; [constructor|].
      cbn [concat flat_map] in *. apply Forall_app in G. destruct G as [Ga G]. apply Forall_app. split; [exact (IH _ _ Ha Ga)|exact (IHl _ _ F G)].
    - apply Forall_app in G. destruct G as [Gl Gv]. exact (okl_cmp _ _ _ _ (IH _ _ Hl Gl) Gv E).
    - unfold is_null in E. destruct b; refine (okl_cmp _ _ GNil _ (IH _ _ Hl G) _ E); constructor.
    - apply Forall_app in G. destruct G as [Gl Gv]. refine (okl_in _ _ _ _ _ (IH _ _ Hl Gl) Gv E). cbn. tauto.
    - apply Forall_app in G. destruct G as [Gl Gv]. refine (okl_in _ _ _ _ _ (IH _ _ Hl Gl) Gv E). cbn. tauto.
    - inversion_clear G as [|? ? G1 G2]. apply Forall_app in G2. destruct G2 as [Ga Gb].
      destruct (bind_ok _ _ _ E) as (x & Ex & E1). destruct (bind_ok _ _ _ E1) as (y & Ey & E2). injection E2 as <-.
      cbn [words ident_words app]. rewrite (new_expression_words _ _ Ex), (new_expression_words _ _ Ey).
      constructor; [exact G1|]. constructor; [apply ok_op; cbn; tauto|]. constructor; [apply ok_op; cbn; tauto|].
      apply Forall_app. split; assumption.
    - inversion_clear G as [|? ? G1 G2]. apply Forall_app in G2. destruct G2 as [Ga Gb].
      destruct (bind_ok _ _ _ E) as (x & Ex & E1). destruct (bind_ok _ _ _ E1) as (y & Ey & E2). injection E2 as <-.
      cbn [words ident_words app]. rewrite (new_expression_words _ _ Ex), (new_expression_words _ _ Ey).
      constructor; [exact G1|]. constructor; [apply ok_op; cbn; tauto|]. constructor; [apply ok_op; cbn; tauto|].
      apply Forall_app. split; assumption.
    - apply Forall_app in G. destruct G as [Gl Gr]. cbn [words lk_and]. apply Forall_app. split; [exact (IH _ _ Hl Gl)|].
      constructor; [apply ok_op; cbn; tauto|exact (IH _ _ Hr Gr)].
    - apply Forall_app in G. destruct G as [Gl Gr]. cbn [words lk_or]. apply Forall_app. split; [exact (IH _ _ Hl Gl)|].
      constructor; [apply ok_op; cbn; tauto|exact (IH _ _ Hr Gr)].
    - apply Forall_app in G. destruct G as [Gl Gr]. cbn [words infix_and]. apply Forall_app. split; [exact (IH _ _ Hl Gl)|].
      constructor; [apply ok_op; cbn; tauto|rewrite wrapper_words; exact (IH _ _ Hr Gr)].
    - apply Forall_app in G. destruct G as [Gl Gr]. cbn [words infix_or]. apply Forall_app. split; [exact (IH _ _ Hl Gl)|].
      constructor; [apply ok_op; cbn; tauto|rewrite wrapper_words; exact (IH _ _ Hr Gr)].
    - destruct (bind_ok _ _ _ E) as (x & Ex & E1). injection E1 as <-. cbn [words]. rewrite (new_expression_words _ _ Ex). exact G.
    - destruct (bind_ok _ _ _ E) as (x & Ex & E1). injection E1 as <-. cbn [words]. rewrite (new_expression_words _ _ Ex). exact G.
    - inversion_clear G as [|? ? G1 G2]. inversion_clear G2 as [|? ? G3 G4]. cbn [words lk_on column_words lk_column c_name c_alias app].
      repeat (constructor; [first [assumption|exact ok_no_name]|]). constructor.
    - apply Forall_app in G. destruct G as [Gl Gr]. cbn [words lk_and_on]. apply Forall_app. split; [exact (IH _ _ Hl Gl)|].
      constructor; [apply ok_op; cbn; tauto|exact (IH _ _ Hr Gr)].
    - apply Forall_app in G. destruct G as [Gl Gr]. cbn [words lk_or_on]. apply Forall_app. split; [exact (IH _ _ Hl Gl)|].
      constructor; [apply ok_op; cbn; tauto|exact (IH _ _ Hr Gr)].
  Qed.
End Made.
