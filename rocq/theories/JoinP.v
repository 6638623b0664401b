(* ParseJoin on the texts of the specification. *)
From Coq Require Import ZifyBool ZifyN ZifyNat.
From Verif Require Export Parser LexerP JoinSpec Build ClausesP.

Lemma keyword_type : forall w kw t, spells w kw -> In kw sql_words -> word_token w t -> tk_type t = kw.
Proof. intros w kw t S I (_ & H & _). rewrite <- S in I |- *. auto. Qed.

Lemma name_type : forall w t, name w -> word_token w t -> tk_type t = "Literal"%string /\ tk_value t = w.
Proof. intros w t (_ & N) (V & _ & H). auto. Qed.

Lemma is_type_eq : forall t ty k, tk_type t = ty -> is_type k t = String.eqb ty k.
Proof. intros t ty k H. unfold is_type. rewrite H. reflexivity. Qed.

Ltac known_words := vm_compute; tauto.

(* Take one token from the front of a Forall2. *)
Ltac take F t H F' := inversion F as [|? t ? ? H F']; subst; clear F; cbn [lexeme_token] in H.

Lemma parse_step_equality : forall le e toks tail j, writes_equality le e ->
  Forall2 lexeme_token le toks ->
  parse_loop false (toks ++ tail)%list j = parse_loop true tail (set_cond j (on_equality e))
  /\ (forall chain, parse_loop chain (toks ++ tail)%list j = parse_loop false (toks ++ tail)%list j).
Proof.
  intros le e toks tail j (-> & Nl & Nr) F.
  take F t1 H1 F1. take F1 t2 H2 F2. take F2 t3 H3 F3. inversion F3; subst.
  destruct (name_type _ _ Nl H1) as [T1 V1]. destruct (name_type _ _ Nr H3) as [T3 V3].
  cbn [app parse_loop].
  repeat match goal with |- context[is_type ?k t1] => rewrite (is_type_eq t1 _ k T1) end.
  repeat match goal with |- context[is_type ?k t3] => rewrite (is_type_eq t3 _ k T3) end.
  cbn. rewrite V1, V3. split; [reflexivity|]. intros [|]; reflexivity.
Qed.

Lemma parse_links : forall ls rest, writes_links ls rest -> forall toks tail x j,
  Forall2 lexeme_token ls toks -> j_cond j = x ->
  parse_loop true (toks ++ tail)%list j
  = parse_loop true tail
      (set_cond j (fold_left (fun x oe => EInfix x (Some (conn_word (fst oe))) (on_equality (snd oe))) rest x)).
Proof.
  intros ls rest H. induction H as [|w o le e ls rest Sw (-> & Nl & Nr) Hl IH]; intros toks tail x j F Ej.
  - inversion F; subst. destruct j; reflexivity.
  - cbn [app] in F. take F t0 H0 F0. take F0 t1 H1 F1. take F1 t2 H2 F2. take F2 t3 H3 F3.
    destruct (name_type _ _ Nl H1) as [T1 V1]. destruct (name_type _ _ Nr H3) as [T3 V3].
    assert (T0 : tk_type t0 = conn_word o).
    { apply (keyword_type w); [exact Sw| |exact H0]. destruct o; known_words. }
    cbn [app parse_loop].
    repeat match goal with |- context[is_type ?k t0] => rewrite (is_type_eq t0 _ k T0) end.
    repeat match goal with |- context[is_type ?k t1] => rewrite (is_type_eq t1 _ k T1) end.
    repeat match goal with |- context[is_type ?k t3] => rewrite (is_type_eq t3 _ k T3) end.
    destruct o; cbn - [parse_loop set_cond]; rewrite V1, V3;
      (erewrite IH by (eassumption || reflexivity)); reflexivity.
Qed.

(* What follows a condition. *)
Definition closes (tail : list token) : Prop := forall chain j, parse_loop chain tail j = Ok (j, None).

Lemma closes_end : forall ln toks, writes_end ln -> Forall2 lexeme_token ln toks -> closes toks.
Proof.
  intros ln toks [|] F chain j.
  - inversion F; subst. reflexivity.
  - take F t H F'. inversion F'; subst. destruct chain; reflexivity.
Qed.

Lemma closes_paren : forall t tail, lexeme_token (Sym ")") t -> closes tail -> closes (t :: tail).
Proof. intros t tail H C chain j. cbn in H. subst t. rewrite <- (C false j). destruct chain; reflexivity. Qed.

Lemma parse_condition : forall lc e rest, writes_condition lc e rest -> forall toks tail j,
  Forall2 lexeme_token lc toks -> closes tail ->
  parse_loop false (toks ++ tail)%list j = Ok (set_cond j (on_condition e rest), None).
Proof.
  intros lc e rest H. induction H as [le e ls rest He Hl|ls e rest H IH]; intros toks tail j F C.
  - apply Forall2_app_inv_l in F. destruct F as (t1 & t2 & F1 & F2 & ->).
    rewrite <- app_assoc. rewrite (proj1 (parse_step_equality _ _ _ _ j He F1)).
    rewrite (parse_links _ _ Hl _ _ (on_equality e) _ F2) by reflexivity. rewrite C.
    destruct j; reflexivity.
  - take F t H0 F'. apply Forall2_app_inv_l in F'. destruct F' as (t1 & t2 & F1 & F2 & ->).
    take F2 t2' H2 F2'. inversion F2'; subst. cbn [app]. rewrite <- app_assoc. cbn [app].
    cbn [parse_loop]. cbn. apply IH; [exact F1|]. apply closes_paren; [reflexivity|exact C].
Qed.

Lemma parse_type : forall lt ty, writes_type lt ty -> forall toks tail j,
  Forall2 lexeme_token lt toks -> j_type j = "INNER JOIN"%string ->
  parse_loop false (toks ++ tail)%list j = parse_loop false tail (set_type j ty).
Proof.
  intros lt ty H toks tail j F E.
  assert (Ej : set_type j "INNER JOIN" = j) by (destruct j; cbn in *; subst; reflexivity).
  destruct H as [|w S|w1 w2 S1 S2|w1 w2 S1 S2|w1 w2 S1 S2].
  - inversion F; subst. rewrite Ej. reflexivity.
  - take F t H F'. inversion F'; subst.
    assert (T : tk_type t = "JOIN"%string) by (apply (keyword_type w); [exact S|known_words|exact H]).
    rewrite Ej. cbn [app parse_loop].
    repeat match goal with |- context[is_type ?k t] => rewrite (is_type_eq t _ k T) end. reflexivity.
  - take F t H F'. take F' t' H' F''. inversion F''; subst.
    assert (T : tk_type t = "INNER"%string) by (apply (keyword_type w1); [exact S1|known_words|exact H]).
    assert (T' : tk_type t' = "JOIN"%string) by (apply (keyword_type w2); [exact S2|known_words|exact H']).
    cbn [app parse_loop].
    repeat match goal with |- context[is_type ?k t] => rewrite (is_type_eq t _ k T) end.
    repeat match goal with |- context[is_type ?k t'] => rewrite (is_type_eq t' _ k T') end. reflexivity.
  - take F t H F'. take F' t' H' F''. inversion F''; subst.
    assert (T : tk_type t = "LEFT"%string) by (apply (keyword_type w1); [exact S1|known_words|exact H]).
    assert (T' : tk_type t' = "JOIN"%string) by (apply (keyword_type w2); [exact S2|known_words|exact H']).
    cbn [app parse_loop].
    repeat match goal with |- context[is_type ?k t] => rewrite (is_type_eq t _ k T) end.
    repeat match goal with |- context[is_type ?k t'] => rewrite (is_type_eq t' _ k T') end. reflexivity.
  - take F t H F'. take F' t' H' F''. inversion F''; subst.
    assert (T : tk_type t = "RIGHT"%string) by (apply (keyword_type w1); [exact S1|known_words|exact H]).
    assert (T' : tk_type t' = "JOIN"%string) by (apply (keyword_type w2); [exact S2|known_words|exact H']).
    cbn [app parse_loop].
    repeat match goal with |- context[is_type ?k t] => rewrite (is_type_eq t _ k T) end.
    repeat match goal with |- context[is_type ?k t'] => rewrite (is_type_eq t' _ k T') end. reflexivity.
Qed.

Lemma parse_join_written : forall ls ty t e rest s, writes_join ls ty t e rest -> layout false ls s ->
  parse_join s = Ok (join_of ty t e rest, None).
Proof.
  intros ls ty t e rest s H L. apply layout_lex in L. unfold parse_join.
  destruct H as [lt ty t w lc e rest ln Ht Nt Sw Hc Hn].
  apply Forall2_app_inv_l in L. destruct L as (t1 & t2 & F1 & F2 & ->).
  rewrite (parse_type _ _ Ht _ _ _ F1) by reflexivity.
  take F2 u1 H1 F3. take F3 u2 H2 F4.
  apply Forall2_app_inv_l in F4. destruct F4 as (t3 & t4 & F5 & F6 & ->).
  destruct (name_type _ _ Nt H1) as [T1 V1].
  assert (T2 : tk_type u2 = "ON"%string) by (apply (keyword_type w); [exact Sw|known_words|exact H2]).
  cbn [app parse_loop].
  repeat match goal with |- context[is_type ?k u1] => rewrite (is_type_eq u1 _ k T1) end.
  repeat match goal with |- context[is_type ?k u2] => rewrite (is_type_eq u2 _ k T2) end.
  cbn. rewrite V1. rewrite (parse_condition _ _ _ Hc _ _ _ F5); [reflexivity|].
  apply (closes_end _ _ Hn F6).
Qed.

Lemma parse_on_written : forall ls e rest s, writes_on ls e rest -> layout false ls s ->
  parse_join s = Ok ({| j_type := "INNER JOIN"; j_table := zero_table; j_cond := on_condition e rest |}, None).
Proof.
  intros ls e rest s H L. apply layout_lex in L. unfold parse_join.
  destruct H as [lc e rest ln Hc Hn|w lc e rest ln Sw Hc Hn].
  - apply Forall2_app_inv_l in L. destruct L as (t3 & t4 & F5 & F6 & ->).
    rewrite (parse_condition _ _ _ Hc _ _ _ F5); [reflexivity|]. apply (closes_end _ _ Hn F6).
  - take L u2 H2 F4. apply Forall2_app_inv_l in F4. destruct F4 as (t3 & t4 & F5 & F6 & ->).
    assert (T2 : tk_type u2 = "ON"%string) by (apply (keyword_type w); [exact Sw|known_words|exact H2]).
    cbn [app parse_loop].
    repeat match goal with |- context[is_type ?k u2] => rewrite (is_type_eq u2 _ k T2) end.
    cbn. rewrite (parse_condition _ _ _ Hc _ _ _ F5); [reflexivity|]. apply (closes_end _ _ Hn F6).
Qed.

(* The names of conditions are not empty. *)
Lemma on_condition_defined : forall e rest,
  name (eq_left e) -> name (eq_right e) ->
  Forall (fun oe => name (eq_left (snd oe)) /\ name (eq_right (snd oe))) rest ->
  is_empty (on_condition e rest) = Ok false /\ is_nil (on_condition e rest) = false.
Proof.
  intros e rest Nl Nr F.
  assert (Q : forall e, name (eq_left e) -> name (eq_right e) ->
              is_empty (on_equality e) = Ok false /\ is_nil (on_equality e) = false).
  { clear. intros e ((Nl & _) & _) ((Nr & _) & _). cbn. unfold no_str.
    rewrite (proj2 (String.eqb_neq _ _) Nl), (proj2 (String.eqb_neq _ _) Nr). auto. }
  unfold on_condition.
  assert (G : forall x, is_empty x = Ok false /\ is_nil x = false ->
     let y := fold_left (fun x oe => EInfix x (Some (conn_word (fst oe))) (on_equality (snd oe))) rest x in
     is_empty y = Ok false /\ is_nil y = false); [|apply G, Q; assumption].
  clear Nl Nr e. induction F as [|[o e] rest [Nl Nr] F IH]; intros x [E1 E2]; cbn [fold_left]; [auto|].
  apply IH. cbn [fst snd] in *. destruct (Q e Nl Nr) as [Q1 Q2]. split; [|reflexivity].
  cbn [is_empty]. rewrite E1, E2. cbn [is_nil orb or_res on_equality]. cbn [on_equality] in Q1.
  destruct o; cbn [conn_word no_str String.eqb or_res]; exact Q1.
Qed.

Lemma links_names : forall ls rest, writes_links ls rest ->
  Forall (fun oe => name (eq_left (snd oe)) /\ name (eq_right (snd oe))) rest.
Proof.
  intros ls rest H. induction H as [|w o le e ls rest Sw (_ & Nl & Nr) Hl IH]; constructor; auto.
Qed.

Lemma condition_names : forall lc e rest, writes_condition lc e rest ->
  name (eq_left e) /\ name (eq_right e)
  /\ Forall (fun oe => name (eq_left (snd oe)) /\ name (eq_right (snd oe))) rest.
Proof.
  intros lc e rest H. induction H as [le e ls rest (_ & Nl & Nr) Hl|ls e rest H IH]; [|exact IH].
  split; [exact Nl|]. split; [exact Nr|]. eapply links_names, Hl.
Qed.

(* ------------------------------------------------------------------------- *)
(* All texts                                                                  *)
(* ------------------------------------------------------------------------- *)

Lemma tokens_ind : forall P : list token -> Prop,
  (forall ts, (forall us, length us < length ts -> P us) -> P ts) -> forall ts, P ts.
Proof.
  intros P H ts. enough (G : forall n us, length us < n -> P us) by (apply (G (S (length ts))); lia).
  induction n as [|n IH]; intros us L; [lia|]. apply H. intros vs Lv. apply IH. lia.
Qed.

(* Follow one call of the loop to its recursive call or to its result. *)
Ltac follow H :=
  repeat match type of H with
  | context[match ?l with [] => _ | _ :: _ => _ end] => is_var l; destruct l
  | context[if ?b then _ else _] => destruct b eqn:?
  end.

Lemma parse_error : forall toks chain j j' m,
  parse_loop chain toks j = Ok (j', Some m) -> j' = zero_join /\ m = join_error.
Proof.
  induction toks as [toks IH] using tokens_ind. intros chain j j' m H.
  destruct toks as [|e toks]; [discriminate|]. cbn [parse_loop] in H.
  follow H; try discriminate; try (injection H as <- <-; auto; fail);
    (eapply IH; [|exact H]; cbn; lia).
Qed.

Lemma parse_panic : forall toks chain j p, parse_loop chain toks j = Panic p ->
  p = PIndex /\ exists before a l, toks = (before ++ [a; l])%list
    /\ (tk_type a = "AND"%string \/ tk_type a = "OR"%string) /\ tk_type l = "Literal"%string.
Proof.
  induction toks as [toks IH] using tokens_ind. intros chain j p H.
  destruct toks as [|e toks]; [discriminate|]. cbn [parse_loop] in H.
  assert (R : forall used rest c k, length rest < length (used ++ rest)%list ->
     parse_loop c rest k = Panic p -> (used ++ rest = e :: toks)%list ->
     p = PIndex /\ exists before a l, e :: toks = (before ++ [a; l])%list
       /\ (tk_type a = "AND"%string \/ tk_type a = "OR"%string) /\ tk_type l = "Literal"%string).
  { intros used rest c k L E Eq. rewrite <- Eq in *. destruct (IH rest L _ _ _ E) as (Ep & b & a & l & -> & Ha & Hl).
    split; [exact Ep|]. exists (used ++ b)%list, a, l. rewrite app_assoc. auto. }
  follow H; try discriminate; try (eapply (R [e]); [|exact H|reflexivity]; cbn; lia);
    try (eapply (R [e; _]); [|exact H|reflexivity]; cbn; lia);
    try (eapply (R [e; _; _]); [|exact H|reflexivity]; cbn; lia);
    try (eapply (R [e; _; _; _]); [|exact H|reflexivity]; cbn; lia).
  injection H as <-. split; [reflexivity|]. exists [], e, t. split; [reflexivity|].
  match goal with E : _ && (_ || _) = true |- _ => apply andb_prop in E; destruct E as [_ E];
    apply orb_prop in E end.
  unfold is_type in *. rewrite !String.eqb_eq in *. auto.
Qed.

Lemma sub_app : forall A (k l m n : list A), subsequence k l -> subsequence m n ->
  subsequence (k ++ m)%list (l ++ n)%list.
Proof.
  intros A k l m n H1 H2. induction H1 as [l|x k l H IH|x k l H IH].
  - cbn [app]. induction l as [|x l IH]; [exact H2|]. cbn. apply sub_skip, IH.
  - cbn. apply sub_keep, IH.
  - cbn. apply sub_skip, IH.
Qed.

Lemma literals_app : forall a b, literals (a ++ b)%list = (literals a ++ literals b)%list.
Proof. intros a b. unfold literals. rewrite filter_app, map_app. reflexivity. Qed.

(* What the loop reads. *)
Definition reads (toks : list token) (j j' : join) : Prop :=
  (exists kept new, (kept = [] \/ kept = on_names (j_cond j)) /\ subsequence new (literals toks)
     /\ on_names (j_cond j') = (kept ++ new)%list)
  /\ (j_table j' = j_table j \/ exists n, In n (literals toks) /\ j_table j' = lk_table n)
  /\ (j_type j' = j_type j \/ In (j_type j') ["INNER JOIN"; "LEFT JOIN"; "RIGHT JOIN"]%string).

Lemma reads_refl : forall toks j, reads toks j j.
Proof.
  intros toks j. split; [|split; left; reflexivity].
  exists (on_names (j_cond j)), []. rewrite app_nil_r. repeat split; auto. constructor.
Qed.

Lemma reads_trans : forall a b i j k, reads a i j -> reads b j k -> reads (a ++ b)%list i k.
Proof.
  intros a b i j k ((k1 & n1 & K1 & S1 & E1) & T1 & Y1) ((k2 & n2 & K2 & S2 & E2) & T2 & Y2).
  unfold reads. rewrite literals_app. split; [|split].
  - destruct K2 as [-> | ->].
    + exists [], n2. repeat split; [auto|apply (sub_app _ [] _ _ _ (sub_nil _) S2)|exact E2].
    + exists k1, (n1 ++ n2)%list. rewrite E2, E1, <- app_assoc. repeat split; [exact K1|].
      apply sub_app; assumption.
  - destruct T2 as [T2|(n & I & T2)]; rewrite T2.
    + destruct T1 as [T1|(n & I & T1)]; rewrite T1; [left; reflexivity|].
      right. exists n. split; [apply in_or_app; auto|reflexivity].
    + right. exists n. split; [apply in_or_app; auto|reflexivity].
  - destruct Y2 as [Y2|I]; [rewrite Y2; exact Y1|right; exact I].
Qed.

Lemma reads_type : forall toks j t, In t ["INNER JOIN"; "LEFT JOIN"; "RIGHT JOIN"]%string ->
  reads toks j (set_type j t).
Proof.
  intros toks j t I. destruct (reads_refl toks j) as (A & B & _). split; [exact A|]. split; [exact B|].
  right. exact I.
Qed.

Lemma reads_table : forall e n j, tk_type e = "Literal"%string ->
  reads [e; n] j (set_table j (lk_table (tk_value e))).
Proof.
  intros e n j T. destruct (reads_refl [e; n] j) as (A & _ & C). split; [exact A|]. split; [|exact C].
  right. exists (tk_value e). split; [|reflexivity]. unfold literals. cbn. rewrite T. cbn. auto.
Qed.

Lemma reads_equality : forall e q r j, tk_type e = "Literal"%string -> tk_type r = "Literal"%string ->
  reads [e; q; r] j (set_cond j (EOn (lk_column (tk_value e)) (lk_column (tk_value r)))).
Proof.
  intros e q r j Te Tr. destruct (reads_refl [e; q; r] j) as (_ & B & C). split; [|split; [exact B|exact C]].
  exists [], [tk_value e; tk_value r]. repeat split; [auto|]. unfold literals. cbn [filter]. rewrite Te, Tr.
  cbn [String.eqb]. destruct (String.eqb (tk_type q) "Literal"); cbn; repeat constructor.
Qed.

Lemma reads_link : forall a e q r o j, tk_type e = "Literal"%string -> tk_type r = "Literal"%string ->
  reads [a; e; q; r] j
    (set_cond j (EInfix (j_cond j) (Some o) (EOn (lk_column (tk_value e)) (lk_column (tk_value r))))).
Proof.
  intros a e q r o j Te Tr. destruct (reads_refl [a; e; q; r] j) as (_ & B & C).
  split; [|split; [exact B|exact C]].
  exists (on_names (j_cond j)), [tk_value e; tk_value r]. repeat split; [auto|]. unfold literals. cbn [filter].
  rewrite Te, Tr. destruct (String.eqb (tk_type a) "Literal"), (String.eqb (tk_type q) "Literal"); cbn;
    repeat constructor.
Qed.

Lemma parse_reads : forall toks chain j j', parse_loop chain toks j = Ok (j', None) -> reads toks j j'.
Proof.
  induction toks as [toks IH] using tokens_ind. intros chain j j' H.
  destruct toks as [|e toks]; [injection H as <-; apply reads_refl|]. cbn [parse_loop] in H.
  assert (R : forall used rest c k, length rest < length (e :: toks) -> reads used j k ->
     parse_loop c rest k = Ok (j', None) -> (used ++ rest = e :: toks)%list -> reads (e :: toks) j j').
  { intros used rest c k L U E Eq. rewrite <- Eq in *. eapply reads_trans; [exact U|]. eapply IH; eassumption. }
  follow H; try discriminate; try (injection H as <-; apply reads_refl);
  unfold is_type in *; rewrite ?String.eqb_eq in *;
    first
    [ eapply (R [e; _; _; _]); [|apply reads_link|exact H|reflexivity]; [cbn; lia|assumption|assumption]
    | eapply (R [e; _; _]); [|apply reads_equality|exact H|reflexivity]; [cbn; lia|assumption|assumption]
    | eapply (R [e; _]); [|apply reads_table|exact H|reflexivity]; [cbn; lia|assumption]
    | eapply (R [e; _]); [|apply reads_type|exact H|reflexivity]; [cbn; lia|cbn; tauto]
    | eapply (R [e]); [|apply reads_refl|exact H|reflexivity]; cbn; lia ].
Qed.

(* ------------------------------------------------------------------------- *)
(* SQL                                                                         *)
(* ------------------------------------------------------------------------- *)

Section JoinSql.
  Context {O : Oracle}.

  Lemma word_quote : forall p, Forall (fun a => word_rune (byte a)) (list_ascii_of_string p) ->
    concat_str (map quote_chunk (chunks p)) = p.
  Proof.
    intros p H. induction p as [|a p IH]; [reflexivity|]. inversion_clear H as [|? ? Ha Hp].
    apply word_spec in Ha. assert (B : (byte a < 128)%N).
    { unfold is_word, is_letter, is_digit, between in Ha. lia. }
    rewrite chunks_ascii by exact B. cbn [map concat_str]. rewrite IH by exact Hp.
    cbn [quote_chunk]. unfold is_print.
    unfold is_word, is_letter, is_digit, between in *.
    replace ((byte a =? 34)%N || (byte a =? 92)%N) with false by lia.
    replace (byte a <? 128)%N with true by lia.
    replace ((32 <=? byte a)%N && (byte a <=? 126)%N) with true by lia. reflexivity.
  Qed.

  Lemma split_in : forall sep s p a, In p (split_on sep s) -> In a (list_ascii_of_string p) ->
    In a (list_ascii_of_string s).
  Proof.
    intros sep s. induction s as [|c s IH]; intros p a Hp Ha.
    - destruct Hp as [<-|[]]. exact Ha.
    - cbn [split_on] in Hp. pose proof (split_nonempty sep s) as Ne.
      destruct (split_on sep s) as [|q qs]; [congruence|].
      destruct (Ascii.eqb c sep).
      + destruct Hp as [<-|Hp]; [destruct Ha|]. right. eapply IH; eassumption.
      + destruct Hp as [<-|Hp].
        * destruct Ha as [<-|Ha]; [left; reflexivity|]. right. eapply IH; [left; reflexivity|exact Ha].
        * right. eapply IH; [right; exact Hp|exact Ha].
  Qed.

  Lemma name_quote : forall n, name n -> quote n = dotted n.
  Proof.
    intros n ((_ & H) & _). unfold quote, dotted. f_equal. apply map_ext_in. intros p Hp.
    unfold go_quote. rewrite word_quote; [reflexivity|]. rewrite Forall_forall in *.
    intros a Ha. apply H. eapply split_in; eassumption.
  Qed.

  Lemma equality_sql : forall e, name (eq_left e) -> name (eq_right e) ->
    expr_sql (on_equality e) = Ok (lit (equality_text e)).
  Proof.
    intros e Nl Nr. unfold expr_sql, on_equality, equality_text. cbn [write_expr].
    rewrite !flat_rcat, !flat_column, flat_w. cbn [bind rcat]. unfold column_sql, alias_sql. cbn [c_name c_alias String.eqb].
    rewrite !app_nil_r, !name_quote by assumption. cbn [rcat bind]. rewrite !lit_app, <- !app_assoc. reflexivity.
  Qed.

  Lemma condition_sql : forall e rest, name (eq_left e) -> name (eq_right e) ->
    Forall (fun oe => name (eq_left (snd oe)) /\ name (eq_right (snd oe))) rest ->
    expr_sql (on_condition e rest) = Ok (lit (condition_text e rest)).
  Proof.
    intros e rest Nl Nr F.
    assert (D : forall e, name (eq_left e) -> name (eq_right e) ->
              is_empty (on_equality e) = Ok false /\ is_nil (on_equality e) = false).
    { intros x Hl Hr. apply (on_condition_defined x []); auto. }
    unfold on_condition, condition_text.
    destruct (D e Nl Nr) as [E1 E2]. pose proof (equality_sql e Nl Nr) as E3. revert E1 E2 E3.
    generalize (on_equality e) as x, (equality_text e) as tx. clear Nl Nr e.
    induction F as [|[o e] rest [Nl Nr] F IH]; intros x tx E1 E2 E3; [exact E3|].
    cbn [fold_left fst snd] in *. destruct (D e Nl Nr) as [E4 E5].
    assert (E6 : is_empty (EInfix x (Some (conn_word o)) (on_equality e)) = Ok false).
    { cbn [is_empty]. rewrite E1, E2. cbn [is_nil orb or_res on_equality]. cbn [on_equality] in E4.
      destruct o; cbn [conn_word no_str String.eqb or_res]; exact E4. }
    apply IH; [exact E6|reflexivity|].
    pose proof (equality_sql e Nl Nr) as E7. unfold expr_sql in *. cbn [write_expr]. unfold defined. rewrite E6. cbn [bind].
    rewrite !flat_rcat, !flat_w, E3, E7. cbn [rcat bind]. rewrite !lit_app, <- !app_assoc. reflexivity.
  Qed.

  Lemma join_sql : forall ty t e rest, name t -> name (eq_left e) -> name (eq_right e) ->
    Forall (fun oe => name (eq_left (snd oe)) /\ name (eq_right (snd oe))) rest ->
    join_clause (join_of ty t e rest) = Some (Ok (lit (ty ++ " " ++ dotted t ++ " ON " ++ condition_text e rest))).
  Proof.
    intros ty t e rest Nt Nl Nr F. unfold join_clause. cbn [j_cond j_table j_type join_of].
    rewrite condition_sql by assumption. cbn [bind]. unfold table_sql, alias_sql. cbn [t_only t_name t_alias String.eqb].
    rewrite name_quote, app_nil_r by exact Nt. rewrite !lit_app, <- !app_assoc. reflexivity.
  Qed.
End JoinSql.

(* ------------------------------------------------------------------------- *)
(* Meaning                                                                    *)
(* ------------------------------------------------------------------------- *)

Lemma on_meaning_condition : forall v e rest,
  on_meaning v (on_condition e rest)
  = fold_left (fun b oe => match fst oe with AndC => b && v (snd oe) | OrC => b || v (snd oe) end) rest (v e).
Proof.
  intros v e rest. unfold on_condition.
  assert (E : on_meaning v (on_equality e) = v e) by (destruct e; reflexivity).
  rewrite <- E. generalize (on_equality e) as x. clear e E.
  induction rest as [|[o e] rest IH]; intro x; [reflexivity|]. cbn [fold_left fst snd]. rewrite IH. f_equal.
  destruct o, e; reflexivity.
Qed.

Lemma meaning_ors : forall v rest b, ands_first true rest = true ->
  fold_left (fun b oe => match fst oe with AndC => b && v (snd oe) | OrC => b || v (snd oe) end) rest b
  = sql_meaning v b rest
  /\ forall c, sql_meaning v (c || b) rest = c || sql_meaning v b rest.
Proof.
  intros v rest. induction rest as [|[o e] rest IH]; intros b H; [split; [|intro c]; reflexivity|].
  destruct o; [discriminate|]. cbn [ands_first fold_left fst snd sql_meaning] in *.
  split.
  - destruct (IH (b || v e) H) as [E _]. rewrite E. destruct (IH (v e) H) as [_ E2]. apply E2.
  - intro c. rewrite orb_assoc. reflexivity.
Qed.

Lemma meaning_ands : forall v rest b, ands_first false rest = true ->
  fold_left (fun b oe => match fst oe with AndC => b && v (snd oe) | OrC => b || v (snd oe) end) rest b
  = sql_meaning v b rest.
Proof.
  intros v rest. induction rest as [|[o e] rest IH]; intros b H; [reflexivity|].
  destruct o; cbn [ands_first fold_left fst snd sql_meaning negb andb] in *; [apply IH, H|].
  destruct (meaning_ors v rest (b || v e) H) as [E _]. rewrite E.
  destruct (meaning_ors v rest (v e) H) as [_ E2]. apply E2.
Qed.

(* One space between the words of a text. *)
Definition lexeme_okb (l : lexeme) : bool :=
  match l with
  | Word w => negb (String.eqb w "") && forallb (fun a => is_word (byte a)) (list_ascii_of_string w)
  | Sym a => match symbol (byte a) with Some _ => true | None => false end
  end.

Lemma lexeme_okb_ok : forall l, lexeme_okb l = true -> lexeme_ok l.
Proof.
  intros [w|a] H; cbn in *.
  - apply andb_prop in H. destruct H as [H1 H2]. split.
    + intros ->. discriminate.
    + rewrite forallb_forall in H2. apply Forall_forall. intros a I. apply word_spec, H2, I.
  - destruct (symbol_dec (byte a)) as [S|S]; [exact S|]. rewrite (symbol_none _ S) in H. discriminate.
Qed.

Lemma spaced_layout : forall ls, forallb lexeme_okb ls = true ->
  layout false ls (join_with " " (map lexeme_text ls)).
Proof.
  intros ls H.
  assert (Bl : blanks " ") by (constructor; [apply blank_spec; reflexivity|constructor]).
  assert (Bn : blanks "") by constructor.
  assert (G : forall l ls g b, forallb lexeme_okb (l :: ls) = true -> blanks g -> (b = true -> g <> ""%string) ->
     layout b (l :: ls) (g ++ join_with " " (map lexeme_text (l :: ls)))).
  { clear - Bl Bn. intros l ls. revert l. induction ls as [|l2 ls IH]; intros l g b H Hg Hb.
    - cbn [map join_with forallb] in *. rewrite andb_true_r in H.
      replace (g ++ lexeme_text l)%string with (g ++ lexeme_text l ++ "")%string by (rewrite sapp_nil; reflexivity).
      apply layout_lexeme; [exact Hg|apply lexeme_okb_ok, H|auto|constructor; exact Bn].
    - cbn [forallb] in H. apply andb_prop in H. destruct H as [H1 H2].
      change (join_with " " (map lexeme_text (l :: l2 :: ls)))
        with (lexeme_text l ++ " " ++ join_with " " (map lexeme_text (l2 :: ls)))%string.
      apply layout_lexeme; [exact Hg|apply lexeme_okb_ok, H1|auto|].
      apply IH; [exact H2|exact Bl|discriminate]. }
  destruct ls as [|l ls]; [constructor; exact Bn|].
  apply (G l ls "" false H Bn). discriminate.
Qed.
