(* The two descriptions of the lexer agree, and the tokens are those of the specification. *)
From Coq Require Import ZifyBool ZifyN ZifyNat.
From Verif Require Export Machine Scan GoStrP.

(* ------------------------------------------------------------------------- *)
(* The window                                                                 *)
(* ------------------------------------------------------------------------- *)

(* What the lexer has yet to consume: rs, then the zeros that stand for the end. *)
Definition views (l : lexer) (rs : list N) : Prop :=
  exists k, l_e0 l :: l_en l :: l_input l = (rs ++ repeat 0%N k)%list.

Lemma new_views : forall s, views (l_new s) (runes s).
Proof.
  intro s. unfold views, l_new, l_read. cbn. destruct (runes s) as [|a [|b rs]]; cbn.
  - exists 2. reflexivity.
  - exists 1. reflexivity.
  - exists 0. cbn. rewrite app_nil_r. reflexivity.
Qed.

Lemma views_current : forall l r rs, views l (r :: rs) -> l_current l = r.
Proof. intros l r rs (k & H). cbn in H. injection H as H _. exact H. Qed.
Lemma views_eof : forall l, views l [] -> l_current l = 0%N.
Proof. intros l (k & H). cbn in H. destruct k; [discriminate|]. cbn in H. injection H as H _. exact H. Qed.

Lemma views_read : forall l r rs, views l (r :: rs) -> views (l_read l) rs.
Proof.
  intros l r rs (k & H). cbn in H. injection H as _ H. unfold views, l_read.
  destruct (l_input l) as [|e rest]; cbn.
  - exists (S k). cbn [repeat]. rewrite repeat_cons, app_assoc, <- H. reflexivity.
  - exists k. exact H.
Qed.

Lemma l_skip_ok : forall rs n l, views l rs -> length rs <= n ->
  exists l', l_skip n l = Some l' /\ views l' (drop_while is_whitespace rs).
Proof.
  induction rs as [|r rs IH]; intros n l V L.
  - exists l. split; [|exact V]. pose proof (views_eof l V) as E.
    destruct n; cbn; rewrite E; reflexivity.
  - pose proof (views_current _ _ _ V) as E. cbn [drop_while].
    destruct n as [|n]; [cbn in L; lia|]. cbn [l_skip]. rewrite E.
    destruct (is_whitespace r) eqn:W.
    + apply IH; [eapply views_read, V|cbn in L; lia].
    + exists l. split; [reflexivity|exact V].
Qed.

Lemma l_identifier_ok : forall rs n l, views l rs -> length rs <= n ->
  exists l', l_identifier n l = Some (fst (read_word rs), l') /\ views l' (snd (read_word rs)).
Proof.
  induction rs as [|r rs IH]; intros n l V L.
  - exists l. split; [|exact V]. pose proof (views_eof l V) as E.
    destruct n; cbn; rewrite E; reflexivity.
  - pose proof (views_current _ _ _ V) as E. cbn [read_word].
    destruct n as [|n]; [cbn in L; lia|]. cbn [l_identifier]. rewrite E.
    change (is_letter r || is_digit r) with (is_word r).
    destruct (is_word r) eqn:W.
    + destruct (IH n (l_read l)) as (l' & -> & V'); [eapply views_read, V|cbn in L; lia|].
      exists l'. destruct (read_word rs) as [w rest]. split; [reflexivity|exact V'].
    + exists l. split; [reflexivity|exact V].
Qed.

Lemma lookup_not_eof : forall v, lookup v <> "EOF".
Proof.
  intro v. unfold lookup. destruct (existsb (String.eqb (to_upper v)) keywords) eqn:E; [|discriminate].
  intro H. rewrite H in E. vm_compute in E. discriminate.
Qed.

Lemma l_token_ok : forall ty l r rs, views l (r :: rs) -> ty <> "EOF" -> ty <> ";" ->
  exists l', l_token ty l = ({| tk_type := ty; tk_value := encode_rune r |}, l') /\ views l' rs.
Proof.
  intros ty l r rs V N1 N2. exists (l_read l). split; [|eapply views_read, V].
  unfold l_token. rewrite (proj2 (String.eqb_neq _ _) N1), (proj2 (String.eqb_neq _ _) N2).
  rewrite (views_current _ _ _ V). reflexivity.
Qed.

Lemma l_next_ok : forall rs n l, views l rs -> length rs <= n ->
  match lex_next rs with
  | None => exists l', l_next n l = Some ({| tk_type := "EOF"; tk_value := "" |}, l')
  | Some (t, rest) => exists l', l_next n l = Some (t, l') /\ views l' rest /\ tk_type t <> "EOF"
  end.
Proof.
  intros rs n l0 V0 L0. destruct (l_skip_ok rs n l0 V0 L0) as (l & E & V).
  unfold l_next, lex_next. rewrite E.
  assert (L : length (drop_while is_whitespace rs) <= n).
  { clear - L0. revert n L0. induction rs as [|r rs IH]; intros n L; [exact L|]. cbn [drop_while].
    destruct (is_whitespace r); [apply IH; cbn in L; lia|exact L]. }
  destruct (drop_while is_whitespace rs) as [|r rest].
  { rewrite (views_eof l V). eexists. reflexivity. }
  rewrite (views_current _ _ _ V). cbv zeta.
  destruct (r =? 0)%N eqn:E0; [eexists; reflexivity|].
  destruct (r =? 10)%N eqn:E10.
  { eexists. split; [reflexivity|]. split; [eapply views_read, V|discriminate]. }
  unfold symbol.
  assert (T : forall ty, ty <> "EOF" -> ty <> ";" -> ty = encode_rune r ->
     exists l', Some (l_token ty l) = Some ({| tk_type := ty; tk_value := ty |}, l')
       /\ views l' rest /\ ty <> "EOF").
  { intros ty N1 N2 ->. destruct (l_token_ok _ _ _ _ V N1 N2) as (l' & -> & V').
    exists l'. auto. }
  destruct (r =? 42)%N eqn:F1.
  { apply N.eqb_eq in F1. subst r. apply T; discriminate || reflexivity. }
  destruct (r =? 61)%N eqn:F2.
  { apply N.eqb_eq in F2. subst r. apply T; discriminate || reflexivity. }
  destruct (r =? 59)%N eqn:F3.
  { eexists. split; [reflexivity|]. split; [eapply views_read, V|discriminate]. }
  destruct (r =? 44)%N eqn:F4.
  { apply N.eqb_eq in F4. subst r. apply T; discriminate || reflexivity. }
  destruct (r =? 58)%N eqn:F5.
  { apply N.eqb_eq in F5. subst r. apply T; discriminate || reflexivity. }
  destruct (r =? 40)%N eqn:F6.
  { apply N.eqb_eq in F6. subst r. apply T; discriminate || reflexivity. }
  destruct (r =? 41)%N eqn:F7.
  { apply N.eqb_eq in F7. subst r. apply T; discriminate || reflexivity. }
  clear T. change (is_letter r || is_digit r) with (is_word r).
  destruct (is_word r) eqn:W.
  - destruct (l_identifier_ok _ n l V L) as (l' & -> & V').
    destruct (read_word (r :: rest)) as [w rest']. exists l'.
    split; [reflexivity|]. split; [exact V'|apply lookup_not_eof].
  - destruct (l_token_ok "Illegal" _ _ _ V) as (l' & -> & V'); [discriminate|discriminate|].
    exists l'. split; [reflexivity|]. split; [exact V'|discriminate].
Qed.

Lemma read_word_app : forall rs, (fst (read_word rs) ++ snd (read_word rs))%list = rs.
Proof.
  induction rs as [|r rs IH]; [reflexivity|]. cbn [read_word]. destruct (is_word r); [|reflexivity].
  destruct (read_word rs) as [w rest]. cbn in *. rewrite IH. reflexivity.
Qed.

Lemma drop_length : forall f (rs : list N), length (drop_while f rs) <= length rs.
Proof.
  induction rs as [|r rs IH]; cbn; [lia|]. destruct (f r); cbn; lia.
Qed.

Lemma lex_next_shrinks : forall rs t rest, lex_next rs = Some (t, rest) -> length rest < length rs.
Proof.
  intros rs t rest H. unfold lex_next in H. pose proof (drop_length is_whitespace rs) as D.
  destruct (drop_while is_whitespace rs) as [|r rs']; [discriminate|]. cbn in D.
  destruct (r =? 0)%N; [discriminate|]. destruct (r =? 10)%N; [injection H as _ <-; lia|].
  destruct (symbol r); [injection H as _ <-; lia|].
  destruct (is_word r) eqn:W; [|injection H as _ <-; lia].
  pose proof (read_word_app rs') as A. cbn [read_word] in H. rewrite W in H.
  destruct (read_word rs') as [w rest']. injection H as _ <-. cbn in A.
  apply (f_equal (@length N)) in A. rewrite app_length in A. lia.
Qed.

Lemma lex_fuel : forall n m rs, length rs <= n -> length rs <= m -> lex_all n rs = lex_all m rs.
Proof.
  induction n as [|n IH]; intros m rs H1 H2.
  - destruct rs as [|r rs]; [|cbn in H1; lia]. destruct m; reflexivity.
  - destruct m as [|m]; [destruct rs as [|r rs]; [reflexivity|cbn in H2; lia]|].
    cbn [lex_all]. destruct (lex_next rs) as [[t rest]|] eqn:E; [|reflexivity].
    apply lex_next_shrinks in E. f_equal. apply IH; lia.
Qed.

Lemma l_iterator_ok : forall n k rs l, views l rs -> length rs <= n -> length rs <= k ->
  l_iterator n k l = Some (lex_all (length rs) rs).
Proof.
  intros n. induction k as [|k IH]; intros rs l V L1 L2.
  - destruct rs as [|r rs]; [|cbn in L2; lia]. pose proof (l_next_ok _ _ _ V L1) as H.
    cbn in H. destruct H as (l' & H). cbn [l_iterator]. rewrite H. reflexivity.
  - pose proof (l_next_ok _ _ _ V L1) as H. cbn [l_iterator].
    destruct (lex_next rs) as [[t rest]|] eqn:E.
    + destruct H as (l' & -> & V' & Ne). rewrite (proj2 (String.eqb_neq _ _) Ne).
      pose proof (lex_next_shrinks _ _ _ E) as S.
      rewrite (IH rest l' V') by lia.
      destruct rs as [|r rs]; [cbn in S; lia|]. cbn [length lex_all]. rewrite E.
      do 2 f_equal. apply lex_fuel; [lia|cbn in S; lia].
    + destruct H as (l' & ->). cbn [tk_type String.eqb].
      replace (lex_all (length rs) rs) with (@nil token); [reflexivity|].
      destruct rs as [|r rs]; [reflexivity|]. cbn [length lex_all]. rewrite E. reflexivity.
Qed.

Lemma runes_length : forall s, length (runes s) <= String.length s.
Proof.
  intro s. unfold runes. rewrite map_length.
  induction s as [s IH] using string_len_ind. destruct s as [|a s1]; [reflexivity|].
  destruct (chunks_step a s1) as (c & s' & E & _ & _ & L). rewrite E. cbn [length String.length].
  specialize (IH s' ltac:(cbn; lia)). lia.
Qed.

Lemma machine_lex : forall s n k, String.length s <= n -> String.length s <= k ->
  l_iterator n k (l_new s) = Some (lex s).
Proof.
  intros s n k H1 H2. pose proof (runes_length s) as L. apply l_iterator_ok; [apply new_views|lia|lia].
Qed.

(* ------------------------------------------------------------------------- *)
(* Character classes                                                          *)
(* ------------------------------------------------------------------------- *)

Lemma blank_spec : forall r, is_whitespace r = true <-> blank_rune r.
Proof. intro r. unfold is_whitespace, blank_rune. cbn [In]. lia. Qed.
Lemma symbol_rune_spec : forall r, symbol_rune r <->
  (r = 42 \/ r = 61 \/ r = 59 \/ r = 44 \/ r = 58 \/ r = 40 \/ r = 41)%N.
Proof. intro r. unfold symbol_rune. cbn. lia. Qed.
Lemma word_spec : forall r, is_word r = true <-> word_rune r.
Proof.
  intro r. unfold is_word, is_letter, is_digit, between, word_rune.
  split.
  - intro H. assert (B : (r < 128)%N) by lia.
    assert (All : forall n, n < 128 ->
       (let r := N.of_nat n in
        if ((97 <=? r) && (r <=? 122) || ((65 <=? r) && (r <=? 90)) || (r =? 95) || (r =? 46)
            || ((48 <=? r) && (r <=? 57)))%N
        then In r (codes "abcdefghijklmnopqrstuvwxyzABCDEFGHIJKLMNOPQRSTUVWXYZ0123456789_.") else True)).
    { intros n Hn. do 128 (destruct n as [|n]; [vm_compute; tauto|]). lia. }
    specialize (All (N.to_nat r) ltac:(lia)). rewrite N2Nat.id in All. cbv zeta in All.
    rewrite H in All. exact All.
  - intro H. apply in_map_iff in H. destruct H as (a & <- & H).
    revert a H. apply Forall_forall. repeat (constructor; [vm_compute; reflexivity|]). constructor.
Qed.

Lemma word_not_blank : forall r, word_rune r -> ~ blank_rune r.
Proof.
  intros r H. apply word_spec in H. rewrite <- blank_spec.
  unfold is_word, is_letter, is_digit, between, is_whitespace in *. lia.
Qed.
Lemma word_not_symbol : forall r, word_rune r -> ~ symbol_rune r.
Proof.
  intros r H. apply word_spec in H. rewrite symbol_rune_spec.
  unfold is_word, is_letter, is_digit, between in *. lia.
Qed.
Lemma symbol_not_blank : forall r, symbol_rune r -> ~ blank_rune r.
Proof. intros r H. apply symbol_rune_spec in H. unfold blank_rune. cbn [In]. lia. Qed.

Lemma symbol_some : forall r, symbol_rune r -> symbol r = Some (encode_rune r).
Proof.
  intros r H. apply symbol_rune_spec in H.
  repeat (destruct H as [->|H]; [reflexivity|]). rewrite H. reflexivity.
Qed.
Lemma symbol_none : forall r, ~ symbol_rune r -> symbol r = None.
Proof.
  intros r H. rewrite symbol_rune_spec in H. unfold symbol.
  repeat match goal with |- context[(r =? ?c)%N] =>
    replace (r =? c)%N with false by lia end. reflexivity.
Qed.
Lemma symbol_dec : forall r, symbol_rune r \/ ~ symbol_rune r.
Proof. intro r. rewrite symbol_rune_spec. lia. Qed.

(* Keywords *)
Lemma upper_no_space : forall w, Forall word_rune w ->
  to_upper (concat_str (map encode_rune w)) <> "DISTINCT ON"%string.
Proof.
  intros w H E.
  assert (G : Forall (fun a => word_rune (byte a))
                (list_ascii_of_string (to_upper (concat_str (map encode_rune w))))).
  { clear E. induction H as [|r w Hr Hw IH]; [constructor|]. cbn [map concat_str].
    apply word_spec in Hr.
    assert (B : (r < 128)%N) by (unfold is_word, is_letter, is_digit, between in Hr; lia).
    unfold encode_rune. replace (r <? 128)%N with true by lia. cbn.
    constructor; [|exact IH]. apply word_spec.
    unfold upper_ascii. rewrite byte_chr by lia.
    unfold is_word, is_letter, is_digit, between in *.
    match goal with |- context[if ?b then _ else _] => destruct b eqn:Eb end;
      rewrite byte_chr by lia; lia. }
  rewrite E in G. cbn in G. do 8 apply Forall_inv_tail in G. apply Forall_inv in G.
  apply word_spec in G. vm_compute in G. discriminate.
Qed.

Lemma keywords_sql : forall n, In n keywords <-> n = "DISTINCT ON"%string \/ In n sql_words.
Proof.
  intro n.
  replace sql_words with (filter (fun k => negb (String.eqb k "DISTINCT ON")) keywords) by reflexivity.
  rewrite filter_In. destruct (String.eqb_spec n "DISTINCT ON") as [->|Ne].
  - split; [tauto|]. intros _. vm_compute. tauto.
  - cbn [negb]. tauto.
Qed.

Lemma lookup_spec : forall w, Forall word_rune w ->
  let v := concat_str (map encode_rune w) in word_token v {| tk_type := lookup v; tk_value := v |}.
Proof.
  intros w H v. pose proof (upper_no_space w H) as U. fold v in U.
  unfold word_token, lookup. cbn [tk_value tk_type]. split; [reflexivity|].
  destruct (existsb (String.eqb (to_upper v)) keywords) eqn:E.
  - split; [reflexivity|]. intro Hn. exfalso. apply Hn.
    apply existsb_exists in E. destruct E as (x & Hx & Ex). apply String.eqb_eq in Ex. subst x.
    apply keywords_sql in Hx. destruct Hx as [Hx|Hx]; [congruence|exact Hx].
  - split; [|reflexivity]. intro Hi. exfalso.
    assert (T : existsb (String.eqb (to_upper v)) keywords = true); [|congruence].
    apply existsb_exists. exists (to_upper v). split; [|apply String.eqb_refl].
    apply keywords_sql. right. exact Hi.
Qed.

Lemma word_token_unique : forall v t u, word_token v t -> word_token v u -> t = u.
Proof.
  intros v [t1 t2] [u1 u2] (A1 & A2 & A3) (B1 & B2 & B3). cbn in *. subst.
  destruct (in_dec string_dec (to_upper v) sql_words) as [I|I].
  - rewrite A2, B2 by exact I. congruence.
  - rewrite A3, B3 by exact I. congruence.
Qed.

(* ------------------------------------------------------------------------- *)
(* The specification                                                          *)
(* ------------------------------------------------------------------------- *)

Lemma read_word_run : forall w rs, Forall word_rune w ->
  match rs with r :: _ => ~ word_rune r | [] => True end ->
  read_word (w ++ rs)%list = (w, rs).
Proof.
  intros w rs H N. induction H as [|r w Hr Hw IH]; cbn.
  - destruct rs as [|r rs]; [reflexivity|]. cbn. destruct (is_word r) eqn:W; [|reflexivity].
    apply word_spec in W. contradiction.
  - apply word_spec in Hr. rewrite Hr, IH. reflexivity.
Qed.

Lemma read_word_spec : forall rs, Forall word_rune (fst (read_word rs))
  /\ match snd (read_word rs) with r :: _ => ~ word_rune r | [] => True end.
Proof.
  induction rs as [|r rs [IH1 IH2]]; [split; [constructor|exact I]|]. cbn [read_word].
  destruct (is_word r) eqn:W.
  - destruct (read_word rs) as [w rest]. cbn in *. split; [|exact IH2].
    constructor; [apply word_spec, W|exact IH1].
  - cbn. split; [constructor|]. intro H. apply word_spec in H. congruence.
Qed.

Lemma scan_lex : forall rs ts, scan rs ts -> ~ In 0%N rs -> lex_all (length rs) rs = ts.
Proof.
  intros rs ts H. induction H as [|r rs ts B H IH|r rs ts S H IH|w rs t ts Ne Fw Mx T H IH|r rs ts B S W H IH];
    intro Z.
  - reflexivity.
  - rewrite <- IH by (intro; apply Z; right; assumption).
    cbn [length lex_all]. unfold lex_next. cbn [drop_while]. apply blank_spec in B. rewrite B.
    destruct rs as [|r' rs']; [reflexivity|].
    rewrite (lex_fuel (length (r' :: rs')) (S (length (r' :: rs'))) (r' :: rs')) by lia.
    reflexivity.
  - rewrite <- IH by (intro; apply Z; right; assumption).
    cbn [length lex_all]. unfold lex_next. cbn [drop_while].
    destruct (is_whitespace r) eqn:B; [apply blank_spec in B; apply symbol_not_blank in S; contradiction|].
    rewrite (symbol_some r S). apply symbol_rune_spec in S.
    replace (r =? 0)%N with false by lia. replace (r =? 10)%N with false by lia. reflexivity.
  - rewrite <- IH by (intro; apply Z; apply in_or_app; right; assumption).
    destruct w as [|r w]; [contradiction|]. cbn [app length lex_all]. unfold lex_next. cbn [drop_while].
    pose proof (Forall_inv Fw) as Wr.
    destruct (is_whitespace r) eqn:B; [apply blank_spec in B; apply word_not_blank in Wr; contradiction|].
    rewrite (symbol_none r (word_not_symbol r Wr)).
    assert (W := proj2 (word_spec r) Wr). rewrite W.
    assert (r <> 0%N /\ r <> 10%N) as [N1 N2].
    { unfold is_word, is_letter, is_digit, between in W. lia. }
    replace (r =? 0)%N with false by lia. replace (r =? 10)%N with false by lia.
    change (r :: (w ++ rs)%list) with ((r :: w) ++ rs)%list. rewrite read_word_run by assumption.
    f_equal.
    + eapply word_token_unique; [|exact T]. apply lookup_spec, Fw.
    + apply lex_fuel; [rewrite app_length; lia|lia].
  - rewrite <- IH by (intro; apply Z; right; assumption).
    cbn [length lex_all]. unfold lex_next. cbn [drop_while].
    destruct (is_whitespace r) eqn:Bw; [apply blank_spec in Bw; contradiction|].
    rewrite (symbol_none r S).
    destruct (is_word r) eqn:Ww; [apply word_spec in Ww; contradiction|].
    replace (r =? 0)%N with false; [|symmetry; apply N.eqb_neq; intros ->; apply Z; left; reflexivity].
    replace (r =? 10)%N with false; [reflexivity|].
    symmetry. apply N.eqb_neq. intros ->. discriminate Bw.
Qed.

Lemma scan_exists : forall rs, exists ts, scan rs ts.
Proof.
  enough (G : forall n rs, length rs <= n -> exists ts, scan rs ts) by (intro rs; apply (G (length rs)); lia).
  induction n as [|n IH]; intros rs L.
  - destruct rs; [exists []; constructor|cbn in L; lia].
  - destruct rs as [|r rs]; [exists []; constructor|]. cbn in L.
    destruct (IH rs ltac:(lia)) as (ts & H).
    destruct (is_whitespace r) eqn:B; [exists ts; apply scan_blank; [apply blank_spec, B|exact H]|].
    destruct (symbol_dec r) as [S|S]; [eexists; apply scan_symbol; eassumption|].
    destruct (is_word r) eqn:W.
    + pose proof (read_word_spec (r :: rs)) as (F & M). pose proof (read_word_app (r :: rs)) as A.
      pose proof (read_word_app rs) as A'.
      cbn [read_word] in *. rewrite W in *. destruct (read_word rs) as [w rest].
      cbn [fst snd] in *. rewrite <- A.
      destruct (IH rest) as (ts' & H').
      { apply (f_equal (@length N)) in A'. rewrite app_length in A'. lia. }
      eexists. apply scan_word; [discriminate|exact F|exact M|apply lookup_spec, F|exact H'].
    + eexists. apply scan_other; [| |intro HW; apply word_spec in HW; congruence|exact H].
      * intro HB. apply blank_spec in HB. congruence.
      * exact S.
Qed.

Lemma lex_scan : forall rs, ~ In 0%N rs -> scan rs (lex_all (length rs) rs).
Proof. intros rs Z. destruct (scan_exists rs) as (ts & H). rewrite (scan_lex rs ts H Z). exact H. Qed.

Lemma rune_zero : forall s, In 0%N (runes s) -> In "000"%char (list_ascii_of_string s).
Proof.
  intros s H. unfold runes in H. rewrite <- (chunks_bytes s). pose proof (chunks_wf s) as W.
  induction W as [|c l Wc Wl IH]; [contradiction|]. cbn [map concat_str]. rewrite los_app.
  apply in_or_app. destruct H as [H|H]; [left|right; apply IH, H].
  destruct c as [r bs|b]; cbn in H; [|discriminate]. subst r. destruct Wc as (_ & _ & Wc).
  cbn in Wc. subst bs. left. reflexivity.
Qed.

Lemma no_nul_runes : forall s, no_nul s -> ~ In 0%N (runes s).
Proof. intros s H Z. apply H, rune_zero, Z. Qed.

(* ------------------------------------------------------------------------- *)
(* Consequences                                                               *)
(* ------------------------------------------------------------------------- *)

Lemma scan_values : forall rs ts, scan rs ts ->
  concat_str (map tk_value ts)
  = concat_str (map encode_rune (filter (fun r => negb (is_whitespace r)) rs)).
Proof.
  intros rs ts H. induction H as [|r rs ts B H IH|r rs ts S H IH|w rs t ts Ne Fw Mx T H IH|r rs ts B S W H IH].
  - reflexivity.
  - cbn [filter]. apply blank_spec in B. rewrite B. exact IH.
  - cbn [filter map concat_str tk_value].
    destruct (is_whitespace r) eqn:B; [apply blank_spec in B; apply symbol_not_blank in S; contradiction|].
    cbn. rewrite IH. reflexivity.
  - cbn [map concat_str]. destruct T as (-> & _). rewrite IH. rewrite filter_app, map_app, concat_str_app.
    f_equal. clear - Fw. induction Fw as [|r w Wr Fw IH]; [reflexivity|]. cbn [filter].
    destruct (is_whitespace r) eqn:B; [apply blank_spec in B; apply word_not_blank in Wr; contradiction|].
    cbn. rewrite IH. reflexivity.
  - cbn [filter map concat_str tk_value].
    destruct (is_whitespace r) eqn:Bw; [apply blank_spec in Bw; contradiction|].
    cbn. rewrite IH. reflexivity.
Qed.

(* Cutting at a character that is not part of a word. *)
Lemma scan_app : forall rs ts rs' ts', scan rs ts -> scan rs' ts' ->
  match rs' with r :: _ => ~ word_rune r | [] => True end -> scan (rs ++ rs')%list (ts ++ ts')%list.
Proof.
  intros rs ts rs' ts' H H' N.
  induction H as [|r rs ts B H IH|r rs ts S H IH|w rs t ts Ne Fw Mx T H IH|r rs ts B S W H IH].
  - exact H'.
  - apply scan_blank; assumption.
  - apply scan_symbol; assumption.
  - rewrite <- app_assoc. cbn [app]. apply scan_word; try assumption.
    destruct rs as [|r rs]; [exact N|exact Mx].
  - apply scan_other; assumption.
Qed.

Lemma no_nul_app : forall a b, no_nul (a ++ b) <-> no_nul a /\ no_nul b.
Proof.
  intros a b. unfold no_nul. rewrite los_app. split.
  - intro H. split; intro I; apply H, in_or_app; auto.
  - intros [H1 H2] I. apply in_app_or in I. tauto.
Qed.

Lemma runes_cut : forall a c b, (byte c < 128)%N ->
  runes (a ++ String c b) = (runes a ++ byte c :: runes b)%list.
Proof.
  intros a c b H. unfold runes. rewrite chunks_cut, map_app, chunks_ascii by exact H. reflexivity.
Qed.

Lemma runes_ascii_cons : forall c b, (byte c < 128)%N -> runes (String c b) = byte c :: runes b.
Proof. intros c b H. exact (runes_cut "" c b H). Qed.

Lemma lex_is : forall s ts, no_nul s -> (scan (runes s) ts <-> ts = lex s).
Proof.
  intros s ts H. apply no_nul_runes in H. split.
  - intro S. symmetry. apply (scan_lex _ _ S H).
  - intros ->. apply lex_scan, H.
Qed.

Lemma lex_symbol : forall a c b, symbol_rune (byte c) -> no_nul a -> no_nul b ->
  lex (a ++ String c b) = (lex a ++ {| tk_type := str1 c; tk_value := str1 c |} :: lex b)%list.
Proof.
  intros a c b S Na Nb. assert (C : (byte c < 128)%N) by (apply symbol_rune_spec in S; lia).
  symmetry. apply lex_is.
  - apply no_nul_app. split; [exact Na|]. unfold no_nul. cbn. intros [->|I]; [|exact (Nb I)].
    apply symbol_rune_spec in S. cbn in S. lia.
  - rewrite runes_cut by exact C. apply scan_app.
    + apply lex_is; [exact Na|reflexivity].
    + replace (str1 c) with (encode_rune (byte c)).
      * apply scan_symbol; [exact S|]. apply lex_is; [exact Nb|reflexivity].
      * unfold encode_rune. replace (byte c <? 128)%N with true by lia. rewrite chr_byte. reflexivity.
    + intro W. apply word_not_symbol in W. contradiction.
Qed.

Lemma lex_blank : forall a c b, blank_rune (byte c) -> no_nul a -> no_nul b ->
  lex (a ++ String c b) = (lex a ++ lex b)%list.
Proof.
  intros a c b S Na Nb.
  assert (S' := S). unfold blank_rune in S'. cbn [In] in S'.
  symmetry. apply lex_is.
  - apply no_nul_app. split; [exact Na|]. unfold no_nul. cbn. intros [->|I]; [|exact (Nb I)].
    cbn in S'. lia.
  - rewrite runes_cut by lia. apply scan_app.
    + apply lex_is; [exact Na|reflexivity].
    + apply scan_blank; [exact S|]. apply lex_is; [exact Nb|reflexivity].
    + intro W. apply word_not_blank in W. contradiction.
Qed.

Lemma blanks_no_nul : forall g, blanks g -> no_nul g.
Proof.
  intros g H I. unfold blanks in H. rewrite Forall_forall in H. apply H in I.
  unfold blank_rune in I. cbn in I. lia.
Qed.

Lemma lex_blanks_left : forall g b, blanks g -> no_nul b -> lex (g ++ b) = lex b.
Proof.
  induction g as [|c g IH]; intros b H Nb; [reflexivity|]. inversion_clear H as [|? ? Hc Hg].
  cbn [append]. transitivity (lex (g ++ b)); [|apply IH; assumption].
  apply (lex_blank "" c (g ++ b)); [exact Hc|intros []|].
  apply no_nul_app. split; [apply blanks_no_nul, Hg|exact Nb].
Qed.

Lemma lex_spaces : forall a g b, blanks g -> g <> "" -> no_nul a -> no_nul b ->
  lex (a ++ g ++ b) = (lex a ++ lex b)%list.
Proof.
  intros a g b H Ne Na Nb. destruct g as [|c g]; [congruence|]. inversion_clear H as [|? ? Hc Hg].
  cbn [append]. rewrite lex_blank; [|exact Hc|exact Na|].
  - rewrite lex_blanks_left by assumption. reflexivity.
  - apply no_nul_app. split; [apply blanks_no_nul, Hg|exact Nb].
Qed.

(* A NUL ends the input. *)
Lemma lex_zero : forall rs rs' ts, scan rs ts -> ~ In 0%N rs ->
  forall n, length rs <= n -> lex_all n (rs ++ 0%N :: rs')%list = ts.
Proof.
  intros rs rs' ts H. induction H as [|r rs ts B H IH|r rs ts S H IH|w rs t ts Ne Fw Mx T H IH|r rs ts B S W H IH];
    intros Z n L.
  - destruct n; reflexivity.
  - destruct n as [|n]; [cbn in L; lia|]. cbn in L.
    rewrite <- (IH ltac:(intro; apply Z; right; assumption) (S n)) by lia.
    cbn [app lex_all]. unfold lex_next. cbn [drop_while]. apply blank_spec in B. rewrite B. reflexivity.
  - destruct n as [|n]; [cbn in L; lia|]. cbn in L.
    rewrite <- (IH ltac:(intro; apply Z; right; assumption) n) by lia.
    cbn [app lex_all]. unfold lex_next. cbn [drop_while].
    destruct (is_whitespace r) eqn:B; [apply blank_spec in B; apply symbol_not_blank in S; contradiction|].
    rewrite (symbol_some r S). apply symbol_rune_spec in S.
    replace (r =? 0)%N with false by lia. replace (r =? 10)%N with false by lia. reflexivity.
  - destruct n as [|n]; [destruct w; [contradiction|cbn in L; lia]|].
    rewrite app_length in L.
    destruct w as [|r w]; [contradiction|]. cbn in L.
    rewrite <- (IH ltac:(intro; apply Z; apply in_or_app; right; assumption) n) by lia.
    rewrite <- app_assoc. cbn [app lex_all]. unfold lex_next. cbn [drop_while].
    pose proof (Forall_inv Fw) as Wr.
    destruct (is_whitespace r) eqn:B; [apply blank_spec in B; apply word_not_blank in Wr; contradiction|].
    rewrite (symbol_none r (word_not_symbol r Wr)).
    assert (W := proj2 (word_spec r) Wr). rewrite W.
    assert (r <> 0%N /\ r <> 10%N) as [N1 N2].
    { unfold is_word, is_letter, is_digit, between in W. lia. }
    replace (r =? 0)%N with false by lia. replace (r =? 10)%N with false by lia.
    change (r :: (w ++ rs ++ 0%N :: rs')%list) with ((r :: w) ++ (rs ++ 0%N :: rs'))%list.
    rewrite read_word_run; [|exact Fw|].
    + f_equal. eapply word_token_unique; [|exact T]. apply lookup_spec, Fw.
    + destruct rs as [|r2 rs]; [|exact Mx]. cbn. intro W0. apply word_spec in W0. discriminate W0.
  - destruct n as [|n]; [cbn in L; lia|]. cbn in L.
    rewrite <- (IH ltac:(intro; apply Z; right; assumption) n) by lia.
    cbn [app lex_all]. unfold lex_next. cbn [drop_while].
    destruct (is_whitespace r) eqn:Bw; [apply blank_spec in Bw; contradiction|].
    rewrite (symbol_none r S).
    destruct (is_word r) eqn:Ww; [apply word_spec in Ww; contradiction|].
    replace (r =? 0)%N with false; [|symmetry; apply N.eqb_neq; intros ->; apply Z; left; reflexivity].
    replace (r =? 10)%N with false; [reflexivity|].
    symmetry. apply N.eqb_neq. intros ->. discriminate Bw.
Qed.

Lemma lex_nul : forall a b, no_nul a -> lex (a ++ String "000" b) = lex a.
Proof.
  intros a b H. apply no_nul_runes in H. unfold lex at 1. rewrite runes_cut by (vm_compute; reflexivity).
  apply lex_zero; [apply lex_scan, H|exact H|rewrite app_length; lia].
Qed.

(* Layouts *)
Lemma word_ascii : forall w, Forall (fun a => word_rune (byte a)) (list_ascii_of_string w) ->
  forall b, runes (w ++ b) = (map byte (list_ascii_of_string w) ++ runes b)%list
    /\ Forall word_rune (map byte (list_ascii_of_string w))
    /\ concat_str (map encode_rune (map byte (list_ascii_of_string w))) = w.
Proof.
  intros w H b. induction w as [|c w IH]; [repeat split; constructor|].
  inversion_clear H as [|? ? Hc Hw]. destruct (IH Hw) as (R & F & E). clear IH.
  assert (C : (byte c < 128)%N).
  { apply word_spec in Hc. unfold is_word, is_letter, is_digit, between in Hc. lia. }
  cbn [append list_ascii_of_string map concat_str]. rewrite runes_ascii_cons, R, E by exact C.
  repeat split; [constructor; assumption|].
  unfold encode_rune. replace (byte c <? 128)%N with true by lia. rewrite chr_byte. reflexivity.
Qed.

Lemma blank_ascii : forall g, blanks g -> forall b ts, scan (runes b) ts -> scan (runes (g ++ b)) ts.
Proof.
  intros g H b ts S. induction g as [|c g IH]; [exact S|]. inversion_clear H as [|? ? Hc Hg].
  assert (C : (byte c < 128)%N) by (unfold blank_rune in Hc; cbn in Hc; lia).
  cbn [append]. rewrite runes_ascii_cons by exact C. apply scan_blank; auto.
Qed.

(* The character after a word in a layout. *)
Lemma layout_head : forall ps s, layout true ps s ->
  match runes s with r :: _ => ~ word_rune r | [] => True end.
Proof.
  intros ps s H. remember true as aw eqn:Eaw in H. destruct H as [aw g Hg|aw g p ps s Hg Hp Hsep Hs]; subst aw.
  - destruct g as [|c g]; [exact I|]. inversion_clear Hg as [|? ? Hc Hr].
    assert (C : (byte c < 128)%N) by (unfold blank_rune in Hc; cbn in Hc; lia).
    rewrite runes_ascii_cons by exact C. intro W. apply word_not_blank in W. contradiction.
  - destruct g as [|c g].
    + destruct p as [w|a]; [exfalso; apply Hsep; reflexivity|]. cbn in Hp.
      assert (C : (byte a < 128)%N) by (apply symbol_rune_spec in Hp; lia).
      cbn [lexeme_text append str1]. rewrite runes_ascii_cons by exact C.
      intro W. apply word_not_symbol in W. contradiction.
    + inversion_clear Hg as [|? ? Hc Hr].
      assert (C : (byte c < 128)%N) by (unfold blank_rune in Hc; cbn in Hc; lia).
      cbn [append]. rewrite runes_ascii_cons by exact C. intro W. apply word_not_blank in W. contradiction.
Qed.

Lemma layout_scan : forall b ps s, layout b ps s -> forall ts, Forall2 lexeme_token ps ts ->
  scan (runes s) ts.
Proof.
  intros b ps s H. induction H as [aw g Hg|aw g p ps s Hg Hp Hsep Hs IH]; intros ts F.
  - inversion F; subst. rewrite <- (sapp_nil g). apply blank_ascii; [exact Hg|constructor].
  - inversion F as [|? t ? ts' Ht F']; subst. apply blank_ascii; [exact Hg|].
    specialize (IH _ F'). destruct p as [w|a]; cbn [lexeme_text lexeme_token lexeme_ok is_word_lexeme] in *.
    + destruct Hp as [Ne Hw]. destruct (word_ascii w Hw s) as (R & Fw & E). rewrite R.
      apply scan_word; [destruct w; [congruence|discriminate]|exact Fw| |rewrite E; exact Ht|exact IH].
      apply (layout_head _ _ Hs).
    + subst t. assert (C : (byte a < 128)%N) by (apply symbol_rune_spec in Hp; lia).
      cbn [append str1]. rewrite runes_ascii_cons by exact C.
      replace (str1 a) with (encode_rune (byte a)); [apply scan_symbol; assumption|].
      unfold encode_rune. replace (byte a <? 128)%N with true by lia. rewrite chr_byte. reflexivity.
Qed.

Lemma layout_no_nul : forall b ps s, layout b ps s -> no_nul s.
Proof.
  intros b ps s H. induction H as [aw g Hg|aw g p ps s Hg Hp Hsep Hs IH].
  - apply blanks_no_nul, Hg.
  - apply no_nul_app. split; [apply blanks_no_nul, Hg|]. apply no_nul_app. split; [|exact IH].
    destruct p as [w|a]; cbn in Hp |- *.
    + destruct Hp as [_ Hp]. intro I. rewrite Forall_forall in Hp. apply Hp, word_spec in I.
      vm_compute in I. discriminate.
    + intros [->|[]]. apply symbol_rune_spec in Hp. cbn in Hp. lia.
Qed.

Lemma word_token_exists : forall w, exists t, word_token w t.
Proof.
  intro w. destruct (in_dec string_dec (to_upper w) sql_words) as [I|I].
  - exists {| tk_type := to_upper w; tk_value := w |}. repeat split; tauto.
  - exists {| tk_type := "Literal"; tk_value := w |}. repeat split; tauto.
Qed.

Lemma layout_lex : forall b ps s, layout b ps s -> Forall2 lexeme_token ps (lex s).
Proof.
  intros b ps s H. pose proof (layout_no_nul _ _ _ H) as N.
  assert (E : exists ts, Forall2 lexeme_token ps ts).
  { clear. induction ps as [|p ps (ts & IH)]; [exists []; constructor|].
    destruct p as [w|a].
    - destruct (word_token_exists w) as (t & Ht). exists (t :: ts). constructor; assumption.
    - eexists (_ :: ts). constructor; [reflexivity|assumption]. }
  destruct E as (ts & F). pose proof (layout_scan _ _ _ H ts F) as S. apply (lex_is s ts N) in S.
  subst ts. exact F.
Qed.

(* Characters keep their bytes. *)
Lemma blank_byte_spec : forall a, blank_byte a = is_whitespace (byte a).
Proof. intro a. unfold blank_byte, is_whitespace. cbn [existsb]. lia. Qed.

Lemma encode_filter : forall s,
  concat_str (map encode_rune (filter (fun r => negb (is_whitespace r)) (runes s)))
  = without_blanks (scrubbed s).
Proof.
  intro s. unfold scrubbed, runes, without_blanks.
  pose proof (chunks_wf s) as W. induction W as [|c l Wc Wl IH]; [reflexivity|].
  cbn [map filter concat_str] in *. rewrite los_app, filter_app.
  assert (Sapp : forall l m, string_of_list_ascii (l ++ m)%list
                 = (string_of_list_ascii l ++ string_of_list_ascii m)%string).
  { clear. induction l as [|x l IH]; intro m; cbn; [reflexivity|]. rewrite IH. reflexivity. }
  rewrite Sapp, <- IH. clear IH.
  destruct c as [r bs|b]; cbn [chunk_rune] in *; [|reflexivity].
  destruct Wc as (E & _ & A). destruct (r <? 128)%N eqn:Er.
  - rewrite A in E |- *. unfold str1 in *. cbn [list_ascii_of_string filter].
    rewrite blank_byte_spec, byte_chr by lia.
    destruct (is_whitespace r) eqn:B; cbn [negb map concat_str string_of_list_ascii]; [reflexivity|].
    rewrite E. reflexivity.
  - assert (B : is_whitespace r = false) by (unfold is_whitespace; lia). rewrite B. cbn [negb map concat_str].
    rewrite E. f_equal. clear E B. induction bs as [|a bs IHb]; [reflexivity|].
    cbn in A. cbn [list_ascii_of_string filter]. assert (Ba : blank_byte a = false).
    { specialize (A a (or_introl eq_refl)). rewrite blank_byte_spec. unfold is_whitespace. lia. }
    rewrite Ba. cbn. f_equal. apply IHb. intros x Hx. apply A. right. exact Hx.
Qed.

Lemma scrubbed_valid : forall s, utf8_valid s = true -> scrubbed s = s.
Proof.
  intros s H. unfold scrubbed. rewrite <- (chunks_bytes s) at 2. f_equal. unfold utf8_valid in H.
  induction (chunks s) as [|c l IH]; [reflexivity|]. cbn [forallb map] in *.
  apply andb_prop in H. destruct H as [Hc Hl]. rewrite IH by exact Hl.
  destruct c; [reflexivity|discriminate].
Qed.

Lemma lex_values : forall s, no_nul s -> concat_str (map tk_value (lex s)) = without_blanks (scrubbed s).
Proof.
  intros s N. rewrite <- encode_filter. apply scan_values. apply lex_is; [exact N|reflexivity].
Qed.

Lemma lex_all_length : forall n rs, length (lex_all n rs) <= n.
Proof.
  induction n as [|n IH]; intro rs; [reflexivity|]. cbn [lex_all].
  destruct (lex_next rs) as [[t rest]|]; cbn; [specialize (IH rest)|]; lia.
Qed.
