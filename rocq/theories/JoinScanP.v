(* Proofs for JoinScan. *)
From Verif Require Export JoinP JoinScan.

Lemma type_of : forall k t, is_type k t = true <-> kind k t.
Proof. intros k t. unfold is_type, kind. apply String.eqb_eq. Qed.
Lemma not_type : forall k t, is_type k t = false <-> ~ kind k t.
Proof. intros k t. unfold is_type, kind. apply String.eqb_neq. Qed.

(* A token of a known kind. *)
Ltac typed t H :=
  repeat match goal with |- context[is_type ?k t] => rewrite (is_type_eq t _ k H) end; cbn [String.eqb Ascii.eqb Bool.eqb].

Definition starts_condition (p : piece) : bool := match p with PieceCondition _ _ => true | _ => false end.

Definition link_expr (x : expr) (oe : conn * equality) : expr :=
  EInfix x (Some (conn_word (fst oe))) (on_equality (snd oe)).

Lemma links_step : forall ts rest, reads_links ts rest -> forall tail j,
  parse_loop true (ts ++ tail) j
  = parse_loop true tail (set_cond j (fold_left link_expr rest (j_cond j))).
Proof.
  intros ts rest H. induction H as [|w o l q r ts rest Hw Hl Hq Hr H IH]; intros tail j.
  - destruct j. reflexivity.
  - cbn [app parse_loop]. unfold kind, name_kind in *.
    assert (K : is_type "AND" w || is_type "OR" w = true).
    { apply orb_true_iff. destruct o; [left|right]; apply type_of; exact Hw. }
    rewrite K. cbn [andb]. rewrite (proj2 (type_of "Literal" l) Hl), (proj2 (type_of "=" q) Hq), (proj2 (type_of "Literal" r) Hr).
    rewrite IH. f_equal. destruct j as [ty t c]. unfold set_cond, lk_column. cbn.
    assert (Eo : (if is_type "AND" w then "AND"%string else "OR"%string) = conn_word o).
    { unfold is_type. rewrite Hw. destruct o; reflexivity. }
    rewrite Eo. reflexivity.
Qed.

Lemma on_condition_links : forall e rest, on_condition e rest = fold_left link_expr rest (on_equality e).
Proof. reflexivity. Qed.

Lemma piece_step : forall ts p, reads_piece ts p -> forall b tail j,
  parse_loop b (ts ++ tail) j = parse_loop (starts_condition p) tail (add_piece j p).
Proof.
  intros ts p H b tail j.
  destruct H as [t Ht|a c Ha Hc|a c Ha Hc|a c Ha Hc|n w Hn Hw|l q r ts rest Hl Hq Hr Hs|t Ht];
    unfold kind, name_kind in *; cbn [app parse_loop starts_condition add_piece].
  - typed t Ht. rewrite andb_false_r. reflexivity.
  - typed a Ha. typed c Hc. rewrite andb_false_r. reflexivity.
  - typed a Ha. typed c Hc. rewrite andb_false_r. reflexivity.
  - typed a Ha. typed c Hc. rewrite andb_false_r. reflexivity.
  - typed n Hn. typed w Hw. rewrite andb_false_r. reflexivity.
  - typed l Hl. typed q Hq. typed r Hr. rewrite andb_false_r. cbn [orb].
    rewrite (links_step _ _ Hs). destruct j. reflexivity.
  - destruct Ht as [Ht|[Ht|Ht]]; typed t Ht; rewrite andb_false_r; reflexivity.
Qed.

Lemma join_said_app : forall ps p, join_said (ps ++ [p]) = add_piece (join_said ps) p.
Proof. intros. unfold join_said. rewrite fold_left_app. reflexivity. Qed.

Lemma pieces_run : forall ts ps b, reads_pieces ts ps b -> forall tail,
  parse_loop false (ts ++ tail) (join_said []) = parse_loop b tail (join_said ps).
Proof.
  intros ts ps b H. induction H as [|ts ps b ts' p H IH Hp]; intro tail; [reflexivity|].
  rewrite <- app_assoc, IH, join_said_app. exact (piece_step ts' p Hp b tail (join_said ps)).
Qed.

Lemma unexpected_run : forall b ts, unexpected b ts -> forall j, parse_loop b ts j = Ok (j, None).
Proof.
  intros b ts H j. destruct H as [|a ts Ha Hn|n ts Hn Hf|a ts Ha Hb|a ts Hl Hn Ho]; [reflexivity|..];
    unfold link_kind, kind, name_kind in *; cbn [parse_loop].
  - destruct Ha as [Ha|[Ha|Ha]]; typed a Ha; rewrite andb_false_r; cbn [orb];
      (destruct ts as [|c ts]; [reflexivity|]; rewrite (proj2 (not_type "JOIN" c)); [reflexivity|];
       exact (Hn c ts eq_refl)).
  - typed n Hn. rewrite andb_false_r. cbn [orb]. destruct ts as [|c ts]; [reflexivity|].
    destruct (Hf c ts eq_refl) as [F1 F2]. apply not_type in F1. apply not_type in F2. rewrite F1, F2. reflexivity.
  - subst b. cbn [andb]. destruct Ha as [Ha|Ha]; typed a Ha; reflexivity.
  - cbn [In] in Ho.
    assert (T : forall k, In k ["AND"; "OR"; "Literal"; "JOIN"; "INNER"; "LEFT"; "RIGHT"; "ON"; "("; ")"]%string ->
                is_type k a = false).
    { intros k Hk. apply not_type. unfold kind in *. intro E. cbn [In] in Hk. subst k. intuition congruence. }
    rewrite !T by (cbn [In]; tauto). rewrite andb_false_r. reflexivity.
Qed.

Lemma broken_run : forall b ts, broken b ts -> forall j,
  parse_loop b ts j = Ok (zero_join, Some join_error).
Proof.
  assert (NN : forall (ts : list token) (f : token -> list token -> res parsed) z, no_name_follows ts ->
             match ts with [] => z | r :: rest => if is_type "Literal" r then f r rest else z end = z).
  { intros ts f z N. destruct ts as [|t ts]; [reflexivity|].
    rewrite (proj2 (not_type "Literal" t) (N t ts eq_refl)). reflexivity. }
  assert (LK : forall a, link_kind a -> is_type "AND" a || is_type "OR" a = true).
  { intros a [H|H]; apply type_of in H; rewrite H; [reflexivity|apply orb_true_r]. }
  intros b ts H j. destruct H as [l q ts Hl Hq N|a ts -> Ha N|a l q ts -> Ha Hl Hq|a l q ts -> Ha Hl Hq N];
    cbn [parse_loop].
  - unfold name_kind, kind in *. typed l Hl. typed q Hq. rewrite andb_false_r. cbn [orb].
    apply (NN ts (fun r rest2 => _) _ N).
  - rewrite (LK a Ha). cbn [andb]. apply (NN ts (fun l rest1 => _) _ N).
  - rewrite (LK a Ha). cbn [andb]. rewrite (proj2 (type_of "Literal" l) Hl), (proj2 (not_type "=" q) Hq). reflexivity.
  - rewrite (LK a Ha). cbn [andb]. rewrite (proj2 (type_of "Literal" l) Hl), (proj2 (type_of "=" q) Hq).
    apply (NN ts (fun r rest3 => _) _ N).
Qed.

(* Every text is one of the three. *)
Inductive outcome (all : list token) : res parsed -> Prop :=
| outcome_join ts ps b tail : all = (ts ++ tail)%list -> reads_pieces ts ps b -> unexpected b tail ->
    outcome all (Ok (join_said ps, None))
| outcome_error ts ps b tail : all = (ts ++ tail)%list -> reads_pieces ts ps b -> broken b tail ->
    outcome all (Ok (zero_join, Some join_error))
| outcome_panic ts ps a l : all = (ts ++ [a; l])%list -> reads_pieces ts ps true -> link_kind a -> name_kind l ->
    outcome all (Panic PIndex).

Lemma links_app : forall ts rest ts' rest', reads_links ts rest -> reads_links ts' rest' ->
  reads_links (ts ++ ts') (rest ++ rest').
Proof.
  intros ts rest ts' rest' H H'. induction H; [exact H'|]. cbn [app]. constructor; assumption.
Qed.

Lemma pieces_extend : forall ts ps ts' rest', reads_pieces ts ps true -> reads_links ts' rest' ->
  exists ps', reads_pieces (ts ++ ts') ps' true
    /\ join_said ps' = set_cond (join_said ps) (fold_left link_expr rest' (j_cond (join_said ps))).
Proof.
  intros ts ps ts' rest' H H'. inversion H as [|ts0 ps0 b ts1 p Hp Hr Et Eps Eb]. subst ts ps.
  destruct Hr as [t Ht|a c Ha Hc|a c Ha Hc|a c Ha Hc|n w Hn Hw|l q r ts rest Hl Hq Hr Hs|t Ht]; try discriminate Eb.
  exists (ps0 ++ [PieceCondition {| eq_left := tk_value l; eq_right := tk_value r |} (rest ++ rest')])%list. split.
  - rewrite <- app_assoc. cbn [app].
    refine (read_some ts0 ps0 b (l :: q :: r :: (ts ++ ts')%list) _ Hp _).
    apply read_condition; [exact Hl|exact Hq|exact Hr|]. apply links_app; assumption.
  - rewrite !join_said_app. cbn [add_piece set_cond j_type j_table j_cond]. unfold set_cond. cbn [j_type j_table].
    rewrite !on_condition_links, fold_left_app. reflexivity.
Qed.

Lemma loop_outcome : forall n toks, length toks <= n -> forall ts ps b, reads_pieces ts ps b ->
  outcome (ts ++ toks) (parse_loop b toks (join_said ps)).
Proof.
  induction n as [|n IH]; intros toks L ts ps b H.
  { destruct toks; [|cbn in L; lia]. apply (outcome_join _ ts ps b []); [reflexivity|exact H|constructor]. }
  assert (UN : forall tail, unexpected b tail -> tail = toks -> outcome (ts ++ toks) (Ok (join_said ps, None))).
  { intros tail U ->. exact (outcome_join _ ts ps b toks eq_refl H U). }
  assert (BR : forall tail, broken b tail -> tail = toks -> outcome (ts ++ toks) (Ok (zero_join, Some join_error))).
  { intros tail U ->. exact (outcome_error _ ts ps b toks eq_refl H U). }
  (* one more piece *)
  assert (PC : forall ts' p tail, toks = (ts' ++ tail)%list -> reads_piece ts' p -> length tail <= n ->
            outcome (ts ++ toks) (parse_loop b toks (join_said ps))).
  { intros ts' p tail -> Hp Lt. rewrite (piece_step ts' p Hp), <- join_said_app, app_assoc.
    apply IH; [exact Lt|]. exact (read_some ts ps b ts' p H Hp). }
  destruct toks as [|e toks]; [apply (UN []); [constructor|reflexivity]|]. cbn [length] in L.
  destruct (b && (is_type "AND" e || is_type "OR" e)) eqn:Eb.
  - apply andb_true_iff in Eb. destruct Eb as [-> Ee].
    assert (Le : link_kind e).
    { apply orb_true_iff in Ee. destruct Ee as [Ee|Ee]; apply type_of in Ee; [left|right]; exact Ee. }
    cbn [parse_loop]. rewrite Ee. cbn [andb].
    destruct toks as [|l toks].
    { apply (BR [e]); [|reflexivity]. apply broken_link; [reflexivity|exact Le|]. intros t ts' K. discriminate K. }
    destruct (is_type "Literal" l) eqn:El.
    2:{ apply not_type in El. apply (BR (e :: l :: toks)); [|reflexivity].
        apply broken_link; [reflexivity|exact Le|]. intros t ts' K. injection K as <- <-. exact El. }
    apply type_of in El. destruct toks as [|q toks].
    { exact (outcome_panic _ ts ps e l eq_refl H Le El). }
    destruct (is_type "=" q) eqn:Eq.
    2:{ apply not_type in Eq. apply (BR (e :: l :: q :: toks)); [|reflexivity]. apply broken_left; auto. }
    apply type_of in Eq. destruct toks as [|r toks].
    { apply (BR [e; l; q]); [|reflexivity]. apply broken_right; auto. intros t ts' K. discriminate K. }
    destruct (is_type "Literal" r) eqn:Er.
    2:{ apply not_type in Er. apply (BR (e :: l :: q :: r :: toks)); [|reflexivity].
        apply broken_right; auto. intros t ts' K. injection K as <- <-. exact Er. }
    apply type_of in Er.
    set (o := if is_type "AND" e then AndC else OrC).
    assert (Ho : kind (conn_word o) e).
    { subst o. destruct (is_type "AND" e) eqn:Ea; [apply type_of, Ea|]. cbn [orb] in Ee. apply type_of, Ee. }
    destruct (pieces_extend ts ps [e; l; q; r] [(o, {| eq_left := tk_value l; eq_right := tk_value r |})] H)
      as (ps' & Hps & Ej).
    { constructor; try assumption. constructor. }
    replace (set_cond _ _) with (join_said ps').
    2:{ rewrite Ej. cbn [fold_left]. unfold link_expr. cbn [fst snd]. f_equal.
        f_equal. f_equal. subst o. destruct (is_type "AND" e); reflexivity. }
    replace (ts ++ e :: l :: q :: r :: toks)%list with ((ts ++ [e; l; q; r]) ++ toks)%list
      by (rewrite <- app_assoc; reflexivity).
    apply IH; [cbn [length] in L; lia|exact Hps].
  - assert (NL : b = true -> ~ link_kind e).
    { intros -> K. cbn [andb] in Eb. apply orb_false_iff in Eb. destruct Eb as [E1 E2].
      apply not_type in E1. apply not_type in E2. destruct K; contradiction. }
    destruct (is_type "JOIN" e) eqn:E1.
    { apply type_of in E1. apply (PC [e] PieceNothing toks); [reflexivity|apply read_join, E1|lia]. }
    destruct (is_type "INNER" e || is_type "LEFT" e || is_type "RIGHT" e) eqn:E2.
    { assert (Ke : kind "INNER" e \/ kind "LEFT" e \/ kind "RIGHT" e).
      { rewrite !orb_true_iff in E2. destruct E2 as [[K|K]|K]; apply type_of in K; tauto. }
      destruct toks as [|c toks].
      { assert (U : unexpected b [e]) by (apply unexpected_type; [exact Ke|intros ? ? K; discriminate K]).
        rewrite (unexpected_run _ _ U). exact (UN _ U eq_refl). }
      destruct (is_type "JOIN" c) eqn:Ec.
      - apply type_of in Ec. destruct Ke as [Ke|[Ke|Ke]].
        + apply (PC [e; c] (PieceType "INNER JOIN") toks); [reflexivity|apply read_inner; assumption|cbn in L; lia].
        + apply (PC [e; c] (PieceType "LEFT JOIN") toks); [reflexivity|apply read_left; assumption|cbn in L; lia].
        + apply (PC [e; c] (PieceType "RIGHT JOIN") toks); [reflexivity|apply read_right; assumption|cbn in L; lia].
      - apply not_type in Ec.
        assert (U : unexpected b (e :: c :: toks)).
        { apply unexpected_type; [exact Ke|]. intros ? ? K. injection K as <- <-. exact Ec. }
        rewrite (unexpected_run _ _ U). exact (UN _ U eq_refl). }
    destruct (is_type "Literal" e) eqn:E3.
    { apply type_of in E3. destruct toks as [|c toks].
      { assert (U : unexpected b [e]) by (apply unexpected_name; [exact E3|intros ? ? K; discriminate K]).
        rewrite (unexpected_run _ _ U). exact (UN _ U eq_refl). }
      destruct (is_type "ON" c) eqn:E4.
      { apply type_of in E4. apply (PC [e; c] (PieceTable (tk_value e)) toks);
          [reflexivity|apply read_table; assumption|cbn in L; lia]. }
      destruct (is_type "=" c) eqn:E5.
      - apply type_of in E5. destruct toks as [|r toks].
        { assert (U : broken b [e; c]) by (apply broken_equality; [exact E3|exact E5|intros ? ? K; discriminate K]).
          rewrite (broken_run _ _ U). exact (BR _ U eq_refl). }
        destruct (is_type "Literal" r) eqn:E6.
        + apply type_of in E6.
          apply (PC [e; c; r] (PieceCondition {| eq_left := tk_value e; eq_right := tk_value r |} []) toks);
            [reflexivity|apply read_condition; [assumption..|constructor]|cbn in L; lia].
        + apply not_type in E6.
          assert (U : broken b (e :: c :: r :: toks)).
          { apply broken_equality; [exact E3|exact E5|]. intros ? ? K. injection K as <- <-. exact E6. }
          rewrite (broken_run _ _ U). exact (BR _ U eq_refl).
      - apply not_type in E4. apply not_type in E5.
        assert (U : unexpected b (e :: c :: toks)).
        { apply unexpected_name; [exact E3|]. intros ? ? K. injection K as <- <-. split; assumption. }
        rewrite (unexpected_run _ _ U). exact (UN _ U eq_refl). }
    destruct (is_type "ON" e || is_type "(" e || is_type ")" e) eqn:E7.
    { apply (PC [e] PieceNothing toks); [reflexivity| |lia]. apply read_skip.
      rewrite !orb_true_iff in E7. destruct E7 as [[K|K]|K]; apply type_of in K; tauto. }
    assert (U : unexpected b (e :: toks)).
    { destruct (is_type "AND" e || is_type "OR" e) eqn:E8.
      - assert (K : link_kind e).
        { apply orb_true_iff in E8. destruct E8 as [K|K]; apply type_of in K; [left|right]; exact K. }
        apply unexpected_link; [exact K|]. destruct b; [exfalso; exact (NL eq_refl K)|reflexivity].
      - rewrite !orb_false_iff in *. rewrite !not_type in *. apply unexpected_other.
        + intros [K|K]; tauto.
        + assumption.
        + unfold kind in *. cbn [In]. intuition congruence. }
    rewrite (unexpected_run _ _ U). exact (UN _ U eq_refl).
Qed.

Lemma parse_join_run : forall s, parse_join s = parse_loop false (lex s) (join_said []).
Proof. reflexivity. Qed.

Lemma parse_outcome : forall s, outcome (lex s) (parse_join s).
Proof. intro s. rewrite parse_join_run. apply (loop_outcome _ (lex s) (le_n _) [] [] false). constructor. Qed.

Lemma outcome_unique : forall s r, outcome (lex s) r -> parse_join s = r.
Proof.
  intros s r H. rewrite parse_join_run.
  destruct H as [ts ps b tail E H U|ts ps b tail E H U|ts ps a l E H Ha Hl]; rewrite E, (pieces_run _ _ _ H).
  - apply unexpected_run, U.
  - apply broken_run, U.
  - cbn [parse_loop andb].
    assert (K : is_type "AND" a || is_type "OR" a = true).
    { destruct Ha as [K|K]; apply type_of in K; rewrite K; [reflexivity|apply orb_true_r]. }
    rewrite K, (proj2 (type_of "Literal" l) Hl). reflexivity.
Qed.
