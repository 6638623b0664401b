(* Lemmas for C70: more fuel reads the same, and no text is read as two kinds of statement. *)
From Verif Require Export Session.

Definition below_p {A} (p q : parser A) : Prop := forall ts x, p ts = Some x -> q ts = Some x.

Section Mono.
  Context (pq pq' : parser squery) (H : below_p pq pq').

  Lemma m_parens : forall A (p q : parser A), below_p p q -> below_p (p_parens p) (p_parens q).
  Proof.
    intros A p q P ts x E. unfold p_parens, andthen in *. destruct ts as [|[] r]; try discriminate.
    destruct (p r) as [[y r']|] eqn:Er; [|discriminate]. rewrite (P _ _ Er). exact E.
  Qed.
  Lemma m_clause : forall A (p q : parser A) kw none, below_p p q -> below_p (clause kw none p) (clause kw none q).
  Proof. intros A p q kw none P ts x E. unfold clause in *. destruct (strip kw ts); [apply P|]; exact E. Qed.
  Lemma m_optional : forall A (p q : parser A) kw, below_p p q -> below_p (optional kw p) (optional kw q).
  Proof.
    intros A p q kw P. apply m_clause. intros ts x E. cbv beta in *. unfold andthen in *. destruct (p ts) as [[y r]|] eqn:Er; [|discriminate]. rewrite (P _ _ Er). exact E.
  Qed.
  Lemma m_commas_fuel : forall A (p q : parser A) n, below_p p q -> below_p (commas_fuel n p) (commas_fuel n q).
  Proof.
    intros A p q n P. induction n as [|n IH]; intros ts x E; [discriminate|]. cbn [commas_fuel] in *. unfold andthen in *.
    destruct (p ts) as [[y r]|] eqn:Er; [|discriminate]. rewrite (P _ _ Er). destruct r as [|[] r]; try exact E.
    destruct (commas_fuel n p r) as [[ys r']|] eqn:Ec; [|discriminate]. rewrite (IH _ _ Ec). exact E.
  Qed.
  Lemma m_commas : forall A (p q : parser A), below_p p q -> below_p (p_commas p) (p_commas q).
  Proof. intros A p q P ts x E. exact (m_commas_fuel A p q (length ts) P ts x E). Qed.

  Lemma m_term : below_p (p_term pq) (p_term pq').
  Proof.
    intros ts x E. unfold p_term, andthen in *. destruct ts as [|[] r]; try exact E.
    destruct (p_parens pq (KOpen :: r)) as [[y r']|] eqn:Er; [|discriminate]. rewrite (m_parens _ _ _ H _ _ Er). exact E.
  Qed.
  Lemma m_scalar : forall ts, p_scalar pq ts = p_scalar pq' ts.
  Proof. intros [|[] r]; reflexivity. Qed.
  Lemma m_scalars_fuel : forall n ts, commas_fuel n (p_scalar pq) ts = commas_fuel n (p_scalar pq') ts.
  Proof.
    induction n as [|n IH]; intro ts; [reflexivity|]. cbn [commas_fuel]. unfold andthen. rewrite m_scalar. destruct (p_scalar pq' ts) as [[y r]|]; [|reflexivity].
    destruct r as [|[] r]; try reflexivity. rewrite IH. reflexivity.
  Qed.
  Lemma m_cmp : forall l op, below_p (p_cmp pq l op) (p_cmp pq' l op).
  Proof.
    intros l op ts x E. unfold p_cmp, andthen in *. destruct (p_term pq ts) as [[y r]|] eqn:Er; [|discriminate]. rewrite (m_term _ _ Er). exact E.
  Qed.
  Lemma m_in : forall neg l, below_p (p_in pq neg l) (p_in pq' neg l).
  Proof.
    intros neg l ts x E. unfold p_in, andthen in *. destruct ts as [|[] r]; try discriminate. unfold p_commas in *. rewrite <- m_scalars_fuel.
    assert (F : (read q r1 from p_parens pq (KOpen :: r); Some (FInSub neg l q, r1)) = Some x ->
                (read q r1 from p_parens pq' (KOpen :: r); Some (FInSub neg l q, r1)) = Some x).
    { intro F. destruct (p_parens pq (KOpen :: r)) as [[y r']|] eqn:Er; [|discriminate]. rewrite (m_parens _ _ _ H _ _ Er). exact F. }
    destruct (commas_fuel (length r) (p_scalar pq) r) as [[vs [|[] r1]]|]; try (apply F; exact E). exact E.
  Qed.
  Lemma m_between : forall neg l ts, p_between pq neg l ts = p_between pq' neg l ts.
  Proof.
    intros neg l ts. unfold p_between, andthen. rewrite m_scalar. destruct (p_scalar pq' ts) as [[y r]|]; [|reflexivity].
    destruct (strip ["AND"] r) as [r1|]; [|reflexivity]. rewrite m_scalar. reflexivity.
  Qed.
  Lemma m_rest : forall l, below_p (p_rest pq l) (p_rest pq' l).
  Proof.
    intros l ts x E. unfold p_rest, andthen in *.
    assert (F : match strip_any word_ops ts with
                | Some (kw, r) => p_cmp pq l (spaced kw) r
                | None => match strip_any [["NOT"; "IN"]; ["IN"]; ["NOT"; "BETWEEN"]; ["BETWEEN"]] ts with
                          | Some (["IN"], r) => p_in pq false l r
                          | Some (["NOT"; "IN"], r) => p_in pq true l r
                          | Some (["BETWEEN"], r) => p_between pq false l r
                          | Some (["NOT"; "BETWEEN"], r) => p_between pq true l r
                          | _ => None
                          end
                end = Some x ->
                match strip_any word_ops ts with
                | Some (kw, r) => p_cmp pq' l (spaced kw) r
                | None => match strip_any [["NOT"; "IN"]; ["IN"]; ["NOT"; "BETWEEN"]; ["BETWEEN"]] ts with
                          | Some (["IN"], r) => p_in pq' false l r
                          | Some (["NOT"; "IN"], r) => p_in pq' true l r
                          | Some (["BETWEEN"], r) => p_between pq' false l r
                          | Some (["NOT"; "BETWEEN"], r) => p_between pq' true l r
                          | _ => None
                          end
                end = Some x).
    { clear E. intro E. destruct (strip_any word_ops ts) as [[kw r]|]; [apply m_cmp; exact E|].
      cbn [strip_any] in *. destruct (strip ["NOT"; "IN"] ts); [apply m_in; exact E|]. destruct (strip ["IN"] ts); [apply m_in; exact E|].
      destruct (strip ["NOT"; "BETWEEN"] ts); [rewrite <- m_between; exact E|]. destruct (strip ["BETWEEN"] ts); [rewrite <- m_between; exact E|]. exact E. }
    destruct ts as [|[] r]; try (apply F; exact E). apply m_cmp; exact E.
  Qed.
  Lemma m_exists : forall neg, below_p (p_exists pq neg) (p_exists pq' neg).
  Proof.
    intros neg ts x E. unfold p_exists, andthen in *. destruct (p_parens pq ts) as [[y r]|] eqn:Er; [|discriminate]. rewrite (m_parens _ _ _ H _ _ Er). exact E.
  Qed.
  Lemma m_atom : below_p (Grammar.p_atom pq) (Grammar.p_atom pq').
  Proof.
    intros ts x E. unfold Grammar.p_atom, andthen in *. destruct (strip_any [["NOT"; "EXISTS"]; ["EXISTS"]] ts) as [[kw r]|]; [apply m_exists; exact E|].
    destruct (p_term pq ts) as [[y r]|] eqn:Er; [|discriminate]. rewrite (m_term _ _ Er). apply m_rest. exact E.
  Qed.
  Lemma formula_step : forall p n k ts, Grammar.p_formula p (S n) k ts =
    match k with
    | Prim => match ts with KOpen :: r => match Grammar.p_formula p n Loose r with Some (f, r1) => p_close f r1 | None => None end | _ => Grammar.p_atom p ts end
    | _ => match Grammar.p_formula p n (below k) ts with Some (f, r) => Grammar.p_links p n k f r | None => None end
    end.
  Proof. intros p n [] ts; reflexivity. Qed.
  Lemma links_step : forall p n k acc ts, Grammar.p_links p (S n) k acc ts =
    match strip [Grammar.link k] ts with
    | Some r => match Grammar.p_formula p n (below k) r with Some (f, r1) => Grammar.p_links p n k (joined k acc f) r1 | None => None end
    | None => Some (acc, ts)
    end.
  Proof. intros p n [] acc ts; reflexivity. Qed.
  Lemma m_formula : forall n, (forall k, below_p (Grammar.p_formula pq n k) (Grammar.p_formula pq' n k)) /\ (forall k acc, below_p (Grammar.p_links pq n k acc) (Grammar.p_links pq' n k acc)).
  Proof.
    induction n as [|n [IH1 IH2]]; [split; intros; intros ts x E; discriminate|]. split.
    - intros k ts x E. rewrite formula_step in *.
      assert (F : forall k', match Grammar.p_formula pq n k' ts with Some (f, r) => Grammar.p_links pq n k f r | None => None end = Some x ->
                             match Grammar.p_formula pq' n k' ts with Some (f, r) => Grammar.p_links pq' n k f r | None => None end = Some x).
      { intros k' F. destruct (Grammar.p_formula pq n k' ts) as [[f r]|] eqn:Er; [|discriminate]. rewrite (IH1 _ _ _ Er). apply IH2. exact F. }
      destruct k; try (apply F; exact E). destruct ts as [|[] r]; try (apply m_atom; exact E).
      destruct (Grammar.p_formula pq n Loose r) as [[f r']|] eqn:Er; [|discriminate]. rewrite (IH1 _ _ _ Er). exact E.
    - intros k acc ts x E. rewrite links_step in *. destruct (strip [Grammar.link k] ts) as [r|]; [|exact E].
      destruct (Grammar.p_formula pq n (below k) r) as [[f r']|] eqn:Er; [|discriminate]. rewrite (IH1 _ _ _ Er). apply IH2. exact E.
  Qed.
  Lemma m_cond : below_p (Grammar.p_cond pq) (Grammar.p_cond pq').
  Proof. intros ts x E. exact (proj1 (m_formula _) _ _ _ E). Qed.
  Lemma m_with : below_p (p_with pq) (p_with pq').
  Proof.
    intros ts x E. unfold p_with, andthen in *. destruct (p_word ts) as [[y r]|]; [|discriminate]. destruct (strip ["AS"] r) as [r1|]; [|discriminate].
    destruct (p_parens pq r1) as [[q r']|] eqn:Er; [|discriminate]. rewrite (m_parens _ _ _ H _ _ Er). exact E.
  Qed.
  Lemma m_item : below_p (p_item pq) (p_item pq').
  Proof.
    intros ts x E. unfold p_item, andthen in *. cbn [strip_any] in *.
    destruct ts as [|[] r]; try exact E;
      (destruct (strip ["NOT"; "EXISTS"] _) as [r0|];
       [destruct (p_parens pq r0) as [[q r']|] eqn:Er; [|discriminate]; rewrite (m_parens _ _ _ H _ _ Er); exact E|];
       destruct (strip ["EXISTS"] _) as [r0|];
       [destruct (p_parens pq r0) as [[q r']|] eqn:Er; [|discriminate]; rewrite (m_parens _ _ _ H _ _ Er); exact E|]; exact E).
  Qed.
  Lemma m_joins_fuel : forall n, below_p (joins_fuel pq n) (joins_fuel pq' n).
  Proof.
    induction n as [|n IH]; intros ts x E; cbn [joins_fuel] in *; unfold andthen in *; (destruct (strip_any join_types ts) as [[kw r]|]; [|exact E]); [discriminate|].
    destruct (p_table r) as [[t r1]|]; [|discriminate]. destruct (strip ["ON"] r1) as [r2|]; [|discriminate].
    destruct (Grammar.p_cond pq r2) as [[f r3]|] eqn:Ec; [|discriminate]. rewrite (m_cond _ _ Ec).
    destruct (joins_fuel pq n r3) as [[l r4]|] eqn:Ej; [|discriminate]. rewrite (IH _ _ Ej). exact E.
  Qed.
  Lemma m_joins : below_p (p_joins pq) (p_joins pq').
  Proof. intros ts x E. exact (m_joins_fuel _ _ _ E). Qed.

  Ltac step E L := match type of E with
    | match ?p ?ts with Some _ => _ | None => None end = _ =>
      let Er := fresh "Er" in destruct (p ts) as [[? ?]|] eqn:Er; [|discriminate]; first [rewrite (L _ _ Er)|rewrite Er|idtac]; clear Er
    end.
  Lemma m_body : below_p (p_body pq) (p_body pq').
  Proof.
    intros ts x E. unfold p_body, andthen in *. destruct (p_words ["WITH"; "SELECT"] ts) as [prefix ts0].
    step E (m_clause _ _ _ ["WITH"] [] (m_commas _ _ _ m_with)). destruct (strip ["SELECT"] l0) as [ts1|]; [|discriminate].
    destruct (clause ["DISTINCT"; "ON"] [] (p_parens (p_commas p_name)) ts1) as [[on ts2]|]; [|discriminate].
    destruct (flag ["DISTINCT"] ts2) as [[di ts3]|]; [|discriminate].
    step E (m_commas _ _ _ m_item). destruct (clause ["FROM"] [] (p_commas p_table) l2) as [[fr ts4]|]; [|discriminate].
    step E m_joins. step E (m_optional _ _ _ ["WHERE"] m_cond).
    destruct (clause ["GROUP"; "BY"] [] (p_commas p_name) _) as [[gr ts5]|]; [|discriminate].
    step E (m_optional _ _ _ ["HAVING"] m_cond). exact E.
  Qed.
End Mono.

Lemma m_query : forall n, below_p (p_query n) (p_query (S n)).
Proof.
  induction n as [|n IH]; intros ts x E; [discriminate|]. cbn [p_query] in E. unfold andthen in *.
  destruct (p_body (p_query n) ts) as [[b r]|] eqn:Eb; [|discriminate].
  change (p_query (S (S n)) ts) with (read b r from p_body (p_query (S n)) ts; Some (Query b, r)).
  rewrite (m_body _ _ IH _ _ Eb). exact E.
Qed.

(* ------------------------------------------------------------------------- *)
(* One kind                                                                    *)
(* ------------------------------------------------------------------------- *)

Lemma strip_shape : forall kw ts r, strip kw ts = Some r -> ts = (map KWord kw ++ r)%list.
Proof.
  induction kw as [|x kw IH]; intros ts r E; cbn [strip] in E; [injection E as ->; reflexivity|]. destruct ts as [|[] ts]; try discriminate.
  destruct (String.eqb x s) eqn:Ex; [|discriminate]. apply String.eqb_eq in Ex as <-. cbn [map app]. rewrite <- (IH _ _ E). reflexivity.
Qed.
Lemma table_shape : forall ts x, p_table ts = Some x -> exists n r, ts = KName n :: r \/ ts = KWord "ONLY" :: KName n :: r.
Proof.
  intros ts x E. unfold p_table, andthen in E. unfold flag, clause in E. destruct (strip ["ONLY"] ts) as [r|] eqn:Es.
  - apply strip_shape in Es as ->. unfold p_name in E. destruct r as [|[] r]; try discriminate. eexists _, r. right. reflexivity.
  - unfold p_name in E. destruct ts as [|[] r]; try discriminate. eexists _, r. left. reflexivity.
Qed.
Lemma keyword_shape : forall A kw (p : parser A) ts x, p_keyword kw p ts = Some x -> exists r, ts = (map KWord kw ++ r)%list /\ p r = Some x.
Proof.
  intros A kw p ts x E. unfold p_keyword in E. destruct (strip kw ts) as [r|] eqn:Es; [|discriminate].
  exists r. split; [exact (strip_shape _ _ _ Es)|exact E].
Qed.

Definition insert_front (ts : list lexeme) : Prop := exists n r, ts = KWord "INSERT" :: KWord "INTO" :: KName n :: r \/ ts = KWord "INSERT" :: KWord "INTO" :: KWord "ONLY" :: KName n :: r.
Definition delete_front (ts : list lexeme) : Prop := exists n r, ts = KWord "DELETE" :: KWord "FROM" :: KName n :: r \/ ts = KWord "DELETE" :: KWord "FROM" :: KWord "ONLY" :: KName n :: r.
Definition update_front (ts : list lexeme) : Prop := exists n r, ts = KWord "UPDATE" :: KName n :: r \/ ts = KWord "UPDATE" :: KWord "ONLY" :: KName n :: r.

Lemma insert_shape : forall pq ts x, p_insert pq ts = Some x -> insert_front ts.
Proof.
  intros pq ts x E. apply keyword_shape in E as (r & -> & E). destruct (p_table r) as [t|] eqn:Et; [|discriminate].
  destruct (table_shape _ _ Et) as (n & r' & [->| ->]); exists n, r'; [left|right]; reflexivity.
Qed.
Lemma delete_shape : forall pq ts x, p_delete pq ts = Some x -> delete_front ts.
Proof.
  intros pq ts x E. apply keyword_shape in E as (r & -> & E). destruct (p_commas p_table r) as [t|] eqn:Et; [|discriminate].
  unfold p_commas in Et. destruct (length r) as [|m]; [discriminate|]. cbn [commas_fuel] in Et.
  destruct (p_table r) as [t'|] eqn:Et'; [|discriminate].
  destruct (table_shape _ _ Et') as (n & r' & [->| ->]); exists n, r'; [left|right]; reflexivity.
Qed.
Lemma update_shape : forall pq ts x, p_update pq ts = Some x ->
  update_front ts \/ exists r wi r', ts = KWord "WITH" :: r /\ p_commas (p_with pq) r = Some (wi, r') /\ update_front r'.
Proof.
  intros pq ts x E. unfold p_update, andthen in E. unfold clause at 1 in E. destruct (strip ["WITH"] ts) as [r|] eqn:Es.
  - apply strip_shape in Es as ->. destruct (p_commas (p_with pq) r) as [[wi r']|] eqn:Ew; [|discriminate].
    apply keyword_shape in E as (r0 & -> & E). destruct (p_table r0) as [t|] eqn:Et; [|discriminate].
    right. exists r, wi, (map KWord ["UPDATE"] ++ r0)%list. split; [reflexivity|]. split; [exact Ew|].
    destruct (table_shape _ _ Et) as (n & r' & [->| ->]); exists n, r'; [left|right]; reflexivity.
  - apply keyword_shape in E as (r0 & -> & E). destruct (p_table r0) as [t|] eqn:Et; [|discriminate]. left.
    destruct (table_shape _ _ Et) as (n & r' & [->| ->]); exists n, r'; [left|right]; reflexivity.
Qed.

Lemma no_select : forall n ts x, p_query n ts = Some x -> ~ insert_front ts /\ ~ delete_front ts /\ ~ update_front ts.
Proof.
  intros [|n] ts x E; [discriminate|]. cbn [p_query] in E. unfold andthen in *. destruct (p_body (p_query n) ts) as [[b r]|] eqn:Eb; [|discriminate].
  split; [|split]; intros (y & r' & [->| ->]); discriminate Eb.
Qed.
Lemma select_with : forall n r x, p_query (S n) (KWord "WITH" :: r) = Some x ->
  exists wi r', p_commas (p_with (p_query n)) r = Some (wi, r') /\ exists r'', r' = KWord "SELECT" :: r''.
Proof.
  intros n r x E. cbn [p_query] in E. unfold andthen in *. destruct (p_body (p_query n) (KWord "WITH" :: r)) as [[b r0]|] eqn:Eb; [|discriminate].
  unfold p_body, andthen in Eb. change (p_words ["WITH"; "SELECT"] (KWord "WITH" :: r)) with (@nil string, KWord "WITH" :: r) in Eb. cbv beta iota in Eb.
  change (clause ["WITH"] [] (p_commas (p_with (p_query n))) (KWord "WITH" :: r)) with (p_commas (p_with (p_query n)) r) in Eb.
  destruct (p_commas (p_with (p_query n)) r) as [[wi r']|]; [|discriminate]. exists wi, r'. split; [reflexivity|].
  destruct (strip ["SELECT"] r') as [r''|] eqn:Es; [|discriminate]. exists r''. exact (strip_shape _ _ _ Es).
Qed.

Lemma select_or_update : forall ts n x y, length ts = n -> p_query n ts = Some x -> p_update (p_query n) ts = Some y -> False.
Proof.
  intros ts n x y L Q U. destruct (update_shape _ _ _ U) as [F|(r & wi & r' & -> & W & F)].
  - exact (proj2 (proj2 (no_select _ _ _ Q)) F).
  - destruct n as [|n]; [discriminate|]. destruct (select_with n r x Q) as (wi0 & r0 & W0 & (r1 & ->)).
    rewrite (m_commas _ _ _ (m_with _ _ (m_query n)) _ _ W0) in W. injection W as <- <-.
    destruct F as (z & r2 & [F|F]); discriminate F.
Qed.

Lemma whole_some : forall A (p : parser A) E text x, whole p E text = Some x -> exists ts r, tokens E text = Some ts /\ p ts = Some (x, r).
Proof.
  intros A p E text x H. unfold whole in H. destruct (tokens E text) as [ts|]; [|discriminate]. destruct (p ts) as [[y r]|] eqn:Ep; [|discriminate].
  destruct (at_end r); [|discriminate]. injection H as ->. exists ts, r. split; [reflexivity|exact Ep].
Qed.
