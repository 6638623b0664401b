(* A builder that is described with literals is also described with arguments, by the same
   statement up to the literals. *)
From Verif Require Export Literal.
From Verif Require Import AddRowsP.

Lemma Forall2_app_both {A B} (R : A -> B -> Prop) : forall l l' k k', Forall2 R l l' -> Forall2 R k k' ->
  Forall2 R (l ++ k)%list (l' ++ k')%list.
Proof. intros l l' k k' H K. apply Forall2_app; assumption. Qed.

Section Link.
  Context {O : Oracle} (e : bool).
  Notation Q := (query_rel e).
  Notation TR := (term_rel e Q).
  Notation FR := (formula_rel e Q).
  Notation BR := (body_rel e Q).

  Lemma shown_link : forall v a, shown (m := Inline e) v = Some a -> exists a', shown (m := Bound) v = Some a' /\ TR a' a.
  Proof.
    intros v a H. unfold shown in *.
    destruct v; try (eexists; split; [reflexivity|]; constructor; exact H).
    cbn in H. injection H as <-. eexists. split; [reflexivity|constructor].
  Qed.
  Lemma bound_link : forall v a, bound_as (m := Inline e) v = Some a -> exists a', bound_as (m := Bound) v = Some a' /\ TR a' a.
  Proof. intros v a H. unfold bound_as in *. destruct (stands_for v); [|discriminate]. apply shown_link, H. Qed.
  Lemma value_link : forall v a, value_says (m := Inline e) v a -> exists a', value_says (m := Bound) v a' /\ TR a' a.
  Proof.
    intros v a [v' a' H|s f ts H|s H|c t H].
    - destruct (bound_link _ _ H) as (b & B & R). exists b. split; [apply value_bound, B|exact R].
    - exists (MCall f ts). split; [apply value_raw, H|constructor].
    - exists (MName (dotted s)). split; [apply value_column, H|constructor].
    - exists t. split; [apply value_call, H|destruct H; constructor].
  Qed.
  Lemma each_link {A B C} (P : A -> C -> Prop) (S : A -> B -> Prop) (R : B -> C -> Prop) :
    (forall a c, P a c -> exists b, S a b /\ R b c) ->
    forall l k, Forall2 P l k -> exists h, Forall2 S l h /\ Forall2 R h k.
  Proof.
    intro H. induction 1 as [|a c l k Hac F (h & Sh & Rh)]; [exists []; split; constructor|].
    destruct (H a c Hac) as (b & Sb & Rb). exists (b :: h). split; constructor; assumption.
  Qed.

  Lemma on_rel : forall c f, on_says c f -> FR f f.
  Proof. induction 1; repeat constructor; assumption. Qed.
  Lemma chain_rel : forall rest f, FR f f ->
    FR (fold_left (fun f oe => match fst oe with
                           | JoinSpec.AndC => FAnd f (equality_formula (snd oe))
                           | JoinSpec.OrC => FOr f (equality_formula (snd oe))
                           end) rest f)
       (fold_left (fun f oe => match fst oe with
                           | JoinSpec.AndC => FAnd f (equality_formula (snd oe))
                           | JoinSpec.OrC => FOr f (equality_formula (snd oe))
                           end) rest f).
  Proof.
    induction rest as [|[c q] rest IH]; intros f H; [exact H|]. cbn [fold_left fst snd]. apply IH.
    destruct c; constructor; try exact H; repeat constructor.
  Qed.

  Lemma body_refl_empty : BR empty_body empty_body.
  Proof. repeat constructor. Qed.
  Lemma rel_finished : forall s b b', BR b' b -> finished s b -> finished s b'.
  Proof.
    intros s b b' H [N C]. split; [|exact C]. destruct H as [? ? ? ? ? i i' ? ? ? ? ? ? ? ? ? ? ? ? _ I _ _ _].
    cbn in *. destruct I; [exact N|discriminate].
  Qed.
  Lemma rel_where_some : forall b b' f, BR b' b -> q_where b = Some f -> exists f', q_where b' = Some f' /\ FR f' f.
  Proof.
    intros b b' f H W. destruct H as [? ? ? ? ? ? ? ? ? ? wh wh' ? ? ? ? ? ? ? _ _ _ C _]. cbn in *. subst.
    inversion C; subst. eexists. split; [reflexivity|assumption].
  Qed.

  Ltac body H := destruct H; constructor; cbn [q_with q_joins q_order_by q_where]; try assumption.

  Lemma items_names {A} (h : A -> name) : forall l : list A,
    Forall2 (item_rel Q) (map (fun i => ItName (h i) []) l) (map (fun i => ItName (h i) []) l).
  Proof. induction l; constructor; [constructor|assumption]. Qed.
  Lemma column_items : forall cs l, Forall2 column_item_says cs l -> Forall2 (item_rel Q) l l.
  Proof. induction 1 as [|c i cs l (n & a & _ & ->)]; constructor; [constructor|assumption]. Qed.
  Lemma expr_items : forall cs l, Forall2 expr_item_says cs l -> Forall2 (item_rel Q) l l.
  Proof.
    induction 1 as [|c i cs l H]; constructor; [|assumption].
    destruct H as [(? & _ & ? & ? & _ & ->)|(? & ? & ? & ? & _ & ->)]; constructor.
  Qed.

  Ltac sub_ih := match goal with
    | H : exists _, _ |- _ => destruct H as (? & ? & ?)
    end.

  Lemma call_rel : forall c t, call_says c t -> TR t t.
  Proof. intros c t []. constructor. Qed.

  Lemma link :
    (forall x f, says (m := Inline e) x f -> exists f', says (m := Bound) x f' /\ FR f' f)
    /\ (forall o v a, operand_says (m := Inline e) o v a -> exists a', operand_says (m := Bound) o v a' /\ TR a' a)
    /\ (forall l i, items_say (m := Inline e) l i -> exists i', items_say (m := Bound) l i' /\ Forall2 (item_rel Q) i' i)
    /\ (forall l i, args_say (m := Inline e) l i -> exists i', args_say (m := Bound) l i' /\ Forall2 (item_rel Q) i' i)
    /\ (forall l w, withs_say (m := Inline e) l w -> exists w', withs_say (m := Bound) l w' /\ Forall2 (with_rel Q) w' w)
    /\ (forall s b, sel_says (m := Inline e) s b -> exists b', sel_says (m := Bound) s b' /\ BR b' b).
  Proof.
    apply says_mutind.
    - intros x o v a e0 N _ (a' & A & R) E. eexists. split; [eapply says_cmp; eassumption|repeat constructor; assumption].
    - intros x v e0 N E. eexists. split; [eapply says_is_null; eassumption|repeat constructor].
    - intros u a0 o v a e0 U _ (a' & A & R) E. destruct (shown_link _ _ U) as (u' & U' & RU).
      eexists. split; [eapply says_value; eassumption|constructor; assumption].
    - intros x vs l e0 N N1 N2 P F E. destruct (each_link _ _ _ shown_link _ _ F) as (h & H1 & H2).
      eexists. split; [eapply says_in; eassumption|constructor; [constructor|exact H2]].
    - intros x vs l e0 N N1 N2 P F E. destruct (each_link _ _ _ shown_link _ _ F) as (h & H1 & H2).
      eexists. split; [eapply says_not_in; eassumption|constructor; [constructor|exact H2]].
    - intros x g s b e0 N S _ (b' & B & R) Fi E. eexists. split; [eapply says_in_sub; try eassumption; eapply rel_finished; eassumption|].
      constructor; [constructor|constructor; exact R].
    - intros x g s b e0 N S _ (b' & B & R) Fi E. eexists. split; [eapply says_not_in_sub; try eassumption; eapply rel_finished; eassumption|].
      constructor; [constructor|constructor; exact R].
    - intros x u v a b e0 N U V E. destruct (value_link _ _ U) as (u' & U' & RU). destruct (value_link _ _ V) as (v' & V' & RV).
      eexists. split; [eapply says_between; [exact N|exact U'|exact V'|exact E]|constructor; [constructor|assumption|assumption]].
    - intros x u v a b e0 N U V E. destruct (value_link _ _ U) as (u' & U' & RU). destruct (value_link _ _ V) as (v' & V' & RV).
      eexists. split; [eapply says_not_between; [exact N|exact U'|exact V'|exact E]|constructor; [constructor|assumption|assumption]].
    - intros g s b e0 S _ (b' & B & R) Fi E. eexists. split; [eapply says_exists; try eassumption; eapply rel_finished; eassumption|].
      constructor. constructor. exact R.
    - intros g s b e0 S _ (b' & B & R) Fi E. eexists. split; [eapply says_not_exists; try eassumption; eapply rel_finished; eassumption|].
      constructor. constructor. exact R.
    - intros l r f g _ (f' & F & RF) _ (g' & G & RG). eexists. split; [apply says_and; eassumption|constructor; assumption].
    - intros l r f g _ (f' & F & RF) _ (g' & G & RG). eexists. split; [apply says_or; eassumption|constructor; assumption].
    - intros l r f g _ (f' & F & RF) _ (g' & G & RG). eexists. split; [apply says_infix_and; eassumption|constructor; assumption].
    - intros l r f g _ (f' & F & RF) _ (g' & G & RG). eexists. split; [apply says_infix_or; eassumption|constructor; assumption].
    - intros c f C. exists f. split; [apply says_on, C|exact (on_rel _ _ C)].
    - intros c t o v a e0 C M _ (a' & A & R) E. eexists. split; [eapply says_call; eassumption|constructor; [apply call_rel with (1 := C)|exact R]].
    - intros c t vs l e0 C N1 N2 P F E. destruct (each_link _ _ _ shown_link _ _ F) as (h & H1 & H2).
      eexists. split; [eapply says_call_in; eassumption|constructor; [apply call_rel with (1 := C)|exact H2]].
    - intros c t g s b e0 C S _ (b' & B & R) Fi E. eexists. split; [eapply says_call_in_sub; try eassumption; eapply rel_finished; eassumption|].
      constructor; [apply call_rel with (1 := C)|constructor; exact R].
    - intros o v a V. destruct (value_link _ _ V) as (v' & V' & RV). eexists. split; [apply operand_value; eassumption|exact RV].
    - intros o x P. eexists. split; [apply operand_column, P|constructor].
    - intros o g s b T S _ (b' & B & R) Fi. eexists. split; [eapply operand_sub; try eassumption; eapply rel_finished; eassumption|].
      constructor. constructor. exact R.
    - exists []. split; constructor.
    - intros x items rest l C F _ (l' & L & R). eexists. split; [eapply items_string; eassumption|].
      apply Forall2_app_both; [apply (items_names (fun i => parts_of (trim_space i)))|exact R].
    - intros c n a rest l C _ (l' & L & R). eexists. split; [eapply items_column; eassumption|].
      constructor; [constructor|exact R].
    - intros x f d y a rest l A _ (l' & L & R). eexists. split; [eapply items_agg; eassumption|].
      constructor; [constructor|exact R].
    - intros x f d y a rest l A _ (l' & L & R). eexists. split; [eapply items_raw; eassumption|].
      constructor; [constructor|exact R].
    - intros g s b e0 rest l S _ (b' & B & R) Fi E _ (l' & L & RL). eexists.
      split; [eapply items_exists; try eassumption; eapply rel_finished; eassumption|].
      constructor; [constructor; constructor; exact R|exact RL].
    - intros g s b e0 rest l S _ (b' & B & R) Fi E _ (l' & L & RL). eexists.
      split; [eapply items_not_exists; try eassumption; eapply rel_finished; eassumption|].
      constructor; [constructor; constructor; exact R|exact RL].
    - intros args l _ (l' & L & R). exists l'. split; [apply args_items, L|exact R].
    - intros cs l F. exists l. split; [apply args_columns, F|exact (column_items _ _ F)].
    - intros xs P. eexists. split; [apply args_strings, P|]. apply items_names.
    - intros es l F. exists l. split; [apply args_exprs, F|exact (expr_items _ _ F)].
    - exists []. split; constructor.
    - intros x g s b w rest l N S _ (b' & B & R) Fi E _ (l' & L & RL). eexists.
      split; [eapply withs_some; try eassumption; eapply rel_finished; eassumption|].
      constructor; [constructor; constructor; exact R|exact RL].
    - exists empty_body. split; [constructor|apply body_refl_empty].
    - intros s b args l s' _ (b' & B & R) N _ (l' & L & RL) E. eexists. split; [eapply sel_columns; eassumption|]. body R.
    - intros s b s' _ (b' & B & R) E. eexists. split; [eapply sel_distinct; eassumption|]. body R.
    - intros s b args ns s' _ (b' & B & R) C E. eexists. split; [eapply sel_distinct_on; eassumption|]. body R.
    - intros s b args ts s' _ (b' & B & R) T E. eexists. split; [eapply sel_from; eassumption|]. body R.
    - intros s b g t c f s' _ (b' & B & R) T C E. eexists. split; [eapply sel_join_on; eassumption|]. body R.
      apply Forall2_app_both; [assumption|]. constructor; [constructor; exact (on_rel _ _ C)|constructor].
    - intros s b g t c f kw s' _ (b' & B & R) T C K E. eexists. split; [eapply sel_join_type; eassumption|]. body R.
      apply Forall2_app_both; [assumption|]. constructor; [constructor; exact (on_rel _ _ C)|constructor].
    - intros s b ls txt kw t e0 rest s' _ (b' & B & R) K W L N P E. eexists. split; [eapply sel_join_text; eassumption|]. body R.
      apply Forall2_app_both; [assumption|]. constructor; [constructor|constructor]. apply chain_rel. repeat constructor.
    - intros s b ws l s' _ (b' & B & R) _ (l' & L & RL) E. eexists. split; [eapply sel_with; eassumption|]. body R.
      apply Forall2_app_both; assumption.
    - intros s b e0 f s' _ (b' & B & R) _ (f' & F & RF) E. eexists. split; [eapply sel_where; eassumption|]. body R.
      match goal with H : condition_rel _ _ wh wh' |- _ => destruct H end; constructor; try assumption; constructor; assumption.
    - intros s b e0 f h s' _ (b' & B & R) _ (f' & F & RF) W E. destruct (rel_where_some _ _ _ R W) as (h' & W' & RW).
      eexists. split; [eapply sel_and; eassumption|]. body R. constructor. constructor; assumption.
    - intros s b e0 f h s' _ (b' & B & R) _ (f' & F & RF) W E. destruct (rel_where_some _ _ _ R W) as (h' & W' & RW).
      eexists. split; [eapply sel_or; eassumption|]. body R. constructor. constructor; assumption.
    - intros s b args ns s' _ (b' & B & R) C E. eexists. split; [eapply sel_group_by; eassumption|]. body R.
    - intros s b e0 f s' _ (b' & B & R) _ (f' & F & RF) E. eexists. split; [eapply sel_having; eassumption|]. body R.
      constructor; assumption.
    - intros s b os l s' _ (b' & B & R) F E. eexists. split; [eapply sel_order_by; eassumption|]. body R.
    - intros s b g z s' _ (b' & B & R) T N I E. eexists. split; [eapply sel_limit; eassumption|]. body R.
    - intros s b g z s' _ (b' & B & R) T N I E. eexists. split; [eapply sel_offset; eassumption|]. body R.
    - intros s b ws s' _ (b' & B & R) F N E. eexists. split; [eapply sel_suffix; eassumption|]. body R.
    - intros s b ws s' _ (b' & B & R) F N E. eexists. split; [eapply sel_prefix; eassumption|]. body R.
    - intros s b c s' _ (b' & B & R) N E. exists b'. split; [eapply sel_comment; eassumption|exact R].
  Qed.

  (* ----------------------------------------------------------------------- *)
  (* INSERT, UPDATE, DELETE                                                    *)
  (* ----------------------------------------------------------------------- *)

  Notation AR := (assign_rel e Q).
  Notation IR := (item_rel Q).

  Lemma says_link : forall x f, says (m := Inline e) x f -> exists f', says (m := Bound) x f' /\ FR f' f.
  Proof. apply link. Qed.
  Lemma args_link : forall l i, args_say (m := Inline e) l i -> exists i', args_say (m := Bound) l i' /\ Forall2 IR i' i.
  Proof. apply link. Qed.
  Lemma withs_link : forall l w, withs_say (m := Inline e) l w -> exists w', withs_say (m := Bound) l w' /\ Forall2 (with_rel Q) w' w.
  Proof. apply link. Qed.
  Lemma sel_link : forall s b, sel_says (m := Inline e) s b -> exists b', sel_says (m := Bound) s b' /\ BR b' b.
  Proof. apply link. Qed.

  Lemma source_link : forall v a, source_says (m := Inline e) v a -> exists a', source_says (m := Bound) v a' /\ TR a' a.
  Proof.
    intros v a [v' a' H|x H|g s b S B F].
    - destruct (value_link _ _ H) as (b & V & R). exists b. split; [apply source_value, V|exact R].
    - eexists. split; [apply source_column, H|constructor].
    - destruct (sel_link _ _ B) as (b' & B' & R). exists (MSub (Query b')). split.
      + apply (source_sub g s b' S B'). exact (rel_finished _ _ _ R F).
      + constructor. constructor. exact R.
  Qed.
  Lemma entry_link : forall kv na, entry_says (m := Inline e) kv na -> exists na', entry_says (m := Bound) kv na' /\ AR na' na.
  Proof.
    intros [k v] [n a] [K V]. cbn [fst snd] in *. destruct (source_link _ _ V) as (a' & V' & R).
    exists (n, a'). split; [split; assumption|constructor; exact R].
  Qed.
  Lemma pairs_link : forall args l, pairs_say (m := Inline e) args l -> exists l', pairs_say (m := Bound) args l' /\ Forall2 AR l' l.
  Proof.
    induction 1 as [|k v na rest l E _ (l' & L & R)|kvs nas rest l E _ (l' & L & R)|kvs nas rest l E _ (l' & L & R)].
    - exists []. split; constructor.
    - destruct (entry_link _ _ E) as (na' & E' & RE). exists (na' :: l'). split; constructor; assumption.
    - destruct (each_link _ _ _ entry_link _ _ E) as (h & E' & RE). exists (h ++ l')%list.
      split; [constructor; assumption|apply Forall2_app_both; assumption].
    - destruct (each_link _ _ _ entry_link _ _ E) as (h & E' & RE). exists (h ++ l')%list.
      split; [constructor; assumption|apply Forall2_app_both; assumption].
  Qed.
  Lemma assign_link : forall n a a' l l', TR a' a -> Forall2 AR l' l -> Forall2 AR (assign n a' l') (assign n a l).
  Proof.
    intros n a a' l l' Ha H. induction H as [|x y l' l Hxy F IH]; [repeat constructor; exact Ha|].
    destruct Hxy as [n' b' b Hb]. cbn [assign]. destruct (String.eqb _ _); [constructor; [constructor; exact Ha|exact F]|].
    destruct (str_ltb _ _).
    - constructor; [constructor; exact Ha|]. constructor; [constructor; exact Hb|exact F].
    - constructor; [constructor; exact Hb|exact IH].
  Qed.
  Lemma assign_all_link : forall l l', Forall2 AR l' l -> forall k k', Forall2 AR k' k ->
    Forall2 AR (assign_all k' l') (assign_all k l).
  Proof.
    induction 1 as [|x y l' l Hxy F IH]; intros k k' K; [exact K|]. destruct Hxy as [n b' b Hb].
    cbn [assign_all fold_left fst snd]. apply IH. apply assign_link; assumption.
  Qed.
  Lemma rel_nonempty {A B} (R : A -> B -> Prop) : forall l l', Forall2 R l' l -> l <> [] -> l' <> [].
  Proof. intros l l' [|] N; [contradiction N; reflexivity|discriminate]. Qed.

  Lemma del_link : forall d b, del_says (m := Inline e) d b ->
    exists b', del_says (m := Bound) d b' /\ dbody_rel e Q b' b.
  Proof.
    induction 1 as [g t d T E|d b args ts d' _ (b' & B & R) T E|d b x f d' _ (b' & B & R) F E|d b x f h d' _ (b' & B & R) F W E
                   |d b x f h d' _ (b' & B & R) F W E|d b args l d' _ (b' & B & R) A E|d b c d' _ (b' & B & R) C E].
    - eexists. split; [eapply del_new; eassumption|repeat constructor].
    - eexists. split; [eapply del_using; eassumption|]. destruct R. constructor; assumption.
    - destruct (says_link _ _ F) as (f' & F' & RF). eexists. split; [eapply del_where; eassumption|]. destruct R as [? ? ? ? ? ? W ?].
      constructor; [|assumption]. cbn. destruct W; repeat (constructor; try assumption).
    - destruct (says_link _ _ F) as (f' & F' & RF). destruct R as [? ? ? ? ? ? W' ?]. cbn in W. subst. inversion W' as [|h' ? RH]; subst.
      eexists. split; [eapply del_and; [eassumption|exact F'|reflexivity|eassumption]|].
      constructor; [|assumption]. repeat (constructor; try assumption).
    - destruct (says_link _ _ F) as (f' & F' & RF). destruct R as [? ? ? ? ? ? W' ?]. cbn in W. subst. inversion W' as [|h' ? RH]; subst.
      eexists. split; [eapply del_or; [eassumption|exact F'|reflexivity|eassumption]|].
      constructor; [|assumption]. repeat (constructor; try assumption).
    - destruct (args_link _ _ A) as (l' & L & RL). eexists. split; [eapply del_returning; eassumption|]. destruct R. constructor; assumption.
    - exists b'. split; [eapply del_comment; eassumption|exact R].
  Qed.

  Lemma upd_link : forall u b, upd_says (m := Inline e) u b ->
    exists b', upd_says (m := Bound) u b' /\ ubody_rel e Q b' b.
  Proof.
    induction 1 as [g t u T E|u b u' _ (b' & B & R) T E|u b args k l u' _ (b' & B & R) S P E|u b args ns u' _ (b' & B & R) S C E
      |u b args cols s ns u' _ (b' & B & R) S C E|u b args cols vs l u' _ (b' & B & R) S V E|u b g s q cols u' _ (b' & B & R) S A H F E
      |u b ws l u' _ (b' & B & R) W E|u b x f u' _ (b' & B & R) F E|u b x f h u' _ (b' & B & R) F W E|u b x f h u' _ (b' & B & R) F W E
      |u b g t u' _ (b' & B & R) T E|u b args l u' _ (b' & B & R) A E|u b c u' _ (b' & B & R) C E].
    - eexists. split; [eapply upd_new; eassumption|repeat constructor].
    - destruct R. eexists. split; [eapply upd_only; [eassumption|exact T|eassumption]|]. constructor; assumption.
    - destruct (pairs_link _ _ P) as (l' & P' & RP). destruct R as [? ? ? ? ? ? ? ? ? ? ? RS ? ?]. cbn in S. subst. inversion RS; subst.
      eexists. split; [eapply upd_set; [eassumption|reflexivity|exact P'|eassumption]|].
      constructor; try assumption. constructor. apply assign_all_link; assumption.
    - destruct R as [? ? ? ? ? ? ? ? ? ? ? RS ? ?]. cbn in S. subst. inversion RS as [l0 l1 RL| |]; subst. inversion RL; subst.
      eexists. split; [eapply upd_columns; [eassumption|reflexivity|exact C|eassumption]|].
      constructor; try assumption. repeat constructor.
    - destruct R as [? ? ? ? ? ? ? ? ? ? ? RS ? ?]. cbn in S. subst. inversion RS as [|? ? ? RL|? ? ? RL]; subst.
      + eexists. split; [eapply upd_more_columns; [eassumption|reflexivity|exact C|eassumption]|].
        constructor; try assumption. constructor; assumption.
      + eexists. split; [eapply upd_more_columns; [eassumption|reflexivity|exact C|eassumption]|].
        constructor; try assumption. constructor; assumption.
    - destruct R as [? ? ? ? ? ? ? ? ? ? ? RS ? ?]. cbn in S. subst. inversion RS as [|? ? ? RL|]; subst.
      destruct (each_link _ _ _ value_link _ _ V) as (k & K & RK).
      eexists. split; [eapply upd_using; [eassumption|reflexivity|exact K|eassumption]|].
      constructor; try assumption. constructor. apply Forall2_app_both; assumption.
    - destruct R as [? ? ? ? ? ? ? ? ? ? ? RS ? ?]. cbn in S. subst. inversion RS as [|? ? ? RL|]; subst. inversion RL; subst.
      destruct (sel_link _ _ H) as (q' & H' & RQ).
      eexists. split; [eapply upd_using_sub; [eassumption|reflexivity|exact A|exact H'|exact (rel_finished _ _ _ RQ F)|eassumption]|].
      constructor; try assumption. constructor. constructor. exact RQ.
    - destruct (withs_link _ _ W) as (l' & W' & RW). eexists. split; [eapply upd_with; eassumption|]. destruct R.
      constructor; try assumption. apply Forall2_app_both; assumption.
    - destruct (says_link _ _ F) as (f' & F' & RF). eexists. split; [eapply upd_where; eassumption|]. destruct R as [? ? ? ? ? ? ? ? ? ? ? ? W ?].
      constructor; try assumption. constructor. cbn. destruct W; repeat (constructor; try assumption). assumption.
    - destruct (says_link _ _ F) as (f' & F' & RF). destruct R as [? ? ? ? ? ? ? ? ? ? ? ? W' ?]. cbn in W. subst. inversion W' as [|h' ? RH]; subst.
      eexists. split; [eapply upd_and; [eassumption|exact F'|reflexivity|eassumption]|].
      constructor; try assumption. repeat (constructor; try assumption).
    - destruct (says_link _ _ F) as (f' & F' & RF). destruct R as [? ? ? ? ? ? ? ? ? ? ? ? W' ?]. cbn in W. subst. inversion W' as [|h' ? RH]; subst.
      eexists. split; [eapply upd_or; [eassumption|exact F'|reflexivity|eassumption]|].
      constructor; try assumption. repeat (constructor; try assumption).
    - eexists. split; [eapply upd_from; eassumption|]. destruct R. constructor; assumption.
    - destruct (args_link _ _ A) as (l' & L & RL). eexists. split; [eapply upd_returning; eassumption|]. destruct R. constructor; assumption.
    - exists b'. split; [eapply upd_comment; eassumption|exact R].
  Qed.

  Lemma row_link : forall vs l, row_says (m := Inline e) vs l -> exists l', row_says (m := Bound) vs l' /\ Forall2 TR l' l.
  Proof.
    intros vs l (N & S & V). destruct (each_link _ _ _ value_link _ _ V) as (k & K & RK). exists k.
    split; [split; [exact N|split; [exact S|exact K]]|exact RK].
  Qed.
  Lemma assign_names : forall l l', Forall2 AR l' l -> map fst l' = map fst l.
  Proof. induction 1 as [|x y l' l H F IH]; [reflexivity|]. destruct H. cbn [map fst]. f_equal. exact IH. Qed.
  Lemma assign_terms : forall l l', Forall2 AR l' l -> Forall2 TR (map snd l') (map snd l).
  Proof. induction 1 as [|x y l' l H F IH]; [constructor|]. destruct H. constructor; assumption. Qed.

  Lemma ins_link : forall i b, ins_says (m := Inline e) i b ->
    exists b', ins_says (m := Bound) i b' /\ ibody_rel e Q b' b.
  Proof.
    induction 1 as [g t i T E|i b args ns i' _ (b' & B & R) N C E|i b vs l i' _ (b' & B & R) V E|i b g rows ls i' _ (b' & B & R) BA N V E
      |i b args l i' _ (b' & B & R) P N E|i b tg ns i' _ (b' & B & R) K E|i b tg ns args l g i' _ (b' & B & R) K P N D E
      |i b args l i' _ (b' & B & R) A E|i b c i' _ (b' & B & R) C E].
    - eexists. split; [eapply ins_new; eassumption|repeat constructor].
    - eexists. split; [eapply ins_columns; eassumption|]. destruct R. constructor; assumption.
    - destruct (row_link _ _ V) as (l' & V' & RV). eexists. split; [eapply ins_values; eassumption|]. destruct R.
      constructor; try assumption. repeat constructor; assumption.
    - destruct (each_link _ _ _ row_link _ _ V) as (l' & V' & RV). eexists. split; [eapply ins_batch; eassumption|]. destruct R.
      constructor; assumption.
    - destruct (pairs_link _ _ P) as (l' & P' & RP). eexists.
      split; [eapply ins_set; [eassumption|exact P'|exact (rel_nonempty _ _ _ RP N)|eassumption]|].
      pose proof (assign_all_link _ _ RP [] [] (Forall2_nil _)) as RA. rewrite (assign_names _ _ RA). destruct R.
      constructor; try assumption. constructor; [apply assign_terms, RA|constructor].
    - eexists. split; [eapply ins_do_nothing; eassumption|]. destruct R. constructor; try assumption. constructor.
    - destruct (pairs_link _ _ P) as (l' & P' & RP). eexists.
      split; [eapply ins_do_update; [eassumption|exact K|exact P'|exact (rel_nonempty _ _ _ RP N)|exact D|eassumption]|]. destruct R.
      constructor; try assumption. constructor. apply assign_all_link; [exact RP|constructor].
    - destruct (args_link _ _ A) as (l' & L & RL). eexists. split; [eapply ins_returning; eassumption|]. destruct R. constructor; assumption.
    - exists b'. split; [eapply ins_comment; eassumption|exact R].
  Qed.
End Link.

(* ------------------------------------------------------------------------- *)
(* The same effect                                                             *)
(* ------------------------------------------------------------------------- *)

Section Same.
  Context {g : engine} (e : bool) (L : takes_literals g e).
  Notation Q := (query_rel e).

  Lemma same_datum (db : database g) r : forall a a', term_rel e Q a a' -> datum_in db r a = datum_in db r a'.
  Proof.
    destruct L as (L1 & L2 & L3). intros a a' [|v u H|n|q q' H|f ts]; try reflexivity.
    - cbn [datum_in]. assert (D : u = MNull \/ exists x, u = MVal x).
      { revert u H. induction v; cbn [literal_says]; intros u H; try discriminate H; try (injection H as <-; eauto).
        - destruct (_ && _); [|discriminate H]. injection H as <-. eauto.
        - apply IHv, H. }
      destruct D as [->|(x & ->)]; cbn [datum_in]; [apply L2, H|symmetry; apply L1, H].
    - cbn [datum_in]. rewrite (L3 db q q' r H). reflexivity.
  Qed.
  Lemma same_data (db : database g) r : forall l l', Forall2 (term_rel e Q) l l' -> map (datum_in db r) l = map (datum_in db r) l'.
  Proof. induction 1 as [|a a' l l' H F IH]; [reflexivity|]. cbn [map]. rewrite (same_datum db r _ _ H), IH. reflexivity. Qed.
  Lemma same_truth (db : database g) r : forall f f', formula_rel e Q f f' -> truth_of db r f = truth_of db r f'.
  Proof.
    destruct L as (L1 & L2 & L3).
    induction 1 as [a o b a' b' A B|n a l a' l' A B|n a q a' q' A B|n a x y a' x' y' A X Y|n q q' A|f h f' h' _ F _ H|f h f' h' _ F _ H];
      cbn [truth_of]; rewrite ?(same_datum db r _ _ A).
    - rewrite (same_datum db r _ _ B). reflexivity.
    - rewrite (same_data db r _ _ B). reflexivity.
    - rewrite (L3 db q q' r B). reflexivity.
    - rewrite (same_datum db r _ _ X), (same_datum db r _ _ Y). reflexivity.
    - rewrite (L3 db q q' r A). reflexivity.
    - rewrite F, H. reflexivity.
    - rewrite F, H. reflexivity.
  Qed.
  Lemma same_chosen (db : database g) : forall w w', condition_rel e Q w w' -> forall r, chosen db w r = chosen db w' r.
  Proof. intros w w' [|f f' F] r; [reflexivity|]. cbn [chosen]. rewrite (same_truth db r _ _ F). reflexivity. Qed.
  Lemma same_item (db : database g) r : forall i i', item_rel Q i i' -> item_value g db r i = item_value g db r i'.
  Proof.
    destruct L as (L1 & L2 & L3). intros i i' [| |n q q' H]; try reflexivity. cbn [item_value]. rewrite (L3 db q q' r H). reflexivity.
  Qed.
  Lemma same_items (db : database g) r : forall l l', Forall2 (item_rel Q) l l' -> items_value db l r = items_value db l' r.
  Proof.
    intros l l' F. unfold items_value. f_equal. induction F as [|a a' l l' H F IH]; [reflexivity|]. cbn [map].
    rewrite (same_item db r _ _ H), IH. reflexivity.
  Qed.
  Lemma same_counts : forall l l', Forall2 (item_rel Q) l l' -> counts l = counts l'.
  Proof. induction 1 as [|a a' l l' H F IH]; [reflexivity|]. cbn [counts existsb]. fold (counts l) (counts l'). rewrite IH. destruct H; reflexivity. Qed.
  Lemma same_all (db : database g) : forall l l', Forall2 (item_rel Q) l l' -> forall rows,
    all_some (map (items_value db l) rows) = all_some (map (items_value db l') rows).
  Proof. intros l l' F rows. f_equal. apply map_ext. intro r. apply same_items, F. Qed.
  Lemma same_shown (db : database g) : forall l l', Forall2 (item_rel Q) l l' -> forall rows, shown_rows db l rows = shown_rows db l' rows.
  Proof.
    intros l l' F rows. pose proof (same_all db l l' F rows) as A. destruct F as [|a a' l l' H F]; [reflexivity|].
    destruct H; try exact A. destruct F; [|destruct d; exact A]. reflexivity.
  Qed.
  Lemma same_returns (db : database g) : forall l l', Forall2 (item_rel Q) l l' -> forall rows, returns db l rows = returns db l' rows.
  Proof. intros l l' F rows. pose proof (same_all db l l' F rows) as A. destruct F; [reflexivity|exact A]. Qed.
  Lemma same_filter {A} (p q : A -> bool) : (forall a, p a = q a) -> forall l, filter p l = filter q l.
  Proof. intros H l. apply filter_ext, H. Qed.

  Lemma same_select (db : database g) : forall b b', with_literals e b b' -> exec_select db b = exec_select db b'.
  Proof.
    intros b b' [pre w w' don d i i' fr j j' wh wh' gb h h' ob n k suf W I J C H]. unfold exec_select.
    destruct pre; [|reflexivity]. destruct W; [|reflexivity]. destruct don; [|reflexivity]. destruct d; [reflexivity|].
    destruct fr as [|t [|]]; try reflexivity. destruct J; [|reflexivity]. destruct gb; [|reflexivity]. destruct H; [|reflexivity].
    destruct suf; [|reflexivity]. rewrite (same_counts _ _ I), (same_filter _ _ (same_chosen db _ _ C)).
    destruct (counts i'); [destruct ob; [|reflexivity]; destruct n; [reflexivity|]; destruct k; [reflexivity|]|]; apply same_shown, I.
  Qed.
  Lemma same_delete (db : database g) : forall b b', delete_with_literals e b b' -> exec_delete db b = exec_delete db b'.
  Proof.
    intros b b' [fr us wh wh' ret ret' C I]. unfold exec_delete. cbn [de_from de_using de_where de_returning].
    destruct fr as [|t [|]]; try reflexivity. destruct us; [|reflexivity].
    rewrite (same_filter _ _ (same_chosen db _ _ C)), (same_returns db _ _ I).
    rewrite (same_filter (fun r => negb (chosen db wh r)) (fun r => negb (chosen db wh' r))); [reflexivity|].
    intro r. rewrite (same_chosen db _ _ C). reflexivity.
  Qed.
  Lemma same_names : forall l l', Forall2 (assign_rel e Q) l l' -> map fst l = map fst l'.
  Proof. induction 1 as [|x y l l' H F IH]; [reflexivity|]. destruct H. cbn [map fst]. rewrite IH. reflexivity. Qed.
  Lemma same_assigns (db : database g) r : forall l l', Forall2 (assign_rel e Q) l l' ->
    map (fun nt => (column_of (fst nt), datum_in db r (snd nt))) l = map (fun nt => (column_of (fst nt), datum_in db r (snd nt))) l'.
  Proof.
    induction 1 as [|x y l l' H F IH]; [reflexivity|]. destruct H as [n a a' H]. cbn [map fst snd].
    rewrite IH, (same_datum db r _ _ H). reflexivity.
  Qed.
  Lemma same_assigned (db : database g) : forall s s', setting_rel e Q s s' -> forall r, assigned db s r = assigned db s' r.
  Proof.
    destruct L as (L1 & L2 & L3). intros s s' [l l' F|cols l l' F|cols q q' H] r; cbn [assigned].
    - rewrite (same_names _ _ F), (same_assigns db r _ _ F). reflexivity.
    - rewrite (same_data db r _ _ F). replace (List.length l') with (List.length l); [reflexivity|].
      clear -F. induction F; cbn; congruence.
    - rewrite (L3 db q q' r H). reflexivity.
  Qed.
  Lemma same_updated (db : database g) : forall w w' s s', condition_rel e Q w w' -> setting_rel e Q s s' ->
    forall r, updated db w s r = updated db w' s' r.
  Proof. intros w w' s s' C S r. unfold updated. rewrite (same_chosen db _ _ C), (same_assigned db _ _ S). reflexivity. Qed.
  Lemma same_update (db : database g) : forall b b', update_with_literals e b b' -> exec_update db b = exec_update db b'.
  Proof.
    intros b b' [w w' t s s' fr wh wh' ret ret' W S C I]. unfold exec_update. cbn [up_with up_from up_table up_where up_set up_returning].
    destruct W; [|reflexivity]. destruct fr; [|reflexivity].
    rewrite (same_filter _ _ (same_chosen db _ _ C)).
    rewrite (map_ext _ _ (same_updated db _ _ _ _ C S)), (map_ext _ _ (same_updated db _ _ _ _ C S)).
    destruct (all_some _); [|reflexivity]. destruct (all_some _); [|reflexivity]. rewrite (same_returns db _ _ I). reflexivity.
  Qed.
  Lemma same_add (db : database g) hit : forall c c', conflict_rel e Q c c' -> forall rs rows,
    match on_clash_with db c with Some (_, w) => add_to hit w rs rows | None => None end
    = match on_clash_with db c' with Some (_, w) => add_to hit w rs rows | None => None end
    /\ option_map fst (on_clash_with db c) = option_map fst (on_clash_with db c').
  Proof.
    intros c c' [|cols|cols l l' F] rs rows; try (split; reflexivity). cbn [on_clash_with]. rewrite (same_names _ _ F).
    destruct (settable _); [|split; reflexivity]. split; [|reflexivity]. apply add_to_ext. intros _ old.
    rewrite (same_assigns db old _ _ F). reflexivity.
  Qed.
  Lemma same_new_rows (db : database g) t cols : forall l l', Forall2 (Forall2 (term_rel e Q)) l l' ->
    map (new_row db t cols) l = map (new_row db t cols) l'.
  Proof.
    induction 1 as [|a a' l l' H F IH]; [reflexivity|]. cbn [map]. rewrite IH. f_equal. unfold new_row.
    rewrite (same_data db _ _ _ H). replace (List.length a') with (List.length a); [reflexivity|].
    clear -H. induction H; cbn; congruence.
  Qed.
  Lemma same_insert (db : database g) : forall b b', insert_with_literals e b b' -> exec_insert db b = exec_insert db b'.
  Proof.
    intros b b' [t cols rows rows' c c' ret ret' R C I]. unfold exec_insert. cbn [in_table in_columns in_rows in_conflict in_returning].
    pose proof (same_new_rows db (tb_name t) cols _ _ R) as N.
    destruct cols as [|col cols]; [reflexivity|]. destruct R as [|x y rows rows' X R]; [reflexivity|]. rewrite N. clear N.
    destruct (all_some _) as [rs|]; [|reflexivity].
    assert (Sa := fun hit => same_add db hit c c' C rs (db (tb_name t))).
    destruct (on_clash_with db c) as [[us w]|], (on_clash_with db c') as [[us' w']|];
      try (destruct (Sa (fun _ _ => true)) as [_ E]; discriminate E); [|reflexivity].
    destruct (Sa (fun new old => clash g (tb_name t) us old new)) as [Y E]. injection E as <-. rewrite <- Y.
    destruct (add_to _ w _ _) as [[rs' ws]|]; [|reflexivity]. rewrite (same_returns db _ _ I). reflexivity.
  Qed.
End Same.
