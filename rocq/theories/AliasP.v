(* Proofs for C25: the columns whose names and aliases do not disagree. *)
From Verif Require Export AssignP.

(* The names of a and b are in one order and their aliases in the other. *)
Definition contrary (a b : column) : Prop :=
  str_ltb (c_name a) (c_name b) = true /\ str_ltb (c_alias b) (c_alias a) = true.
Definition agreeing (l : list column) : Prop := forall a b, In a l -> In b l -> ~ contrary a b.

Lemma str_ltb_asym : forall a b, str_ltb a b = true -> str_ltb b a = false.
Proof.
  intros a b H. destruct (str_ltb b a) eqn:E; [|reflexivity].
  pose proof (str_ltb_trans _ _ _ H E) as T. rewrite str_ltb_irrefl in T. discriminate T.
Qed.

(* a < b <= c *)
Lemma str_ltb_le : forall a b c, str_ltb a b = true -> str_ltb c b = false -> str_ltb a c = true.
Proof.
  intros a b c H K. destruct (str_ltb b c) eqn:E; [exact (str_ltb_trans _ _ _ H E)|].
  rewrite <- (str_ltb_total _ _ E K). exact H.
Qed.
Lemma str_le_ltb : forall a b c, str_ltb b a = false -> str_ltb b c = true -> str_ltb a c = true.
Proof.
  intros a b c H K. destruct (str_ltb a b) eqn:E; [exact (str_ltb_trans _ _ _ E K)|].
  rewrite (str_ltb_total _ _ E H). exact K.
Qed.

Lemma agreeing_swo : forall l, strict_weak_order col_less l <-> agreeing l.
Proof.
  intro l. split.
  - intros (I & T & _) a b Ha Hb (N & A).
    assert (E : col_less a a = true).
    { apply (T a b a Ha Hb Ha); unfold col_less; [rewrite N; reflexivity|rewrite A; apply orb_true_r]. }
    rewrite (I a Ha) in E. discriminate E.
  - intro G. unfold col_less. split; [|split].
    + intros x _. rewrite !str_ltb_irrefl. reflexivity.
    + intros x y z Hx Hy Hz H1 H2. rewrite orb_true_iff in *.
      assert (NA : forall a b, In a l -> In b l -> str_ltb (c_name a) (c_name b) = true -> str_ltb (c_alias b) (c_alias a) = false).
      { intros a b Ha Hb E. destruct (str_ltb (c_alias b) (c_alias a)) eqn:F; [|reflexivity]. exfalso. exact (G a b Ha Hb (conj E F)). }
      assert (AN : forall a b, In a l -> In b l -> str_ltb (c_alias a) (c_alias b) = true -> str_ltb (c_name b) (c_name a) = false).
      { intros a b Ha Hb E. destruct (str_ltb (c_name b) (c_name a)) eqn:F; [|reflexivity]. exfalso. exact (G b a Hb Ha (conj F E)). }
      destruct H1 as [H1|H1], H2 as [H2|H2].
      * left. exact (str_ltb_trans _ _ _ H1 H2).
      * left. exact (str_ltb_le _ _ _ H1 (AN y z Hy Hz H2)).
      * left. exact (str_le_ltb _ _ _ (AN x y Hx Hy H1) H2).
      * right. exact (str_ltb_trans _ _ _ H1 H2).
    + intros x y z _ _ _ H1 H2 H3 H4. rewrite !orb_false_iff in *.
      destruct H1 as [N1 A1], H2 as [N2 A2], H3 as [N3 A3], H4 as [N4 A4].
      rewrite (str_ltb_total _ _ N1 N2), (str_ltb_total _ _ A1 A2). auto.
Qed.

Lemma unaliased_agreeing : forall l, unaliased l -> agreeing l.
Proof. intros l H. apply agreeing_swo, unaliased_swo, H. Qed.

Lemma agreeing_incl : forall l l', incl l' l -> agreeing l -> agreeing l'.
Proof. intros l l' I G a b Ha Hb. apply G; apply I; assumption. Qed.

(* Of two different columns, one is less. *)
Lemma col_less_total : forall a b, col_less a b = false -> col_less b a = false -> a = b.
Proof.
  intros [an aa] [bn ba] H K. unfold col_less in *. cbn in *. rewrite !orb_false_iff in *.
  destruct H, K. f_equal; apply str_ltb_total; assumption.
Qed.

Definition increasing (l : list column) : Prop := StronglySorted (fun a b => col_less a b = true) l.

Lemma sorted_increasing : forall sort l, sort_contract sort -> agreeing l -> NoDup l -> increasing (sort l).
Proof.
  intros sort l C G N. destruct (C l) as [P S]. specialize (S (proj2 (agreeing_swo l) G)).
  pose proof (Permutation_NoDup P N) as N'. revert S N'. generalize (sort l). clear. intro l.
  induction l as [|c l IH]; intros S N; [constructor|].
  apply StronglySorted_inv in S. destruct S as [S F]. inversion N as [|? ? Nc Nl]; subst.
  constructor; [exact (IH S Nl)|]. rewrite Forall_forall in *. intros d Hd. specialize (F d Hd).
  destruct (col_less c d) eqn:E; [reflexivity|]. exfalso. apply Nc. rewrite (col_less_total _ _ E F). exact Hd.
Qed.

Lemma increasing_unique : forall l l', increasing l -> increasing l' -> agreeing l ->
  (forall c, In c l <-> In c l') -> l = l'.
Proof.
  induction l as [|c l IH]; intros [|d l'] S S' G H.
  - reflexivity.
  - exfalso. apply (H d). left. reflexivity.
  - exfalso. apply (H c). left. reflexivity.
  - pose proof (proj2 (agreeing_swo _) G) as (I & T & _).
    apply StronglySorted_inv in S, S'. destruct S as [S F], S' as [S' F']. rewrite Forall_forall in F, F'.
    assert (E : c = d).
    { destruct (proj1 (H c) (or_introl eq_refl)) as [E|Hc]; [symmetry; exact E|].
      destruct (proj2 (H d) (or_introl eq_refl)) as [E|Hd]; [exact E|]. exfalso.
      pose proof (F' c Hc) as A. pose proof (F d Hd) as B.
      pose proof (T d c d (or_intror Hd) (or_introl eq_refl) (or_intror Hd) A B) as X.
      rewrite (I d (or_intror Hd)) in X. discriminate X. }
    subst d. f_equal. apply IH; try assumption.
    + apply (agreeing_incl (c :: l)); [intros x Hx; right; exact Hx|exact G].
    + intro x. split; intro Hx.
      * destruct (proj1 (H x) (or_intror Hx)) as [<-|R]; [|exact R]. exfalso.
        pose proof (F c Hx) as X. rewrite (I c (or_introl eq_refl)) in X. discriminate X.
      * destruct (proj2 (H x) (or_intror Hx)) as [<-|R]; [|exact R]. exfalso.
        pose proof (F' c Hx) as X. rewrite (I c (or_introl eq_refl)) in X. discriminate X.
Qed.

Lemma sort_twice : forall sort l, sort_contract sort -> agreeing l -> NoDup l -> sort (sort l) = sort l.
Proof.
  intros sort l C G N. pose proof (proj1 (C l)) as P.
  assert (G' : agreeing (sort l)).
  { apply (agreeing_incl l); [|exact G]. intros x Hx. exact (Permutation_in x (Permutation_sym P) Hx). }
  apply increasing_unique.
  - apply sorted_increasing; [exact C|exact G'|exact (Permutation_NoDup P N)].
  - apply sorted_increasing; assumption.
  - apply (agreeing_incl (sort l)); [|exact G']. intros x Hx. exact (Permutation_in x (Permutation_sym (proj1 (C _))) Hx).
  - intro x. split; intro Hx; [exact (Permutation_in x (Permutation_sym (proj1 (C _))) Hx)|exact (Permutation_in x (proj1 (C _)) Hx)].
Qed.
