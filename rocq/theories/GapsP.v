(* Writing an expression panics exactly when something is missing. *)
From Verif Require Export Gaps.
Local Open Scope list_scope.

Ltac none := let H := fresh in intro H; inversion H; subst; try discriminate; try contradiction; intuition (try discriminate).

(* ------------------------------------------------------------------------- *)
(* IsEmpty                                                                     *)
(* ------------------------------------------------------------------------- *)

Lemma wraps_child_not : forall e, ~ wraps_nil e -> forall x, In x (children e) -> ~ wraps_nil x.
Proof. intros e N x I W. exact (N (wraps_child e x I W)). Qed.

Lemma no_str_true : forall s, no_str s = true -> s = "".
Proof. intros s H. apply String.eqb_eq in H. exact H. Qed.
Lemma no_str_false : forall s, no_str s = false -> s <> "".
Proof. intros s H. apply String.eqb_neq in H. exact H. Qed.

(* The answer of IsEmpty() on something that is not nil. *)
Definition answers (e : expr) : Prop :=
  (is_empty e = Ok true /\ blank e) \/ (is_empty e = Ok false /\ ~ blank e).

Ltac answer_yes := left; split; [reflexivity|].
Ltac answer_no := right; split; [reflexivity|let H := fresh in intro H; inversion H; subst; try contradiction; try congruence].

Lemma emptiness : forall e, ~ wraps_nil e -> e <> ENil -> answers e.
Proof.
  apply (expr_children_ind (fun e => ~ wraps_nil e -> e <> ENil -> answers e)).
  intros e IH W N. pose proof (wraps_child_not e W) as WC.
  destruct e as [|g|g|l|l|s|x|f l|l o r|x o v|g o f a t|x|x|s|l r|l o r]; cbn [children] in *; unfold answers; cbn [is_empty].
  - contradiction N; reflexivity.
  - destruct g; try (answer_no; fail). destruct (no_str s) eqn:E.
    + answer_yes. rewrite (no_str_true s E). constructor.
    + answer_no. discriminate E.
  - answer_no.
  - destruct l; [answer_yes; constructor|answer_no].
  - destruct l; [answer_yes; constructor|answer_no].
  - destruct (no_str s) eqn:E; [answer_yes; rewrite (no_str_true s E); constructor|answer_no]. discriminate E.
  - assert (X : x <> ENil) by (intros ->; apply W; constructor).
    destruct (IH x (or_introl eq_refl) (WC x (or_introl eq_refl)) X) as [[E B]|[E B]]; rewrite E.
    + answer_yes. constructor. exact B.
    + answer_no.
  - answer_no.
  - destruct (is_nil l) eqn:El; [destruct l; try discriminate El; answer_yes; apply blank_infix_left; constructor|].
    destruct o as [o|]; [|cbn [orb]; answer_yes; apply blank_infix_op; left; reflexivity]. cbn [orb].
    destruct (is_nil r) eqn:Er; [destruct r; try discriminate Er; answer_yes; apply blank_infix_right; constructor|].
    assert (Nl : l <> ENil) by (intros ->; discriminate El). assert (Nr : r <> ENil) by (intros ->; discriminate Er).
    destruct (IH l (or_introl eq_refl) (WC l (or_introl eq_refl)) Nl) as [[E B]|[E B]]; rewrite E; cbn [or_res].
    { answer_yes. apply blank_infix_left. exact B. }
    destruct (no_str o) eqn:Eo; cbn [or_res]; [answer_yes; apply blank_infix_op; right; rewrite (no_str_true o Eo); reflexivity|].
    destruct (IH r (or_intror (or_introl eq_refl)) (WC r (or_intror (or_introl eq_refl))) Nr) as [[E' B']|[E' B']]; rewrite E'.
    { answer_yes. apply blank_infix_right. exact B'. }
    apply no_str_false in Eo. answer_no. match goal with H : _ \/ _ |- _ => destruct H as [H|H]; [discriminate H|injection H as H]; contradiction end.
  - assert (X : x <> ENil) by (intros ->; apply W; constructor).
    destruct (IH x (or_introl eq_refl) (WC x (or_introl eq_refl)) X) as [[E B]|[E B]]; rewrite E; cbn [or_res].
    { answer_yes. apply blank_in_left. exact B. }
    destruct (no_str o) eqn:Eo; cbn [or_res]; [answer_yes; apply blank_in_op; exact (no_str_true o Eo)|].
    apply no_str_false in Eo. destruct (is_nil v) eqn:Ev.
    + answer_yes. apply blank_in_values. destruct v; try discriminate Ev. reflexivity.
    + answer_no. discriminate Ev.
  - destruct (match g with GStr s => no_str s | _ => false end) eqn:Eg.
    { cbn [orb]. answer_yes. apply blank_between_name. destruct g; try discriminate Eg. rewrite (no_str_true s Eg). reflexivity. }
    destruct (no_str o) eqn:Eo; cbn [orb]; [answer_yes; apply blank_between_op; left; exact (no_str_true o Eo)|].
    destruct (no_str a) eqn:Ea; cbn [orb]; [answer_yes; apply blank_between_op; right; exact (no_str_true a Ea)|].
    destruct (is_nil f) eqn:Ef; cbn [orb]; [destruct f; try discriminate Ef; answer_yes; apply blank_between_from; constructor|].
    destruct (is_nil t) eqn:Et; cbn [orb]; [destruct t; try discriminate Et; answer_yes; apply blank_between_to; constructor|].
    assert (Nf : f <> ENil) by (intros ->; discriminate Ef). assert (Nt : t <> ENil) by (intros ->; discriminate Et).
    destruct (IH f (or_introl eq_refl) (WC f (or_introl eq_refl)) Nf) as [[E B]|[E B]]; rewrite E; cbn [or_res].
    { answer_yes. apply blank_between_from. exact B. }
    destruct (IH t (or_intror (or_introl eq_refl)) (WC t (or_intror (or_introl eq_refl))) Nt) as [[E' B']|[E' B']]; rewrite E'.
    { answer_yes. apply blank_between_to. exact B'. }
    apply no_str_false in Eo, Ea. answer_no; [discriminate Eg|].
    match goal with H : _ \/ _ |- _ => destruct H as [H|H]; contradiction end.
  - answer_no.
  - answer_no.
  - destruct (s_exprs s) eqn:E; [answer_yes; constructor; exact E|]. answer_no.
  - destruct (no_str (c_name l)) eqn:El; cbn [orb]; [answer_yes; constructor; left; exact (no_str_true _ El)|].
    destruct (no_str (c_name r)) eqn:Er; [answer_yes; constructor; right; exact (no_str_true _ Er)|].
    apply no_str_false in El, Er. answer_no. match goal with H : _ \/ _ |- _ => destruct H as [H|H]; contradiction end.
  - destruct (is_nil l) eqn:El; [destruct l; try discriminate El; answer_yes; apply blank_infix_on_left; constructor|].
    cbn [orb].
    destruct (is_nil r) eqn:Er; [destruct r; try discriminate Er; answer_yes; apply blank_infix_on_right; constructor|].
    assert (Nl : l <> ENil) by (intros ->; discriminate El). assert (Nr : r <> ENil) by (intros ->; discriminate Er).
    destruct (IH l (or_introl eq_refl) (WC l (or_introl eq_refl)) Nl) as [[E B]|[E B]]; rewrite E; cbn [or_res].
    { answer_yes. apply blank_infix_on_left. exact B. }
    destruct (no_str o) eqn:Eo; cbn [or_res]; [answer_yes; apply blank_infix_on_op; exact (no_str_true o Eo)|].
    destruct (IH r (or_intror (or_introl eq_refl)) (WC r (or_intror (or_introl eq_refl))) Nr) as [[E' B']|[E' B']]; rewrite E'.
    { answer_yes. apply blank_infix_on_right. exact B'. }
    apply no_str_false in Eo. answer_no.
Qed.

Lemma clause_emptiness : forall e, ~ wraps_nil e ->
  (cond_empty e = Ok true /\ blank e) \/ (cond_empty e = Ok false /\ ~ blank e).
Proof.
  intros e W. unfold cond_empty. destruct (is_nil e) eqn:E.
  - left. split; [reflexivity|]. destruct e; try discriminate E. constructor.
  - apply emptiness; [exact W|]. intros ->. discriminate E.
Qed.

(* ------------------------------------------------------------------------- *)
(* Outcomes                                                                    *)
(* ------------------------------------------------------------------------- *)

(* A part is written, or a panic tells that something is missing: [G] says what. The panic is
   one of package stmt, or comes from a nil: [N] says where. *)
Definition outcome {A} (t : res A) (G N : Prop) : Prop :=
  (exists x, t = Ok x /\ ~ G)
  \/ (exists p, t = Panic p /\ G /\ ((exists m, p = PMsg m /\ In m documented) \/ (p = PNilDeref /\ N))).

Lemma outcome_mono {A} : forall (t : res A) (G G' N N' : Prop), outcome t G N -> (G <-> G') -> (N -> N') -> outcome t G' N'.
Proof.
  intros t G G' N N' [(x & E & H)|(p & E & H & K)] HG HN; [left; exists x|right; exists p].
  - split; [exact E|]. intro H'. apply H, HG, H'.
  - split; [exact E|]. split; [apply HG, H|]. destruct K as [K|[K1 K2]]; [left; exact K|right; split; [exact K1|exact (HN K2)]].
Qed.

Lemma outcome_ok {A} : forall (x : A), outcome (Ok x) False False.
Proof. intro x. left. exists x. split; [reflexivity|intros []]. Qed.
Lemma outcome_w : forall s, outcome (w s) False False.
Proof. intro s. apply outcome_ok. Qed.

Lemma outcome_cat : forall a b (G N G' N' : Prop), outcome a G N -> outcome b G' N' -> outcome (a +++ b) (G \/ G') (N \/ N').
Proof.
  intros a b G N G' N' [(x & -> & H)|(p & -> & H & K)].
  - intros [(y & -> & H')|(p & -> & H' & K')].
    + left. eexists. split; [reflexivity|]. tauto.
    + right. exists p. split; [reflexivity|]. tauto.
  - intros _. right. exists p. split; [reflexivity|]. tauto.
Qed.

Lemma outcome_sep {A} : forall (f : A -> tr) (G N : A -> Prop) sep l, (forall x, In x l -> outcome (f x) (G x) (N x)) ->
  outcome (sep_by sep (map f l)) (Exists G l) (Exists N l).
Proof.
  intros f G N sep l. induction l as [|x l IH]; intro H; cbn [map sep_by].
  - apply (outcome_mono _ _ _ _ _ (outcome_ok _)); [split; [intros []|intro E; inversion E]|intros []].
  - destruct l as [|y l].
    + apply (outcome_mono _ _ _ _ _ (H x (or_introl eq_refl))); [split|]; intro K;
        [left; exact K|inversion K; subst; [assumption|match goal with E : Exists _ [] |- _ => inversion E end]|left; exact K].
    + apply (outcome_mono _ _ _ _ _ (outcome_cat _ _ _ _ _ _ (outcome_cat _ _ _ _ _ _ (H x (or_introl eq_refl)) (outcome_w sep))
                                        (IH (fun z Hz => H z (or_intror Hz))))).
      * split; [intros [[K|[]]|K]; [left; exact K|right; exact K]|].
        intro K. inversion K; subst; [left; left; assumption|right; assumption].
      * intros [[K|[]]|K]; [left; exact K|right; exact K].
Qed.

Lemma outcome_when : forall (c : bool) t (G N : Prop), outcome t G N -> outcome (when c t) (c = true /\ G) N.
Proof.
  intros [] t G N H; cbn [when].
  - apply (outcome_mono _ _ _ _ _ H); [split; [intro K; split; [reflexivity|exact K]|intros [_ K]; exact K]|intro K; exact K].
  - apply (outcome_mono _ _ _ _ _ (outcome_ok _)); [split; [intros []|intros [K _]; discriminate K]|intros []].
Qed.

Lemma outcome_unless : forall e t (G N : Prop), ~ wraps_nil e -> outcome t G N ->
  outcome (unless (cond_empty e) t) (~ blank e /\ G) (~ blank e /\ N).
Proof.
  intros e t G N W H. unfold unless.
  destruct (clause_emptiness e W) as [[-> B]|[-> B]]; cbn [bind].
  - apply (outcome_mono _ _ _ _ _ (outcome_ok _)); [split; [intros []|intros [K _]; contradiction]|intros []].
  - apply (outcome_mono _ _ _ _ _ H); [split; [intro K; split; assumption|intros [_ K]; exact K]|intro K; split; assumption].
Qed.

Lemma outcome_closed {A} : forall (t : res A) (G N : Prop), outcome t G N -> (G -> False) -> (N -> False) -> outcome t False False.
Proof. intros t G N H HG HN. apply (outcome_mono _ _ _ _ _ H); [split; [exact HG|intros []]|exact HN]. Qed.

Section Writing.
Context {O : Oracle}.

(* Parts that never panic. *)
Lemma outcome_column : forall c, outcome (write_column c) False False.
Proof.
  intro c. unfold write_column. destruct (negb _); apply outcome_ok.
Qed.
Lemma outcome_table : forall t, outcome (write_table t) False False.
Proof. intro t. unfold write_table. destruct (t_only t), (negb _); apply outcome_ok. Qed.
Lemma outcome_columns : forall l, outcome (write_columns l) False False.
Proof.
  intro l. unfold write_columns.
  apply (outcome_closed _ _ _ (outcome_sep write_column (fun _ => False) (fun _ => False) _ l (fun x _ => outcome_column x)));
    intro H; apply Exists_exists in H; destruct H as (x & _ & []).
Qed.
Lemma outcome_tables : forall l, outcome (sep_by ", " (map write_table l)) False False.
Proof.
  intro l.
  apply (outcome_closed _ _ _ (outcome_sep write_table (fun _ => False) (fun _ => False) _ l (fun x _ => outcome_table x)));
    intro H; apply Exists_exists in H; destruct H as (x & _ & []).
Qed.
Lemma outcome_orders : forall l, outcome (sep_by ", " (map write_order l)) False False.
Proof.
  intro l.
  apply (outcome_closed _ _ _ (outcome_sep write_order (fun _ => False) (fun _ => False) _ l
    (fun x _ => ltac:(unfold write_order, when; destruct (negb _); apply outcome_ok))));
    intro H; apply Exists_exists in H; destruct H as (x & _ & []).
Qed.
Lemma outcome_ident : forall g, outcome (write_ident g) False False.
Proof. intros []; try apply outcome_ok. destruct e; apply outcome_ok. Qed.
Lemma outcome_value : forall g, outcome (write_value g) False False.
Proof. intros []; apply outcome_ok. Qed.
Lemma outcome_froms : forall l, outcome (write_from l) (In FNil l) (In FNil l).
Proof.
  intro l. unfold write_from.
  apply (outcome_mono _ _ _ _ _ (outcome_cat _ _ _ _ _ _ (outcome_w _)
    (outcome_sep write_fromitem (fun f => f = FNil) (fun f => f = FNil) ", " l (fun f _ =>
       ltac:(destruct f; cbn [write_fromitem];
             [right; eexists; split; [reflexivity|]; split; [reflexivity|right; split; reflexivity]
             |apply (outcome_mono _ _ _ _ _ (outcome_table t)); [split; [intros []|discriminate]|intros []]
             |apply (outcome_mono _ _ _ _ _ (outcome_w _)); [split; [intros []|discriminate]|intros []]]))))).
  - rewrite Exists_exists. split; [intros [[]|(f & I & ->)]; exact I|]. intro I. right. exists FNil. split; [exact I|reflexivity].
  - rewrite Exists_exists. intros [[]|(f & I & ->)]; exact I.
Qed.

(* ------------------------------------------------------------------------- *)
(* Expressions                                                                 *)
(* ------------------------------------------------------------------------- *)

Definition decided (e : expr) : Prop := outcome (write_expr e) (gap e) (nil_inside e).

(* The check that every operand is there, before anything is written. *)
Lemma outcome_defined : forall e t (G N : Prop), ~ wraps_nil e -> e <> ENil -> needs_operands e -> outcome t G N ->
  outcome (defined e t) (blank e \/ G) N.
Proof.
  intros e t G N W X F H. unfold defined.
  destruct (emptiness e W X) as [[-> B]|[-> B]]; cbn [bind].
  - right. eexists. split; [reflexivity|]. split; [left; exact B|]. left. eexists. split; [reflexivity|].
    cbn. tauto.
  - apply (outcome_mono _ _ _ _ _ H); [split; [intro K; right; exact K|intros [K|K]; [contradiction|exact K]]|intro K; exact K].
Qed.

Lemma item_outcome : forall i, (forall x, In x (selexpr_children i) -> decided x) ->
  outcome (write_selexpr write_expr i) (item_gap i) (nil_in_item i).
Proof.
  intros [|c|r|f v d a|x|x] H; cbn [write_selexpr item_gap nil_in_item selexpr_children] in *.
  - right. eexists. split; [reflexivity|]. split; [exact I|right; split; [reflexivity|exact I]].
  - apply outcome_column.
  - apply outcome_w.
  - unfold write_alias, when. destruct d, (negb _); apply outcome_ok.
  - apply (outcome_mono _ _ _ _ _ (outcome_cat _ _ _ _ _ _ (outcome_cat _ _ _ _ _ _ (outcome_w _) (H x (or_introl eq_refl))) (outcome_w _))); tauto.
  - apply (outcome_mono _ _ _ _ _ (outcome_cat _ _ _ _ _ _ (outcome_cat _ _ _ _ _ _ (outcome_w _) (H x (or_introl eq_refl))) (outcome_w _))); tauto.
Qed.

Lemma items_outcome : forall l, (forall x, In x (flat_map selexpr_children l) -> decided x) ->
  outcome (sep_by ", " (map (write_selexpr write_expr) l)) (Exists item_gap l) (Exists nil_in_item l).
Proof.
  intros l H. apply outcome_sep. intros i I. apply item_outcome. intros x X. apply H. apply in_flat_map. exists i. split; assumption.
Qed.

Lemma withq_outcome : forall q, ~ wraps_nil (wq_sub q) -> decided (wq_sub q) ->
  outcome (write_withq write_expr q) (with_gap q) (wq_name q <> "" /\ ~ blank (wq_sub q) /\ nil_inside (wq_sub q)).
Proof.
  intros q W H. unfold write_withq, withq_empty, with_gap, unless.
  destruct (no_str (wq_name q)) eqn:En; cbn [orb bind].
  { apply no_str_true in En. apply (outcome_mono _ _ _ _ _ (outcome_ok _)); tauto. }
  apply no_str_false in En.
  assert (E : (if is_nil (wq_sub q) then Ok true else is_empty (wq_sub q)) = cond_empty (wq_sub q)) by reflexivity.
  rewrite E. destruct (clause_emptiness _ W) as [[-> B]|[-> B]]; cbn [bind].
  - apply (outcome_mono _ _ _ _ _ (outcome_ok _)); tauto.
  - apply (outcome_mono _ _ _ _ _ (outcome_cat _ _ _ _ _ _ (outcome_cat _ _ _ _ _ _ (outcome_w _) H) (outcome_w _))); tauto.
Qed.

Lemma withs_outcome : forall l, (forall q, In q l -> ~ wraps_nil (wq_sub q) /\ decided (wq_sub q)) ->
  outcome (when (nonempty l) (write_with write_expr l +++ w " ")) (Exists with_gap l)
          (Exists (fun q => wq_name q <> "" /\ ~ blank (wq_sub q) /\ nil_inside (wq_sub q)) l).
Proof.
  intros [|q l] H.
  - apply (outcome_mono _ _ _ _ _ (outcome_ok _)); [split; [intros []|intro K; inversion K]|intros []].
  - cbn [nonempty when]. unfold write_with. cbn [nonempty when].
    apply (outcome_mono _ _ _ _ _ (outcome_cat _ _ _ _ _ _ (outcome_cat _ _ _ _ _ _ (outcome_w _)
      (outcome_sep (write_withq write_expr) with_gap _ ", " (q :: l) (fun x X => withq_outcome x (proj1 (H x X)) (proj2 (H x X))))) (outcome_w _))); tauto.
Qed.

Lemma clause_outcome : forall e t, ~ wraps_nil e -> (~ blank e -> outcome t (gap e) (nil_inside e)) ->
  outcome (unless (cond_empty e) t) (clause_gap e) (~ blank e /\ nil_inside e).
Proof.
  intros e t W H. unfold unless, clause_gap.
  destruct (clause_emptiness e W) as [[-> B]|[-> B]]; cbn [bind].
  - apply (outcome_mono _ _ _ _ _ (outcome_ok _)); tauto.
  - apply (outcome_mono _ _ _ _ _ (H B)); tauto.
Qed.

Lemma where_outcome : forall e, ~ wraps_nil e -> decided e ->
  outcome (unless (cond_empty e) (w " " +++ write_where write_expr e)) (clause_gap e) (~ blank e /\ nil_inside e).
Proof.
  intros e W H. apply clause_outcome; [exact W|]. intro B. unfold write_where.
  destruct (clause_emptiness e W) as [[_ B']|[-> _]]; [contradiction|]. cbn [bind].
  apply (outcome_mono _ _ _ _ _ (outcome_cat _ _ _ _ _ _ (outcome_w _) (outcome_cat _ _ _ _ _ _ (outcome_w _) H))); tauto.
Qed.
Lemma having_outcome : forall e, ~ wraps_nil e -> decided e ->
  outcome (unless (cond_empty e) (w " " +++ write_having write_expr e)) (clause_gap e) (~ blank e /\ nil_inside e).
Proof.
  intros e W H. apply clause_outcome; [exact W|]. intro B. unfold write_having.
  destruct (clause_emptiness e W) as [[_ B']|[-> _]]; [contradiction|]. cbn [bind].
  apply (outcome_mono _ _ _ _ _ (outcome_cat _ _ _ _ _ _ (outcome_w _) (outcome_cat _ _ _ _ _ _ (outcome_w _) H))); tauto.
Qed.

Lemma joins_outcome : forall l, (forall j, In j l -> decided (j_cond j)) ->
  outcome (write_joins write_expr l) (Exists (fun j => gap (j_cond j)) l) (Exists (fun j => nil_inside (j_cond j)) l).
Proof.
  induction l as [|j l IH]; intro H; cbn [write_joins].
  - apply (outcome_mono _ _ _ _ _ (outcome_ok _)); [split; [intros []|intro K; inversion K]|intros []].
  - unfold write_join.
    apply (outcome_mono _ _ _ _ _ (outcome_cat _ _ _ _ _ _ (outcome_cat _ _ _ _ _ _ (outcome_w _)
      (outcome_cat _ _ _ _ _ _ (outcome_cat _ _ _ _ _ _ (outcome_cat _ _ _ _ _ _ (outcome_w _) (outcome_table _)) (outcome_w _))
         (H j (or_introl eq_refl)))) (IH (fun k K => H k (or_intror K))))).
    + rewrite Exists_cons. tauto.
    + rewrite Exists_cons. tauto.
Qed.

Lemma from_outcome : forall l, outcome (when (nonempty l) (w " " +++ write_from l)) (In FNil l) (In FNil l).
Proof.
  intros [|f l]; cbn [nonempty when].
  - apply outcome_ok.
  - apply (outcome_mono _ _ _ _ _ (outcome_cat _ _ _ _ _ _ (outcome_w _) (outcome_froms _))); tauto.
Qed.

(* The gaps of a Select, clause by clause. *)
Definition select_gap (s : select) : Prop :=
  s_exprs s = [] \/ Exists with_gap (s_with s) \/ Exists item_gap (s_exprs s) \/ In FNil (s_from s)
  \/ Exists (fun j => gap (j_cond j)) (s_joins s) \/ clause_gap (s_where s) \/ clause_gap (s_having s).

Lemma select_gap_iff : forall s, gap (ESelect s) <-> select_gap s.
Proof.
  intro s. unfold select_gap. split.
  - intro H. inversion H; subst.
    + contradiction.
    + left; assumption.
    + right; right; left. apply Exists_exists. exists SNil. split; [assumption|exact I].
    + tauto.
    + match goal with K : written _ _ |- _ => inversion K; subst end.
      * right; left. apply Exists_exists. eexists. split; [eassumption|]. repeat split; assumption.
      * right; right; left. apply Exists_exists. eexists. split; [eassumption|].
        match goal with K : _ \/ _ |- _ => destruct K as [-> | ->] end; assumption.
      * do 4 right; left. apply Exists_exists. eexists. split; eassumption.
      * do 5 right; left. split; assumption.
      * do 6 right. split; assumption.
  - rewrite !Exists_exists. intros [H|[(q & I & N & B & G)|[(i & I & G)|[H|[(j & I & G)|[[B G]|[B G]]]]]]].
    + apply gap_columns. exact H.
    + exact (gap_part _ _ (written_with s q I N B) G).
    + destruct i; cbn [item_gap] in G; try contradiction.
      * apply gap_item. exact I.
      * exact (gap_part _ _ (written_item s _ _ I (or_introl eq_refl)) G).
      * exact (gap_part _ _ (written_item s _ _ I (or_intror eq_refl)) G).
    + apply gap_table. exact H.
    + exact (gap_part _ _ (written_join s j I) G).
    + exact (gap_part _ _ (written_where s B) G).
    + exact (gap_part _ _ (written_having s B) G).
Qed.

Lemma select_outcome : forall s, (forall x, In x (select_children s) -> ~ wraps_nil x /\ decided x) -> decided (ESelect s).
Proof.
  intros s H. unfold decided. cbn [write_expr]. unfold write_select_with.
  assert (Hw : forall q, In q (s_with s) -> ~ wraps_nil (wq_sub q) /\ decided (wq_sub q)).
  { intros q I. apply H. unfold select_children. apply in_or_app. left. apply in_map. exact I. }
  assert (Hi : forall x, In x (flat_map selexpr_children (s_exprs s)) -> decided x).
  { intros x I. apply H. unfold select_children. apply in_or_app. right. apply in_or_app. left. exact I. }
  assert (Hj : forall j, In j (s_joins s) -> decided (j_cond j)).
  { intros j I. apply H. unfold select_children. do 2 (apply in_or_app; right). apply in_or_app. left. apply in_map. exact I. }
  assert (Hh : forall x, x = s_where s \/ x = s_having s -> ~ wraps_nil x /\ decided x).
  { intros x I. apply H. unfold select_children. do 3 (apply in_or_app; right). destruct I as [-> | ->]; cbn; tauto. }
  clear H. destruct (nonempty (s_exprs s)) eqn:E.
  2:{ right. eexists. split; [reflexivity|]. split.
      - apply gap_columns. destruct (s_exprs s); [reflexivity|discriminate E].
      - left. eexists. split; [reflexivity|]. cbn. tauto. }
  assert (OH : outcome (write_head write_expr s)
            (Exists with_gap (s_with s) \/ Exists item_gap (s_exprs s) \/ In FNil (s_from s))
            (Exists (fun q => wq_name q <> "" /\ ~ blank (wq_sub q) /\ nil_inside (wq_sub q)) (s_with s)
             \/ Exists nil_in_item (s_exprs s) \/ In FNil (s_from s))).
  { unfold write_head.
    apply (outcome_mono _ _ _ _ _ (outcome_cat _ _ _ _ _ _ (outcome_cat _ _ _ _ _ _ (outcome_cat _ _ _ _ _ _
      (outcome_cat _ _ _ _ _ _ (outcome_cat _ _ _ _ _ _ (outcome_cat _ _ _ _ _ _ (outcome_cat _ _ _ _ _ _
        (outcome_when _ _ _ _ (outcome_cat _ _ _ _ _ _ (outcome_w _) (outcome_w _)))
        (withs_outcome _ Hw)) (outcome_w _))
        (outcome_when _ _ _ _ (outcome_cat _ _ _ _ _ _ (outcome_w _)
           (outcome_when _ _ _ _ (outcome_cat _ _ _ _ _ _ (outcome_cat _ _ _ _ _ _ (outcome_w _) (outcome_columns _)) (outcome_w _))))))
        (outcome_when _ _ _ _ (outcome_w _))) (outcome_when _ _ _ _ (outcome_w _)))
        (items_outcome _ Hi)) (from_outcome _))); tauto. }
  assert (OM : outcome (write_middle write_expr s)
            (Exists (fun j => gap (j_cond j)) (s_joins s) \/ clause_gap (s_where s) \/ clause_gap (s_having s))
            (Exists (fun j => nil_inside (j_cond j)) (s_joins s) \/ (~ blank (s_where s) /\ nil_inside (s_where s))
             \/ (~ blank (s_having s) /\ nil_inside (s_having s)))).
  { unfold write_middle.
    apply (outcome_mono _ _ _ _ _ (outcome_cat _ _ _ _ _ _ (outcome_cat _ _ _ _ _ _ (outcome_cat _ _ _ _ _ _
      (joins_outcome _ Hj) (where_outcome _ (proj1 (Hh _ (or_introl eq_refl))) (proj2 (Hh _ (or_introl eq_refl)))))
      (outcome_when _ _ _ _ (outcome_cat _ _ _ _ _ _ (outcome_w _) (outcome_cat _ _ _ _ _ _ (outcome_w _) (outcome_columns _)))))
      (having_outcome _ (proj1 (Hh _ (or_intror eq_refl))) (proj2 (Hh _ (or_intror eq_refl)))))); tauto. }
  assert (OT : outcome (write_tail s) False False).
  { unfold write_tail, write_order_by, write_limit, write_offset, write_comment.
    apply (outcome_mono _ _ _ _ _ (outcome_cat _ _ _ _ _ _ (outcome_cat _ _ _ _ _ _ (outcome_cat _ _ _ _ _ _ (outcome_cat _ _ _ _ _ _
      (outcome_when _ _ _ _ (outcome_cat _ _ _ _ _ _ (outcome_w _) (outcome_when _ _ _ _ (outcome_cat _ _ _ _ _ _ (outcome_w _) (outcome_orders _)))))
      (outcome_when _ _ _ _ (outcome_cat _ _ _ _ _ _ (outcome_w _) (outcome_when _ _ _ _ (outcome_w _)))))
      (outcome_when _ _ _ _ (outcome_cat _ _ _ _ _ _ (outcome_w _) (outcome_when _ _ _ _ (outcome_w _)))))
      (outcome_when _ _ _ _ (outcome_cat _ _ _ _ _ _ (outcome_w _) (outcome_w _))))
      (outcome_when _ _ _ _ (outcome_w _)))); tauto. }
  apply (outcome_mono _ _ _ _ _ (outcome_cat _ _ _ _ _ _ (outcome_cat _ _ _ _ _ _ OH OM) OT)).
  - rewrite select_gap_iff. unfold select_gap.
    assert (s_exprs s <> []) by (intro K; rewrite K in E; discriminate E). tauto.
  - rewrite !Exists_exists. intros [[[(q & I & N & B & G)|[(i & I & G)|H]]|[(j & I & G)|[[B G]|[B G]]]]|[]].
    + exact (nil_part _ _ (written_with s q I N B) G).
    + destruct i; cbn [nil_in_item] in G; try contradiction.
      * apply nil_item. exact I.
      * exact (nil_part _ _ (written_item s _ _ I (or_introl eq_refl)) G).
      * exact (nil_part _ _ (written_item s _ _ I (or_intror eq_refl)) G).
    + apply nil_table. exact H.
    + exact (nil_part _ _ (written_join s j I) G).
    + exact (nil_part _ _ (written_where s B) G).
    + exact (nil_part _ _ (written_having s B) G).
Qed.

Ltac by_parts H := apply (outcome_mono _ _ _ _ _ H).
Ltac gap_cases := let K := fresh "K" in intro K; inversion K; subst; try contradiction;
  repeat match goal with W : written _ _ |- _ => inversion W; subst; clear W end.

Theorem written_or_missing : forall e, ~ wraps_nil e -> decided e.
Proof.
  apply (expr_children_ind (fun e => ~ wraps_nil e -> decided e)).
  intros e IH0 W. pose proof (wraps_child_not e W) as WC.
  assert (IH : forall x, In x (children e) -> decided x) by (intros x I; exact (IH0 x I (WC x I))).
  destruct e as [|g|g|l|l|s|x|f l|l o r|x o v|g o f a t|x|x|s|l r|l o r]; cbn [children] in *; unfold decided; cbn [write_expr].
  - right. eexists. split; [reflexivity|]. split; [constructor|right; split; [reflexivity|constructor]].
  - by_parts (outcome_ident g); [split; [intros []|gap_cases]|intros []].
  - by_parts (outcome_value g); [split; [intros []|gap_cases]|intros []].
  - by_parts (outcome_sep (fun x => w "(" +++ write_expr x +++ w ")") gap nil_inside ", " l (fun x I =>
      outcome_mono _ _ (gap x) _ (nil_inside x) (outcome_cat _ _ _ _ _ _ (outcome_cat _ _ _ _ _ _ (outcome_w _) (IH x I)) (outcome_w _)) ltac:(tauto) ltac:(tauto))).
    + rewrite Exists_exists. split; [intros (x & I & G); exact (gap_part _ _ (written_row l x I) G)|gap_cases; eauto].
    + rewrite Exists_exists. intros (x & I & G). exact (nil_part _ _ (written_row l x I) G).
  - by_parts (outcome_sep write_expr gap nil_inside ", " l IH).
    + rewrite Exists_exists. split; [intros (x & I & G); exact (gap_part _ _ (written_element l x I) G)|gap_cases; eauto].
    + rewrite Exists_exists. intros (x & I & G). exact (nil_part _ _ (written_element l x I) G).
  - by_parts (outcome_w s); [split; [intros []|gap_cases]|intros []].
  - by_parts (outcome_cat _ _ _ _ _ _ (outcome_cat _ _ _ _ _ _ (outcome_w "(") (IH x (or_introl eq_refl))) (outcome_w ")")).
    + split; [intros [[[]|G]|[]]; exact (gap_part _ _ (written_wrapped x) G)|gap_cases; tauto].
    + intros [[[]|G]|[]]; exact (nil_part _ _ (written_wrapped x) G).
  - by_parts (outcome_cat _ _ _ _ _ _ (outcome_cat _ _ _ _ _ _ (outcome_w (f ++ "(")) (outcome_sep write_expr gap nil_inside ", " l IH)) (outcome_w ")")).
    + rewrite Exists_exists. split; [intros [[[]|(x & I & G)]|[]]; exact (gap_part _ _ (written_argument f l x I) G)|gap_cases; eauto].
    + rewrite Exists_exists. intros [[[]|(x & I & G)]|[]]. exact (nil_part _ _ (written_argument f l x I) G).
  - by_parts (outcome_defined (EInfix l o r) _ _ _ W ltac:(discriminate) I
      (outcome_cat _ _ _ _ _ _ (outcome_cat _ _ _ _ _ _ (outcome_cat _ _ _ _ _ _ (outcome_cat _ _ _ _ _ _ (outcome_w "(")
        (IH l (or_introl eq_refl))) (outcome_w (" " ++ match o with Some s => s | None => "" end ++ " ")))
        (IH r (or_intror (or_introl eq_refl)))) (outcome_w ")"))).
    + split; [intros [B|[[[[[]|G]|[]]|G]|[]]]|].
      * apply gap_operand; [exact I|exact B].
      * exact (gap_part _ _ (written_left l o r) G).
      * exact (gap_part _ _ (written_right l o r) G).
      * gap_cases; tauto.
    + intros [[[[[]|G]|[]]|G]|[]]; [exact (nil_part _ _ (written_left l o r) G)|exact (nil_part _ _ (written_right l o r) G)].
  - assert (Ov : outcome (w "(" +++ write_expr x +++ w (" " ++ o ++ " (") +++ unless (is_empty v) (write_expr v) +++ w "))")
               (gap x \/ clause_gap v \/ v = ENil) (nil_inside x \/ ~ blank v /\ nil_inside v \/ v = ENil)).
    { assert (U : outcome (unless (is_empty v) (write_expr v)) (clause_gap v \/ v = ENil) (~ blank v /\ nil_inside v \/ v = ENil)).
      { destruct (is_nil v) eqn:Ev.
        - destruct v; try discriminate Ev. right. eexists. split; [reflexivity|]. split; [right; reflexivity|right; split; [reflexivity|right; reflexivity]].
        - assert (Nv : v <> ENil) by (intros ->; discriminate Ev).
          assert (Wv : ~ wraps_nil v) by (apply WC; right; left; reflexivity).
          unfold unless, clause_gap. destruct (emptiness v Wv Nv) as [[-> B]|[-> B]]; cbn [bind].
          + by_parts (@outcome_ok trace []); tauto.
          + by_parts (IH v (or_intror (or_introl eq_refl))); tauto. }
      by_parts (outcome_cat _ _ _ _ _ _ (outcome_cat _ _ _ _ _ _ (outcome_cat _ _ _ _ _ _ (outcome_cat _ _ _ _ _ _ (outcome_w "(")
        (IH x (or_introl eq_refl))) (outcome_w (" " ++ o ++ " ("))) U) (outcome_w "))")); tauto. }
    unfold defined. destruct (emptiness (EIn x o v) W ltac:(discriminate)) as [[-> B]|[-> B]]; cbn [bind].
    { right. eexists. split; [reflexivity|]. split; [apply gap_operand; [exact I|exact B]|].
      left. eexists. split; [reflexivity|]. cbn. tauto. }
    assert (Nv : v <> ENil) by (intros ->; apply B; apply blank_in_values; reflexivity).
    by_parts Ov.
    + split; [intros [G|[[B' G]|G]]|].
      * exact (gap_part _ _ (written_tested x o v) G).
      * exact (gap_part _ _ (written_values x o v B') G).
      * contradiction.
      * gap_cases; unfold clause_gap; tauto.
    + intros [G|[[B' G]|G]]; [exact (nil_part _ _ (written_tested x o v) G)|exact (nil_part _ _ (written_values x o v B') G)|contradiction].
  - by_parts (outcome_defined (EBetween g o f a t) _ _ _ W ltac:(discriminate) I
      (outcome_cat _ _ _ _ _ _ (outcome_cat _ _ _ _ _ _ (outcome_cat _ _ _ _ _ _ (outcome_cat _ _ _ _ _ _ (outcome_cat _ _ _ _ _ _
        (outcome_cat _ _ _ _ _ _ (outcome_w "(") (outcome_ident g)) (outcome_w (" " ++ o ++ " ")))
        (IH f (or_introl eq_refl))) (outcome_w (" " ++ a ++ " "))) (IH t (or_intror (or_introl eq_refl)))) (outcome_w ")"))).
    + split; [|gap_cases; tauto].
      intros [B|[[[[[[[]|[]]|[]]|G]|[]]|G]|[]]].
      * apply gap_operand; [exact I|exact B].
      * exact (gap_part _ _ (written_from g o f a t) G).
      * exact (gap_part _ _ (written_to g o f a t) G).
    + intros [[[[[[[]|[]]|[]]|G]|[]]|G]|[]]; [exact (nil_part _ _ (written_from g o f a t) G)|exact (nil_part _ _ (written_to g o f a t) G)].
  - by_parts (outcome_cat _ _ _ _ _ _ (outcome_cat _ _ _ _ _ _ (outcome_w "EXISTS (") (IH x (or_introl eq_refl))) (outcome_w ")")).
    + split; [intros [[[]|G]|[]]; exact (gap_part _ _ (written_exists x) G)|gap_cases; tauto].
    + intros [[[]|G]|[]]; exact (nil_part _ _ (written_exists x) G).
  - by_parts (outcome_cat _ _ _ _ _ _ (outcome_cat _ _ _ _ _ _ (outcome_w "NOT EXISTS (") (IH x (or_introl eq_refl))) (outcome_w ")")).
    + split; [intros [[[]|G]|[]]; exact (gap_part _ _ (written_not_exists x) G)|gap_cases; tauto].
    + intros [[[]|G]|[]]; exact (nil_part _ _ (written_not_exists x) G).
  - apply select_outcome. intros x I. split; [exact (WC x I)|exact (IH x I)].
  - by_parts (outcome_cat _ _ _ _ _ _ (outcome_cat _ _ _ _ _ _ (outcome_column l) (outcome_w " = ")) (outcome_column r)).
    + split; [tauto|gap_cases].
    + tauto.
  - by_parts (outcome_defined (EInfixOn l o r) _ _ _ W ltac:(discriminate) I
      (outcome_cat _ _ _ _ _ _ (outcome_cat _ _ _ _ _ _ (outcome_cat _ _ _ _ _ _ (outcome_cat _ _ _ _ _ _ (outcome_w "(")
        (IH l (or_introl eq_refl))) (outcome_w (" " ++ o ++ " ")))
        (IH r (or_intror (or_introl eq_refl)))) (outcome_w ")"))).
    + split; [intros [B|[[[[[]|G]|[]]|G]|[]]]|].
      * apply gap_operand; [exact I|exact B].
      * exact (gap_part _ _ (written_on_left l o r) G).
      * exact (gap_part _ _ (written_on_right l o r) G).
      * gap_cases; tauto.
    + intros [[[[[]|G]|[]]|G]|[]]; [exact (nil_part _ _ (written_on_left l o r) G)|exact (nil_part _ _ (written_on_right l o r) G)].
Qed.
End Writing.
