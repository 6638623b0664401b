(* Calls with nothing missing in their arguments give statements with nothing missing. *)
From Coq Require Import Permutation.
From Verif Require Export GapsApi GapsStmtP.
From Verif Require Import JoinP.
Local Open Scope list_scope.

(* ------------------------------------------------------------------------- *)
(* Expressions                                                                 *)
(* ------------------------------------------------------------------------- *)

Ltac no_wrap := let W := fresh "W" in intro W; inversion W; subst; cbn [children In] in *;
  try match goal with H : False |- _ => destruct H end.

Lemma wraps_infix : forall l o r, wraps_nil (EInfix l o r) <-> wraps_nil l \/ wraps_nil r.
Proof.
  intros l o r. split.
  - no_wrap. match goal with H : _ \/ _ |- _ => destruct H as [<- | [<- | []]] end; tauto.
  - intros [H|H]; (eapply wraps_child; [|exact H]); cbn; tauto.
Qed.
Lemma wraps_infix_on : forall l o r, wraps_nil (EInfixOn l o r) <-> wraps_nil l \/ wraps_nil r.
Proof.
  intros l o r. split.
  - no_wrap. match goal with H : _ \/ _ |- _ => destruct H as [<- | [<- | []]] end; tauto.
  - intros [H|H]; (eapply wraps_child; [|exact H]); cbn; tauto.
Qed.
Lemma gap_infix : forall l o r, gap (EInfix l o r) <-> blank (EInfix l o r) \/ gap l \/ gap r.
Proof.
  intros l o r. split.
  - intro H. inversion H; subst; [tauto|]. match goal with W : written _ _ |- _ => inversion W; subst end; tauto.
  - intros [H|[H|H]]; [apply gap_operand; [exact I|exact H]|exact (gap_part _ _ (written_left l o r) H)|exact (gap_part _ _ (written_right l o r) H)].
Qed.
Lemma gap_infix_on : forall l o r, gap (EInfixOn l o r) <-> blank (EInfixOn l o r) \/ gap l \/ gap r.
Proof.
  intros l o r. split.
  - intro H. inversion H; subst; [tauto|]. match goal with W : written _ _ |- _ => inversion W; subst end; tauto.
  - intros [H|[H|H]]; [apply gap_operand; [exact I|exact H]|exact (gap_part _ _ (written_on_left l o r) H)|exact (gap_part _ _ (written_on_right l o r) H)].
Qed.
Lemma blank_infix : forall l o r, blank (EInfix l (Some o) r) <-> blank l \/ o = "" \/ blank r.
Proof.
  intros l o r. split.
  - intro H. inversion H; subst; try tauto. match goal with K : _ \/ _ |- _ => destruct K as [K|K]; [discriminate K|injection K as ->] end. tauto.
  - intros [H|[->|H]]; [apply blank_infix_left; exact H|apply blank_infix_op; right; reflexivity|apply blank_infix_right; exact H].
Qed.
Lemma blank_infix_on : forall l o r, blank (EInfixOn l o r) <-> blank l \/ o = "" \/ blank r.
Proof.
  intros l o r. split.
  - intro H. inversion H; subst; tauto.
  - intros [H|[H|H]]; [apply blank_infix_on_left; exact H|apply blank_infix_on_op; exact H|apply blank_infix_on_right; exact H].
Qed.

(* AND, OR and comparisons. *)
Lemma solid_infix : forall l o r, o <> "" -> (solid (EInfix l (Some o) r) <-> solid l /\ solid r).
Proof.
  intros l o r N. unfold solid, fine. rewrite gap_infix, blank_infix, wraps_infix. tauto.
Qed.
Lemma solid_infix_on : forall l o r, o <> "" -> (solid (EInfixOn l o r) <-> solid l /\ solid r).
Proof.
  intros l o r N. unfold solid, fine. rewrite gap_infix_on, blank_infix_on, wraps_infix_on. tauto.
Qed.
Lemma solid_wrap : forall e, solid (EWrap e) <-> solid e.
Proof.
  intro e. unfold solid, fine.
  assert (B : blank (EWrap e) <-> blank e) by (split; [intro H; inversion H; assumption|constructor; assumption]).
  assert (G : gap (EWrap e) <-> gap e).
  { split; [|exact (gap_part _ _ (written_wrapped e))]. intro H. inversion H; subst; [contradiction|].
    match goal with W : written _ _ |- _ => inversion W; subst end. assumption. }
  assert (W : wraps_nil (EWrap e) <-> e = ENil \/ wraps_nil e).
  { split; [|intros [-> | W]; [constructor|apply (wraps_child _ e); [left; reflexivity|exact W]]].
    intro H. inversion H; subst; [left; reflexivity|]. cbn in *. right. destruct H0 as [<- | []]. assumption. }
  rewrite B, G, W. split; [tauto|]. intros (b & g & w). repeat split; try assumption. intros [-> | K]; [apply b; constructor|contradiction].
Qed.
Lemma fine_wrapped : forall e, e <> ENil -> (fine (EWrap e) <-> fine e).
Proof.
  intros e N. unfold fine.
  assert (G : gap (EWrap e) <-> gap e).
  { split; [|exact (gap_part _ _ (written_wrapped e))]. intro H. inversion H; subst; [contradiction|].
    match goal with W : written _ _ |- _ => inversion W; subst end. assumption. }
  assert (W : wraps_nil (EWrap e) <-> wraps_nil e).
  { split; [|intro W; apply (wraps_child _ e); [left; reflexivity|exact W]].
    intro H. inversion H; subst; [contradiction N; reflexivity|]. cbn in *. destruct H0 as [<- | []]. assumption. }
  rewrite G, W. tauto.
Qed.
Lemma solid_wrapper : forall e, solid (new_wrapper e) <-> solid e.
Proof. intros []; cbn [new_wrapper]; try tauto; apply solid_wrap. Qed.
Lemma fine_wrapper : forall e, fine (new_wrapper e) <-> fine e.
Proof. intros []; cbn [new_wrapper]; try tauto; apply fine_wrapped; discriminate. Qed.

Lemma fine_value_expr : forall g, fine (EValue g).
Proof. intro g. split; [intro H; inversion H; subst; [contradiction|match goal with W : written _ _ |- _ => inversion W end]|no_wrap]. Qed.
Lemma solid_value_expr : forall g, solid (EValue g).
Proof. intro g. split; [intro H; inversion H|apply fine_value_expr]. Qed.
Lemma fine_ident : forall g, fine (EIdent g).
Proof. intro g. split; [intro H; inversion H; subst; [contradiction|match goal with W : written _ _ |- _ => inversion W end]|no_wrap]. Qed.
Lemma solid_ident : forall g, solid (EIdent g) <-> g <> GStr "".
Proof.
  intro g. unfold solid. split; [intros [H _] ->; apply H; constructor|]. intro N. split; [|apply fine_ident].
  intro H. inversion H; subst. contradiction N; reflexivity.
Qed.

Lemma new_expression_operand : forall v e, new_expression v = Ok e ->
  match expr_of v with Some x => e = x | None => exists g, e = EValue g end.
Proof.
  intros v e H. destruct v; cbn [new_expression expr_of] in *; try discriminate H; try (injection H as <-; eexists; reflexivity).
  - destruct t; [injection H as <-; eexists; reflexivity|discriminate H].
  - destruct k; try discriminate H. injection H as <-. eexists. reflexivity.
  - destruct e0 as [[]|]; try discriminate H; injection H as <-; reflexivity.
  - destruct e0; injection H as <-; try reflexivity. eexists. reflexivity.
Qed.

Lemma solid_operand : forall v e, new_expression v = Ok e -> (solid e <-> solid_value v).
Proof.
  intros v e H. apply new_expression_operand in H. unfold solid_value. destruct (expr_of v).
  - subst e. split; [intros S x E; injection E as <-; exact S|intro S; exact (S _ eq_refl)].
  - destruct H as (g & ->). split; [intros _ x E; discriminate E|intros _; apply solid_value_expr].
Qed.
Lemma fine_operand : forall v e, new_expression v = Ok e -> (fine e <-> fine_value v).
Proof.
  intros v e H. apply new_expression_operand in H. unfold fine_value. destruct (expr_of v).
  - subst e. split; [intros S x E; injection E as <-; exact S|intro S; exact (S _ eq_refl)].
  - destruct H as (g & ->). split; [intros _ x E; discriminate E|intros _; apply fine_value_expr].
Qed.

Lemma cmp_text_some : forall o, cmp_text o <> "".
Proof. intros []; discriminate. Qed.

(* left.Equal(v), ... *)
Lemma solid_cmp : forall l o v e, cmp_expr l o v = Ok e -> (solid e <-> solid l /\ solid_value v).
Proof.
  intros l o v e H. unfold cmp_expr, infix_wrapped, infix_plain in H.
  destruct (new_expression v) as [x|] eqn:E; [|destruct (cmp_wraps o); discriminate H]. cbn [bind] in H.
  destruct (cmp_wraps o); injection H as <-; rewrite solid_infix by apply cmp_text_some; rewrite ?solid_wrapper, (solid_operand v x E); tauto.
Qed.

Lemma map_res_in {A B} (f : A -> res B) : forall l m, map_res f l = Ok m -> forall y, In y m -> exists x, In x l /\ f x = Ok y.
Proof.
  induction l as [|x l IH]; intros m H y I; cbn [map_res] in H; [injection H as <-; destruct I|].
  destruct (f x) as [z|] eqn:E; [|discriminate H]. cbn [bind] in H. destruct (map_res f l) as [zs|]; [|discriminate H].
  cbn [bind] in H. injection H as <-. destruct I as [<- | I]; [exists x; split; [left; reflexivity|exact E]|].
  destruct (IH zs eq_refl y I) as (x' & I' & E'). exists x'. split; [right; exact I'|exact E'].
Qed.
Lemma map_res_in_fwd {A B} (f : A -> res B) : forall l m, map_res f l = Ok m -> forall x, In x l -> exists y, In y m /\ f x = Ok y.
Proof.
  induction l as [|x l IH]; intros m H y I; cbn [map_res] in H; [destruct I|].
  destruct (f x) as [z|] eqn:E; [|discriminate H]. cbn [bind] in H. destruct (map_res f l) as [zs|]; [|discriminate H].
  cbn [bind] in H. injection H as <-. destruct I as [<- | I]; [exists z; split; [left; reflexivity|exact E]|].
  destruct (IH zs eq_refl y I) as (x' & I' & E'). exists x'. split; [right; exact I'|exact E'].
Qed.

Lemma to_array_elements : forall v, to_array v = map_res new_expression (elements [v]).
Proof.
  intro v. destruct v; try reflexivity.
  - destruct k; reflexivity.
  - match goal with |- to_array (GExpr ?x) = _ => destruct x; reflexivity end.
Qed.
Lemma array_elements : forall values e, new_array values = Ok e ->
  exists l, e = EArray l /\ map_res new_expression (elements values) = Ok l.
Proof.
  intros values e H. unfold new_array in H.
  assert (K : match values with [v] => to_array v | _ => map_res new_expression values end = map_res new_expression (elements values)).
  { destruct values as [|v [|]]; [reflexivity|apply to_array_elements|reflexivity]. }
  rewrite K in H. destruct (map_res new_expression (elements values)) as [l|]; [|discriminate H].
  cbn [bind] in H. injection H as <-. exists l. split; reflexivity.
Qed.

Lemma fine_array : forall l, fine (EArray l) <-> Forall fine l.
Proof.
  intro l. rewrite Forall_forall. unfold fine. split.
  - intros [G W] x I. split; [intro K; apply G; exact (gap_part _ _ (written_element l x I) K)|intro K; apply W; exact (wraps_child (EArray l) x I K)].
  - intro H. split.
    + intro K. inversion K; subst; [contradiction|]. match goal with W : written _ _ |- _ => inversion W; subst end. destruct (H x ltac:(assumption)). contradiction.
    + no_wrap. destruct (H x ltac:(assumption)). contradiction.
Qed.
Lemma fine_rows : forall l, fine (EArrayList l) <-> Forall fine l.
Proof.
  intro l. rewrite Forall_forall. unfold fine. split.
  - intros [G W] x I. split; [intro K; apply G; exact (gap_part _ _ (written_row l x I) K)|intro K; apply W; exact (wraps_child (EArrayList l) x I K)].
  - intro H. split.
    + intro K. inversion K; subst; [contradiction|]. match goal with W : written _ _ |- _ => inversion W; subst end. destruct (H x ltac:(assumption)). contradiction.
    + no_wrap. destruct (H x ltac:(assumption)). contradiction.
Qed.

Lemma fine_new_array : forall values e, new_array values = Ok e ->
  (fine e <-> Forall fine_value (elements values)).
Proof.
  intros values e H. destruct (array_elements values e H) as (l & -> & M). rewrite fine_array, !Forall_forall. split.
  - intros F v I. destruct (map_res_in_fwd _ _ _ M v I) as (x & Ix & E). apply (fine_operand v x E). exact (F x Ix).
  - intros F x I. destruct (map_res_in _ _ _ M x I) as (v & Iv & E). apply (fine_operand v x E). exact (F v Iv).
Qed.

(* left.In(values...), left.NotIn(values...) *)
Lemma solid_in : forall l o values a, o <> "" -> new_array values = Ok a ->
  (solid (EIn l o a) <-> solid l /\ Forall fine_value (elements values)).
Proof.
  intros l o values a No H. rewrite <- (fine_new_array values a H).
  destruct (array_elements values a H) as (m & -> & _). unfold solid.
  assert (B : blank (EIn l o (EArray m)) <-> blank l).
  { split; [intro K; inversion K; subst; try assumption; try discriminate; contradiction|apply blank_in_left]. }
  assert (G : ~ blank l -> (gap (EIn l o (EArray m)) <-> gap l \/ gap (EArray m))).
  { intro Nb. split.
    - intro K. inversion K; subst.
      + rewrite B in *. contradiction.
      + match goal with W : written _ _ |- _ => inversion W; subst end; tauto.
    - intros [K|K]; [exact (gap_part _ _ (written_tested l o _) K)|].
      refine (gap_part _ _ (written_values l o _ _) K). intro Kb. inversion Kb; subst.
      exact (proj1 (proj2 (fine_array []) (Forall_nil _)) K). }
  assert (W : ~ blank l -> (wraps_nil (EIn l o (EArray m)) <-> wraps_nil l \/ wraps_nil (EArray m))).
  { intro Nb. split.
    - no_wrap; [contradiction Nb; constructor|]. match goal with H : _ \/ _ |- _ => destruct H as [<- | [<- | []]] end; tauto.
    - intros [K|K]; (eapply wraps_child; [|exact K]); cbn; tauto. }
  rewrite B. unfold fine. split.
  - intros (b & g & wn). rewrite (G b) in g. rewrite (W b) in wn. tauto.
  - intros ((b & g & wn) & ga & wa). rewrite (G b), (W b). tauto.
Qed.

Lemma solid_between : forall g o f a t, o <> "" -> a <> "" ->
  (solid (EBetween g o f a t) <-> g <> GStr "" /\ solid f /\ solid t).
Proof.
  intros g o f a t No Na.
  assert (B : blank (EBetween g o f a t) <-> g = GStr "" \/ blank f \/ blank t).
  { split.
    - intro K. inversion K; subst; try tauto.
    - intros [K|[K|K]]; [apply blank_between_name|apply blank_between_from|apply blank_between_to]; exact K. }
  assert (G : gap (EBetween g o f a t) <-> blank (EBetween g o f a t) \/ gap f \/ gap t).
  { split.
    - intro K. inversion K; subst; [tauto|]. match goal with W : written _ _ |- _ => inversion W; subst end; tauto.
    - intros [K|[K|K]]; [apply gap_operand; [exact I|exact K]|exact (gap_part _ _ (written_from g o f a t) K)|exact (gap_part _ _ (written_to g o f a t) K)]. }
  assert (W : wraps_nil (EBetween g o f a t) <-> wraps_nil f \/ wraps_nil t).
  { split.
    - no_wrap. match goal with H : _ \/ _ |- _ => destruct H as [<- | [<- | []]] end; tauto.
    - intros [K|K]; (eapply wraps_child; [|exact K]); cbn; tauto. }
  unfold solid, fine. rewrite G, B, W. tauto.
Qed.

Lemma solid_exists : forall e, (solid (EExists e) <-> fine e) /\ (solid (ENotExists e) <-> fine e).
Proof.
  intro e. unfold solid, fine. split; (split;
    [intros (_ & G & W); split; [intro K; apply G; eapply gap_part; [constructor|exact K]|intro K; apply W; eapply wraps_child; [left; reflexivity|exact K]]
    |intros [G W]; split; [intro K; inversion K|split;
      [intro K; inversion K; subst; [contradiction|match goal with W' : written _ _ |- _ => inversion W'; subst end; contradiction]
      |no_wrap; match goal with H : _ \/ _ |- _ => destruct H as [<- | []] end; contradiction]]]).
Qed.
