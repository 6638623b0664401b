(* Proofs for C01 at the level of programs. *)
From Coq Require Import String List ZArith.
From Verif Require Import Ast Write Api Parser Build Sql Template ExprInd SubstP RenderP EraseP Alike.
Import ListNotations.
Local Open Scope string_scope.
Local Open Scope list_scope.

(* Both results are fine and related, or both are the same panic. *)
Definition res_rel {A} (P : A -> A -> Prop) (r r' : res A) : Prop :=
  match r, r' with
  | Ok a, Ok a' => P a a'
  | Panic p, Panic p' => p = p'
  | _, _ => False
  end.

Lemma res_rel_bind {A B} (P : A -> A -> Prop) (Q : B -> B -> Prop) : forall r r' f f',
  res_rel P r r' -> (forall a a', P a a' -> res_rel Q (f a) (f' a')) -> res_rel Q (bind r f) (bind r' f').
Proof. intros [a|p] [a'|p'] f f' H K; cbn in *; try contradiction; [apply K; exact H|exact H]. Qed.
Lemma res_rel_same {A} (P : A -> A -> Prop) : (forall a, P a a) -> forall r, res_rel P r r.
Proof. intros H [a|p]; cbn; auto. Qed.
Lemma res_rel_ok {A} (P : A -> A -> Prop) : forall r r' a a', res_rel P r r' -> r = Ok a -> r' = Ok a' -> P a a'.
Proof. intros r r' a a' H -> ->. exact H. Qed.
Lemma res_rel_eq {A B} (Q : B -> B -> Prop) : forall (r r' : res A) f f',
  r = r' -> (forall a, res_rel Q (f a) (f' a)) -> res_rel Q (bind r f) (bind r' f').
Proof. intros [a|p] r' f f' <- K; cbn; auto. Qed.

Lemma map_res_rel {A B} (P : A -> A -> Prop) (Q : B -> B -> Prop) f f' : forall l l',
  Forall2 P l l' -> (forall a a', P a a' -> res_rel Q (f a) (f' a')) -> res_rel (Forall2 Q) (map_res f l) (map_res f' l').
Proof.
  intros l l' H K. induction H as [|a a' l l' Ha H IH]; cbn [map_res]; [constructor|].
  apply (res_rel_bind Q); [apply K; exact Ha|]. intros b b' Hb.
  apply (res_rel_bind (Forall2 Q)); [exact IH|]. intros c c' Hc. constructor; assumption.
Qed.
Lemma fold_res_rel {A B} (P : A -> A -> Prop) (Q : B -> B -> Prop) f : forall l l',
  Forall2 Q l l' -> (forall a a' b b', P a a' -> Q b b' -> res_rel P (f a b) (f a' b')) ->
  forall a a', P a a' -> res_rel P (fold_res f l a) (fold_res f l' a').
Proof.
  intros l l' H K. induction H as [|b b' l l' Hb H IH]; intros a a' Ha; cbn [fold_res]; [exact Ha|].
  apply (res_rel_bind P); [apply K; assumption|]. intros x x' Hx. apply IH. exact Hx.
Qed.

Lemma Forall2_flat_map {A B} (P : A -> A -> Prop) (Q : B -> B -> Prop) f : forall l l',
  Forall2 P l l' -> (forall a a', P a a' -> Forall2 Q (f a) (f a')) -> Forall2 Q (flat_map f l) (flat_map f l').
Proof.
  intros l l' H K. induction H as [|a a' l l' Ha H IH]; cbn; [constructor|].
  apply Forall2_app; [apply K; exact Ha|exact IH].
Qed.
Lemma Forall2_map_eq {A B} (P : A -> A -> Prop) (f : A -> B) : forall l l',
  Forall2 P l l' -> (forall a a', P a a' -> f a = f a') -> map f l = map f l'.
Proof.
  intros l l' H K. induction H as [|a a' l l' Ha H IH]; cbn; [reflexivity|]. rewrite (K _ _ Ha), IH. reflexivity.
Qed.
Lemma Forall2_same {A} (P : A -> A -> Prop) : (forall a, P a a) -> forall l, Forall2 P l l.
Proof. intros H l. induction l; constructor; auto. Qed.
Lemma Forall2_nonempty {A} (P : A -> A -> Prop) : forall l l', Forall2 P l l' -> nonempty l = nonempty l'.
Proof. intros l l' H. destruct H; reflexivity. Qed.

Lemma true_kept : forall g : gval, g <> GNil -> (fun _ : gval => GBool true : gval) g <> GNil.
Proof. discriminate. Qed.

Section Proofs.
  Context (R : gval -> gval -> Prop) (Rr : forall v, R v v).

  Definition A (e e' : expr) : Prop := erase e = erase e' /\ Forall2 R (values_of e) (values_of e').

  Lemma A_same : forall e, A e e.
  Proof. intro e. split; [reflexivity|]. apply Forall2_same, Rr. Qed.
  Lemma A_nil : forall e e', A e e' -> is_nil e = is_nil e'.
  Proof.
    intros e e' [H _]. rewrite <- (subst_nil (fun _ => GBool true) e), <- (subst_nil (fun _ => GBool true) e').
    unfold erase in H. rewrite H. reflexivity.
  Qed.
  Lemma A_cond_empty : forall e e', A e e' -> cond_empty e = cond_empty e'.
  Proof.
    intros e e' [H _]. rewrite <- (subst_cond_empty (fun _ => GBool true) e), <- (subst_cond_empty (fun _ => GBool true) e').
    unfold erase in H. rewrite H. reflexivity.
  Qed.
  Lemma A_kept : forall e e', A e e' -> Forall2 R (if_kept e (values_of e)) (if_kept e' (values_of e')).
  Proof.
    intros e e' H. unfold if_kept, kept. rewrite (A_cond_empty _ _ H). destruct (cond_empty e') as [[]|]; try constructor. apply H.
  Qed.
  Lemma A_infix : forall l l' o r r', A l l' -> A r r' -> A (EInfix l o r) (EInfix l' o r').
  Proof.
    intros l l' o r r' [H1 V1] [H2 V2]. split; [|cbn; apply Forall2_app; assumption].
    unfold erase in *. cbn [subst]. rewrite H1, H2. reflexivity.
  Qed.
  Lemma A_value : forall v v', v <> GNil -> v' <> GNil -> R v v' -> A (EValue v) (EValue v').
  Proof.
    intros v v' N N' H. split; [rewrite !erase_value by assumption; reflexivity|].
    assert (V : forall x, x <> GNil -> values_of (EValue x) = [x]) by (intros []; try reflexivity; congruence).
    rewrite !V by assumption. constructor; [exact H|constructor].
  Qed.
  Lemma wrapper_cases : forall e, (new_wrapper e = EWrap e /\ new_wrapper (erase e) = EWrap (erase e))
                                  \/ (new_wrapper e = e /\ new_wrapper (erase e) = erase e).
  Proof. intros []; cbn; auto. Qed.
  Lemma A_wrapper : forall e e', A e e' -> A (new_wrapper e) (new_wrapper e').
  Proof.
    intros e e' [H V].
    assert (W : erase (new_wrapper e) = erase (new_wrapper e')).
    { assert (C : forall x, erase (new_wrapper x) = new_wrapper (erase x)) by (intros []; reflexivity).
      rewrite !C, H. reflexivity. }
    split; [exact W|].
    assert (C : forall x, values_of (new_wrapper x) = values_of x) by (intros []; reflexivity).
    rewrite !C. exact V.
  Qed.
  Lemma A_list : forall l l', Forall2 A l l' -> map erase l = map erase l' /\ Forall2 R (flat_map values_of l) (flat_map values_of l').
  Proof.
    intros l l' H. split; [apply (Forall2_map_eq A); [exact H|intros a a' [E _]; exact E]|].
    apply (Forall2_flat_map A); [exact H|]. intros a a' [_ V]. exact V.
  Qed.
  Lemma A_array : forall l l', Forall2 A l l' -> A (EArray l) (EArray l').
  Proof.
    intros l l' H. destruct (A_list _ _ H) as [E V]. split; [|exact V].
    change (EArray (map erase l) = EArray (map erase l')). rewrite E. reflexivity.
  Qed.
  Lemma A_array_list : forall l l', Forall2 A l l' -> A (EArrayList l) (EArrayList l').
  Proof.
    intros l l' H. destruct (A_list _ _ H) as [E V]. split; [|exact V].
    change (EArrayList (map erase l) = EArrayList (map erase l')). rewrite E. reflexivity.
  Qed.
  Lemma A_call : forall f l l', Forall2 A l l' -> A (ECall f l) (ECall f l').
  Proof.
    intros f l l' H. destruct (A_list _ _ H) as [E V]. split; [|exact V].
    change (ECall f (map erase l) = ECall f (map erase l')). rewrite E. reflexivity.
  Qed.
  Lemma A_in : forall e e' o v v', A e e' -> A v v' -> A (EIn e o v) (EIn e' o v').
  Proof.
    intros e e' o v v' H1 H2. split; [|cbn; apply Forall2_app; [apply H1|apply A_kept, H2]].
    destruct H1 as [H1 _], H2 as [H2 _]. unfold erase in *. cbn [subst]. rewrite H1, H2. reflexivity.
  Qed.
  Lemma A_between : forall id o a a' n b b', A a a' -> A b b' -> A (EBetween id o a n b) (EBetween id o a' n b').
  Proof.
    intros id o a a' n b b' [H1 V1] [H2 V2]. split; [|cbn; apply Forall2_app; assumption].
    unfold erase in *. cbn [subst]. rewrite H1, H2. reflexivity.
  Qed.
  Lemma A_exists : forall e e', A e e' -> A (EExists e) (EExists e').
  Proof. intros e e' [H V]. split; [unfold erase in *; cbn [subst]; rewrite H; reflexivity|exact V]. Qed.
  Lemma A_not_exists : forall e e', A e e' -> A (ENotExists e) (ENotExists e').
  Proof. intros e e' [H V]. split; [unfold erase in *; cbn [subst]; rewrite H; reflexivity|exact V]. Qed.

  (* ----------------------------------------------------------------------- *)
  (* Selects                                                                   *)
  (* ----------------------------------------------------------------------- *)

  Definition AW (x x' : withq) : Prop := wq_name x = wq_name x' /\ A (wq_sub x) (wq_sub x').
  Inductive AI : selexpr -> selexpr -> Prop :=
  | AI_same : forall x, AI x x
  | AI_exists : forall e e', A e e' -> AI (SExists e) (SExists e')
  | AI_not : forall e e', A e e' -> AI (SNotExists e) (SNotExists e').

  Definition rest_of (q : select) : select :=
    with_having (with_where (with_exprs (with_with q []) []) ENil) ENil.
  Definition AS (q q' : select) : Prop :=
    rest_of q = rest_of q' /\ Forall2 AW (s_with q) (s_with q') /\ Forall2 AI (s_exprs q) (s_exprs q')
    /\ A (s_where q) (s_where q') /\ A (s_having q) (s_having q').

  Lemma AI_erase : forall x x', AI x x' -> subst_sel erase x = subst_sel erase x'.
  Proof. intros x x' H. destruct H as [x|e e' [H _]|e e' [H _]]; cbn; rewrite ?H; reflexivity. Qed.
  Lemma AI_values : forall x x', AI x x' -> Forall2 R (selexpr_values values_of x) (selexpr_values values_of x').
  Proof. intros x x' H. destruct H as [x|e e' [_ H]|e e' [_ H]]; [apply Forall2_same, Rr|exact H|exact H]. Qed.
  Lemma AI_list_values : forall l l', Forall2 AI l l' ->
    Forall2 R (flat_map (selexpr_values values_of) l) (flat_map (selexpr_values values_of) l').
  Proof. intros l l' H. apply (Forall2_flat_map AI); [exact H|exact AI_values]. Qed.
  Lemma AW_list_values : forall l l', Forall2 AW l l' ->
    Forall2 R (flat_map (with_values values_of) l) (flat_map (with_values values_of) l').
  Proof.
    intros l l' H. apply (Forall2_flat_map AW); [exact H|]. intros x x' [N V]. unfold with_values. rewrite N.
    destruct (no_str (wq_name x')); [constructor|apply A_kept, V].
  Qed.
  Lemma AW_list_erase : forall l l', Forall2 AW l l' -> map (subst_with erase) l = map (subst_with erase) l'.
  Proof.
    intros l l' H. apply (Forall2_map_eq AW); [exact H|]. intros x x' [N [V _]]. unfold subst_with. rewrite N, V. reflexivity.
  Qed.
  Lemma AI_list_erase : forall l l', Forall2 AI l l' -> map (subst_sel erase) l = map (subst_sel erase) l'.
  Proof. intros l l' H. apply (Forall2_map_eq AI); [exact H|exact AI_erase]. Qed.

  Ltac fields H := unfold rest_of, with_having, with_where, with_exprs, with_with in H; cbn in H; injection H;
    clear H; intros.

  Lemma AS_same : forall q, AS q q.
  Proof.
    intro q. repeat split; try (apply A_same); try (apply Forall2_same; intros; first [constructor; fail|split; [reflexivity|apply A_same]|constructor]).
    all: apply Forall2_same, Rr.
  Qed.

  Lemma AS_erase : forall q q', AS q q' -> subst_select (fun _ => GBool true) q = subst_select (fun _ => GBool true) q'.
  Proof.
    intros q q' (H & Hw & Hi & [Hc _] & [Hh _]). apply AW_list_erase in Hw. apply AI_list_erase in Hi.
    fields H. unfold subst_select, subst_select_with, erase in *. rewrite Hw, Hi, Hc, Hh. congruence.
  Qed.
  Lemma AS_values : forall q q', AS q q' -> Forall2 R (select_values values_of q) (select_values values_of q').
  Proof.
    intros q q' (H & Hw & Hi & Hc & Hh). unfold select_values.
    apply Forall2_app; [apply AW_list_values, Hw|]. apply Forall2_app; [apply AI_list_values, Hi|].
    apply Forall2_app; [|apply Forall2_app; apply A_kept; assumption].
    assert (J : s_joins q = s_joins q') by (fields H; assumption). rewrite J. apply Forall2_same, Rr.
  Qed.
  Lemma A_select : forall q q', AS q q' -> A (ESelect q) (ESelect q').
  Proof.
    intros q q' H. split; [|exact (AS_values _ _ H)]. pose proof (AS_erase _ _ H) as E.
    unfold erase. cbn [subst]. unfold subst_select in E. rewrite E. reflexivity.
  Qed.

  (* ----------------------------------------------------------------------- *)
  (* Arguments                                                                 *)
  (* ----------------------------------------------------------------------- *)

  Definition G (g g' : gval) : Prop :=
    res_rel A (new_expression g) (new_expression g') /\ row_elems g = row_elems g'.

  Lemma bound_new : forall g v, bound g = Some v ->
    new_expression g = Ok (EValue v) /\ v <> GNil /\ row_elems g = [] /\ to_array g = Ok [EValue v].
  Proof.
    intros g v H. destruct g; cbn in H; try discriminate H;
      try (injection H as <-; repeat split; try reflexivity; discriminate).
    destruct t; [|discriminate H]. injection H as <-. repeat split; try reflexivity; discriminate.
  Qed.
  Lemma array_new : forall g, one_array g = true -> new_expression g = Ok (EValue g) /\ g <> GNil /\ row_elems g = [].
  Proof.
    intros g H. destruct g; try discriminate H; [repeat split; discriminate|].
    destruct k; try discriminate H. repeat split; discriminate.
  Qed.

  Lemma G_same : forall g, G g g.
  Proof. intro g. split; [apply res_rel_same, A_same|reflexivity]. Qed.
  Lemma G_bound : forall g g' v v', bound g = Some v -> bound g' = Some v' -> R v v' ->
    G g g' /\ res_rel (Forall2 A) (to_array g) (to_array g').
  Proof.
    intros g g' v v' H H' Hr. destruct (bound_new _ _ H) as (E & N & W & T), (bound_new _ _ H') as (E' & N' & W' & T').
    unfold G. rewrite E, E', W, W', T, T'. cbn. repeat split; try (apply A_value; assumption).
    constructor; [apply A_value; assumption|constructor].
  Qed.
  Lemma expr_new : forall e, new_expression (GExpr e) = Ok (if is_nil e then EValue GNil else e)
    /\ to_array (GExpr e) = Ok (if is_nil e then [] else [e]).
  Proof. intros []; split; reflexivity. Qed.
  Lemma G_expr : forall e e', A e e' ->
    G (GExpr e) (GExpr e') /\ res_rel (Forall2 A) (to_array (GExpr e)) (to_array (GExpr e')).
  Proof.
    intros e e' H. unfold G. destruct (expr_new e) as [-> ->], (expr_new e') as [-> ->]. rewrite (A_nil _ _ H). cbn.
    destruct (is_nil e'); repeat split; try apply A_same; try exact (proj1 H); try exact (proj2 H); try constructor;
      [exact H|constructor].
  Qed.
  Lemma G_query : forall q q', AS q q' ->
    G (g_select q) (g_select q') /\ res_rel (Forall2 A) (to_array (g_select q)) (to_array (g_select q')).
  Proof.
    intros q q' H. apply A_select in H. split; [split; [exact H|reflexivity]|]. cbn. constructor; [exact H|constructor].
  Qed.
  Lemma G_array : forall g g', one_array g = true -> one_array g' = true -> R g g' -> G g g'.
  Proof.
    intros g g' H H' Hr. destruct (array_new _ H) as (E & N & W), (array_new _ H') as (E' & N' & W').
    unfold G. rewrite E, E', W, W'. split; [apply A_value; assumption|reflexivity].
  Qed.

  Definition first_rows (gs : list gval) : option (list (list gval)) :=
    match gs with [] => None | g :: _ => Some (row_elems g) end.
  Definition GL (gs gs' : list gval) : Prop :=
    res_rel A (new_array gs) (new_array gs') /\ first_rows gs = first_rows gs'.

  Lemma GL_same : forall l, GL l l.
  Proof. intro l. split; [apply res_rel_same, A_same|reflexivity]. Qed.
  Lemma array_rel : forall r r', res_rel (Forall2 A) r r' ->
    res_rel A (do l <- r; Ok (EArray l)) (do l <- r'; Ok (EArray l)).
  Proof. intros r r' H. apply (res_rel_bind (Forall2 A)); [exact H|]. intros l l' K. apply A_array, K. Qed.
  Lemma G_map : forall l l', Forall2 G l l' -> res_rel (Forall2 A) (map_res new_expression l) (map_res new_expression l').
  Proof. intros l l' H. apply (map_res_rel G); [exact H|]. intros a a' [K _]. exact K. Qed.
  Lemma GL_several : forall l l', length l <> 1 -> Forall2 G l l' -> GL l l'.
  Proof.
    intros l l' N H. split.
    - unfold new_array. pose proof (G_map _ _ H) as M. apply array_rel.
      destruct H as [|g g' l l' Hg H]; [exact M|]. destruct H as [|h h' l l' Hh H]; [cbn in N; congruence|]. exact M.
    - destruct H as [|g g' l l' [_ Hg] H]; [reflexivity|]. cbn. rewrite Hg. reflexivity.
  Qed.
  Lemma GL_one : forall g g', G g g' -> res_rel (Forall2 A) (to_array g) (to_array g') -> GL [g] [g'].
  Proof. intros g g' [_ W] H. split; [apply array_rel, H|]. cbn. rewrite W. reflexivity. Qed.
  Lemma elements_array : forall g l, elements g = Some l -> to_array g = map_res new_expression l /\ row_elems g = [].
  Proof.
    intros g l H. destruct g; cbn in H; try discriminate H; try (injection H as <-; split; reflexivity).
    destruct k; try discriminate H; injection H as <-; split; reflexivity.
  Qed.
  Lemma GL_slice : forall g g' l l', elements g = Some l -> elements g' = Some l' -> Forall2 G l l' -> GL [g] [g'].
  Proof.
    intros g g' l l' H H' K. destruct (elements_array _ _ H) as [T W], (elements_array _ _ H') as [T' W'].
    split; [|cbn; rewrite W, W'; reflexivity]. unfold new_array. rewrite T, T'. apply array_rel, G_map, K.
  Qed.
  Lemma GL_array_list : forall l l', GL l l' -> res_rel A (new_array_list l) (new_array_list l').
  Proof.
    intros l l' [H W]. unfold new_array_list. destruct l as [|g l], l' as [|g' l']; try discriminate W; [reflexivity|].
    cbn in W. injection W as W. unfold to_array_list. rewrite W.
    destruct (map_res new_array (row_elems g')) as [rows|p]; [|reflexivity]. cbn [bind].
    destruct (nonempty rows); [apply A_same|]. apply (res_rel_bind A); [exact H|].
    intros a a' K. apply A_array_list. constructor; [exact K|constructor].
  Qed.

  (* ----------------------------------------------------------------------- *)
  (* Items                                                                     *)
  (* ----------------------------------------------------------------------- *)

  Lemma AI_same_list : forall l, Forall2 AI l l.
  Proof. apply Forall2_same. constructor. Qed.

  Lemma item_expr : forall e e', A e e' -> res_rel (Forall2 AI) (to_selexprs1 (GExpr e)) (to_selexprs1 (GExpr e')).
  Proof.
    intros e e' [H V]. unfold to_selexprs1.
    destruct e, e'; cbn in H; try discriminate H; try reflexivity.
    - injection H as <-. apply res_rel_same, AI_same_list.
    - injection H as H. cbn. constructor; [|constructor]. apply AI_exists. split; [exact H|exact V].
    - injection H as H. cbn. constructor; [|constructor]. apply AI_not. split; [exact H|exact V].
  Qed.

  Definition each_item (l : list gval) : res (list selexpr) := concat_res (map to_selexprs1 l).
  Lemma each_item_cons : forall g l, each_item (g :: l) = (do x <- to_selexprs1 g; do y <- each_item l; Ok (x ++ y)).
  Proof.
    intros g l. unfold each_item, concat_res. cbn. destruct (to_selexprs1 g); [|reflexivity]. cbn.
    destruct (map_res _ _); reflexivity.
  Qed.
  Definition PI (l l' : list gval) : Prop :=
    length l = length l' /\ res_rel (Forall2 AI) (each_item l) (each_item l')
    /\ res_rel (Forall2 AI) (to_selexprs l) (to_selexprs l').

  Lemma items_each : forall g h l, to_selexprs (g :: h :: l) = each_item (g :: h :: l).
  Proof. intros g h l. destruct g; reflexivity. Qed.
  Lemma item_cons : forall g g' l l', res_rel (Forall2 AI) (to_selexprs1 g) (to_selexprs1 g') -> PI l l' ->
    res_rel (Forall2 AI) (each_item (g :: l)) (each_item (g' :: l')).
  Proof.
    intros g g' l l' H (_ & K & _). rewrite !each_item_cons. apply (res_rel_bind (Forall2 AI)); [exact H|].
    intros x x' Hx. apply (res_rel_bind (Forall2 AI)); [exact K|]. intros y y' Hy. apply Forall2_app; assumption.
  Qed.
  Lemma PI_same : forall l, PI l l.
  Proof. intro l. split; [reflexivity|]. split; apply res_rel_same, AI_same_list. Qed.
  Lemma PI_name : forall g l l', PI l l' -> l <> [] -> PI (g :: l) (g :: l').
  Proof.
    intros g l l' H N. assert (E : res_rel (Forall2 AI) (each_item (g :: l)) (each_item (g :: l'))).
    { apply item_cons; [apply res_rel_same, AI_same_list|exact H]. }
    split; [cbn; f_equal; apply H|]. split; [exact E|].
    destruct H as [L _]. destruct l as [|h l]; [congruence|]. destruct l' as [|h' l']; [discriminate L|].
    rewrite !items_each. exact E.
  Qed.
  Lemma PI_expr : forall e e' l l', A e e' -> PI l l' -> PI (GExpr e :: l) (GExpr e' :: l').
  Proof.
    intros e e' l l' He H. assert (E : res_rel (Forall2 AI) (each_item (GExpr e :: l)) (each_item (GExpr e' :: l'))).
    { apply item_cons; [apply item_expr, He|exact H]. }
    split; [cbn; f_equal; apply H|]. split; exact E.
  Qed.

  (* ----------------------------------------------------------------------- *)
  (* Conditions of statements                                                  *)
  (* ----------------------------------------------------------------------- *)

  Lemma where_and_rel : forall a a' c c', A a a' -> A c c' -> res_rel A (where_and a c) (where_and a' c').
  Proof.
    intros a a' c c' H K. unfold where_and. apply res_rel_eq; [apply A_cond_empty, H|].
    intros []; [reflexivity|]. apply A_infix; [exact H|apply A_wrapper, K].
  Qed.
  Lemma where_or_rel : forall a a' c c', A a a' -> A c c' -> res_rel A (where_or a c) (where_or a' c').
  Proof.
    intros a a' c c' H K. unfold where_or. apply res_rel_eq; [apply A_cond_empty, H|].
    intros []; [reflexivity|]. apply A_infix; [exact H|apply A_wrapper, K].
  Qed.
  Lemma where_where_rel : forall a a' c c', A a a' -> A c c' -> res_rel A (where_where a c) (where_where a' c').
  Proof.
    intros a a' c c' H K. unfold where_where. apply res_rel_eq; [apply A_cond_empty, H|].
    intros []; [apply A_wrapper, K|apply where_and_rel; assumption].
  Qed.

  Definition P_call (c c' : sel_call) : Prop := forall q q', AS q q' -> res_rel AS (sel_step q c) (sel_step q' c').

  Lemma AS_exprs : forall q q' l l', AS q q' -> Forall2 AI l l' -> AS (with_exprs q l) (with_exprs q' l').
  Proof. intros q q' l l' (H & Hw & Hi & Hc & Hh) K. repeat split; cbn; try assumption; try apply Hc; try apply Hh; exact H. Qed.
  Lemma AS_withs : forall q q' l l', AS q q' -> Forall2 AW l l' -> AS (with_with q l) (with_with q' l').
  Proof. intros q q' l l' (H & Hw & Hi & Hc & Hh) K. repeat split; cbn; try assumption; try apply Hc; try apply Hh; exact H. Qed.
  Lemma AS_where : forall q q' e e', AS q q' -> A e e' -> AS (with_where q e) (with_where q' e').
  Proof. intros q q' e e' (H & Hw & Hi & Hc & Hh) K. repeat split; cbn; try assumption; try apply K; try apply Hh; exact H. Qed.
  Lemma AS_having : forall q q' e e', AS q q' -> A e e' -> AS (with_having q e) (with_having q' e').
  Proof. intros q q' e e' (H & Hw & Hi & Hc & Hh) K. repeat split; cbn; try assumption; try apply K; try apply Hc; exact H. Qed.

  Lemma call_columns : forall l l', PI l l' -> P_call (SelColumns l) (SelColumns l').
  Proof.
    intros l l' (L & _ & H) q q' HS. cbn [sel_step].
    destruct l as [|g l], l' as [|g' l']; try discriminate L.
    - apply (res_rel_bind (Forall2 AI)); [apply res_rel_same, AI_same_list|]. intros x x' K. apply AS_exprs; assumption.
    - apply (res_rel_bind (Forall2 AI)); [exact H|]. intros x x' K. apply AS_exprs; assumption.
  Qed.
  Lemma call_withs : forall l l', Forall2 AW l l' -> P_call (SelWith l) (SelWith l').
  Proof.
    intros l l' H q q' HS. cbn [sel_step]. apply AS_withs; [exact HS|].
    destruct HS as (_ & Hw & _). rewrite (Forall2_nonempty _ _ _ Hw).
    destruct (nonempty (s_with q')); [apply Forall2_app; assumption|exact H].
  Qed.
  Lemma call_where : forall e e', A e e' -> P_call (SelWhere e) (SelWhere e').
  Proof.
    intros e e' H q q' HS. cbn [sel_step]. rewrite (A_nil _ _ H). destruct (is_nil e'); [reflexivity|].
    apply (res_rel_bind A); [apply where_where_rel; [apply HS|exact H]|]. intros x x' K. apply AS_where; assumption.
  Qed.
  Lemma call_and : forall e e', A e e' -> P_call (SelAnd e) (SelAnd e').
  Proof.
    intros e e' H q q' HS. cbn [sel_step]. rewrite (A_nil _ _ H). destruct (is_nil e'); [reflexivity|].
    apply (res_rel_bind A); [apply where_and_rel; [apply HS|exact H]|]. intros x x' K. apply AS_where; assumption.
  Qed.
  Lemma call_or : forall e e', A e e' -> P_call (SelOr e) (SelOr e').
  Proof.
    intros e e' H q q' HS. cbn [sel_step].
    apply (res_rel_bind A); [apply where_or_rel; [apply HS|exact H]|]. intros x x' K. apply AS_where; assumption.
  Qed.
  Lemma call_having : forall e e', A e e' -> P_call (SelHaving e) (SelHaving e').
  Proof.
    intros e e' H q q' HS. cbn [sel_step]. apply res_rel_eq; [apply A_cond_empty, HS|].
    intros []; [apply AS_having; assumption|reflexivity].
  Qed.

  (* The parts without values are the same: write the second builder with the parts of the first. *)
  Definition put_values (q : select) (w : list withq) (l : list selexpr) (c h : expr) : select :=
    with_having (with_where (with_exprs (with_with q w) l) c) h.
  Lemma AS_put : forall q q', AS q q' -> q' = put_values q (s_with q') (s_exprs q') (s_where q') (s_having q').
  Proof.
    intros q q' (H & _). destruct q, q'. unfold rest_of, put_values, with_having, with_where, with_exprs, with_with in *.
    cbn in *. injection H; intros. subst. reflexivity.
  Qed.
  Lemma put_AS : forall q w l c h, Forall2 AW (s_with q) w -> Forall2 AI (s_exprs q) l ->
    A (s_where q) c -> A (s_having q) h -> AS q (put_values q w l c h).
  Proof. intros q w l c h Hw Hi Hc Hh. split; [reflexivity|]. split; [exact Hw|]. split; [exact Hi|]. split; assumption. Qed.

  Lemma put_rel : forall (f : select -> res select) q q', AS q q' ->
    (forall w l c h, f (put_values q w l c h) = (do r <- f q; Ok (put_values r w l c h))) ->
    (forall r, f q = Ok r -> s_with r = s_with q /\ s_exprs r = s_exprs q /\ s_where r = s_where q /\ s_having r = s_having q) ->
    res_rel AS (f q) (f q').
  Proof.
    intros f q q' H F K. rewrite (AS_put _ _ H), F. destruct (f q) as [r|p]; [|reflexivity]. cbn.
    destruct (K r eq_refl) as (E1 & E2 & E3 & E4). destruct H as (_ & Hw & Hi & Hc & Hh).
    apply put_AS; rewrite ?E1, ?E2, ?E3, ?E4; assumption.
  Qed.

  Lemma add_join_rel : forall q q' j, AS q q' -> res_rel AS (add_join q j) (add_join q' j).
  Proof.
    intros q q' j H. apply (put_rel (fun x => add_join x j)); [exact H| |].
    - intros w l c h. unfold add_join. destruct (join_empty j) as [[]|]; reflexivity.
    - intros r. unfold add_join. destruct (join_empty j) as [[]|]; cbn; intro E; try discriminate E.
      injection E as <-. repeat split; reflexivity.
  Qed.

  Ltac plain_call H := match goal with |- res_rel _ (sel_step ?q ?c) _ =>
    apply (put_rel (fun x => sel_step x c)); [exact H| |];
    [intros w0 l0 c0 h0; cbn [sel_step]; change (s_group_by (put_values q w0 l0 c0 h0)) with (s_group_by q);
       change (s_from (put_values q w0 l0 c0 h0)) with (s_from q); change (s_limit (put_values q w0 l0 c0 h0)) with (s_limit q);
       change (s_offset (put_values q w0 l0 c0 h0)) with (s_offset q)
    |intros r0; cbn [sel_step]] end.

  Lemma call_same : forall c, P_call c c.
  Proof.
    intro c. destruct c.
    - intros q q' H. plain_call H.
      + destruct (nonempty _); [reflexivity|]. destruct (to_columns args) as [cols|]; [|reflexivity]. cbn.
        destruct (nonempty cols); reflexivity.
      + destruct (nonempty _); [discriminate|]. destruct (to_columns args) as [cols|]; [|discriminate]. cbn.
        destruct (nonempty cols); [|discriminate]. intro E. injection E as <-. repeat split; reflexivity.
    - intros q q' H. plain_call H; [reflexivity|]. intro E. injection E as <-. repeat split; reflexivity.
    - apply call_columns, PI_same.
    - intros q q' H. plain_call H.
      + destruct (nonempty _); [reflexivity|]. destruct (to_from args) as [x|]; reflexivity.
      + destruct (nonempty _); [discriminate|]. destruct (to_from args) as [x|]; [|discriminate]. cbn.
        intro E. injection E as <-. repeat split; reflexivity.
    - intros q q' HS. cbn [sel_step]. unfold sel_join.
      destruct args as [|a0 [|a1 [|a2 [|a3 l]]]]; try reflexivity.
      + apply res_rel_eq; [reflexivity|]. intro j. apply add_join_rel, HS.
      + apply res_rel_eq; [reflexivity|]. intro j. apply add_join_rel, HS.
      + apply res_rel_eq; [reflexivity|]. intro j. destruct a2; try reflexivity. apply add_join_rel, HS.
    - apply call_withs. apply Forall2_same. intro x. split; [reflexivity|apply A_same].
    - apply call_where, A_same.
    - apply call_and, A_same.
    - apply call_or, A_same.
    - intros q q' H. plain_call H.
      + destruct (nonempty _); [reflexivity|]. destruct (to_columns args) as [cols|]; [|reflexivity]. cbn.
        destruct (nonempty cols); reflexivity.
      + destruct (nonempty _); [discriminate|]. destruct (to_columns args) as [cols|]; [|discriminate]. cbn.
        destruct (nonempty cols); [|discriminate]. intro E. injection E as <-. repeat split; reflexivity.
    - apply call_having, A_same.
    - intros q q' H. plain_call H; [reflexivity|]. intro E. injection E as <-. repeat split; reflexivity.
    - intros q q' H. plain_call H; destruct (_ =? _)%Z; try reflexivity; try discriminate.
      + destruct (to_limit v); reflexivity.
      + destruct (to_limit v); [|discriminate]. intro E. injection E as <-. repeat split; reflexivity.
    - intros q q' H. plain_call H; destruct (_ =? _)%Z; try reflexivity; try discriminate.
      + destruct (to_offset v); reflexivity.
      + destruct (to_offset v); [|discriminate]. intro E. injection E as <-. repeat split; reflexivity.
    - intros q q' H. plain_call H; destruct (_ =? _)%Z; try reflexivity; try discriminate.
      + destruct (to_suffix v); reflexivity.
      + destruct (to_suffix v); [|discriminate]. intro E. injection E as <-. repeat split; reflexivity.
    - intros q q' H. plain_call H; destruct (_ =? _)%Z; try reflexivity; try discriminate.
      + destruct (to_prefix v); reflexivity.
      + destruct (to_prefix v); [|discriminate]. intro E. injection E as <-. repeat split; reflexivity.
    - intros q q' H. plain_call H; [reflexivity|]. intro E. injection E as <-. repeat split; reflexivity.
  Qed.

  (* ----------------------------------------------------------------------- *)
  (* Programs                                                                  *)
  (* ----------------------------------------------------------------------- *)

  Lemma A_compare : forall l l' op g g', A l l' -> G g g' -> res_rel A (cmp_expr l op g) (cmp_expr l' op g').
  Proof.
    intros l l' op g g' H [K _]. unfold cmp_expr. destruct (cmp_wraps op); unfold infix_wrapped, infix_plain;
      (apply (res_rel_bind A); [exact K|]; intros x x' Hx; apply A_infix; [exact H|]); [apply A_wrapper|]; exact Hx.
  Qed.
  Lemma A_of_in : forall o l l' gs gs', A l l' -> GL gs gs' ->
    res_rel A (do a <- new_array gs; Ok (EIn l o a)) (do a <- new_array gs'; Ok (EIn l' o a)).
  Proof. intros o l l' gs gs' H [K _]. apply (res_rel_bind A); [exact K|]. intros x x' Hx. apply A_in; assumption. Qed.
  Lemma A_of_between : forall id o n a a' b b', G a a' -> G b b' ->
    res_rel A (do f <- new_expression a; do t <- new_expression b; Ok (EBetween id o f n t))
              (do f <- new_expression a'; do t <- new_expression b'; Ok (EBetween id o f n t)).
  Proof.
    intros id o n a a' b b' [H _] [K _]. apply (res_rel_bind A); [exact H|]. intros x x' Hx.
    apply (res_rel_bind A); [exact K|]. intros y y' Hy. apply A_between; assumption.
  Qed.
  Lemma AW_of : forall name g g', G g g' -> res_rel AW (lk_with name g) (lk_with name g').
  Proof. intros name g g' [H _]. apply (res_rel_bind A); [exact H|]. intros x x' Hx. split; [reflexivity|exact Hx]. Qed.

  Scheme ea_ind := Induction for expr_alike Sort Prop
    with eas_ind := Induction for exprs_alike Sort Prop
    with oa_ind := Induction for one_alike Sort Prop
    with aa_ind := Induction for arg_alike Sort Prop
    with aas_ind := Induction for args_alike Sort Prop
    with la_ind := Induction for list_alike Sort Prop
    with ia_ind := Induction for items_alike Sort Prop
    with wa_ind := Induction for withs_alike Sort Prop
    with sa_ind := Induction for select_alike Sort Prop
    with ca_ind := Induction for sel_call_alike Sort Prop.
  Combined Scheme alike_ind from ea_ind, eas_ind, oa_ind, aa_ind, aas_ind, la_ind, ia_ind, wa_ind, sa_ind, ca_ind.

  Theorem alike_all :
    (forall e e', expr_alike R e e' -> A e e')
    /\ (forall l l', exprs_alike R l l' -> Forall2 A l l')
    /\ (forall g g', one_alike R g g' -> G g g' /\ res_rel (Forall2 A) (to_array g) (to_array g'))
    /\ (forall g g', arg_alike R g g' -> G g g')
    /\ (forall l l', args_alike R l l' -> Forall2 G l l')
    /\ (forall l l', list_alike R l l' -> GL l l')
    /\ (forall l l', items_alike R l l' -> PI l l')
    /\ (forall l l', withs_alike R l l' -> Forall2 AW l l')
    /\ (forall q q', select_alike R q q' -> AS q q')
    /\ (forall c c', sel_call_alike R c c' -> P_call c c').
  Proof.
    apply (alike_ind R (fun e e' _ => A e e') (fun l l' _ => Forall2 A l l')
      (fun g g' _ => G g g' /\ res_rel (Forall2 A) (to_array g) (to_array g'))
      (fun g g' _ => G g g') (fun l l' _ => Forall2 G l l') (fun l l' _ => GL l l') (fun l l' _ => PI l l')
      (fun l l' _ => Forall2 AW l l') (fun q q' _ => AS q q') (fun c c' _ => P_call c c')); intros.
    - apply A_same.
    - apply A_value; assumption.
    - eapply res_rel_ok; [apply (A_compare l l' op g g'); assumption|eassumption|assumption].
    - eapply res_rel_ok; [apply (A_of_in "IN" l l' gs gs'); assumption|eassumption|assumption].
    - eapply res_rel_ok; [apply (A_of_in "NOT IN" l l' gs gs'); assumption|eassumption|assumption].
    - eapply res_rel_ok; [apply (A_of_between id "BETWEEN" "AND" a a' b b'); assumption|eassumption|assumption].
    - eapply res_rel_ok; [apply (A_of_between id "NOT BETWEEN" "AND" a a' b b'); assumption|eassumption|assumption].
    - apply A_infix; assumption.
    - apply A_infix; assumption.
    - apply A_infix; [assumption|apply A_wrapper; assumption].
    - apply A_infix; [assumption|apply A_wrapper; assumption].
    - assert (K : res_rel A (lk_exists g) (lk_exists g')).
      { apply (res_rel_bind A); [apply H|]. intros x x' Hx. apply A_exists, Hx. }
      eapply res_rel_ok; eassumption.
    - assert (K : res_rel A (lk_not_exists g) (lk_not_exists g')).
      { apply (res_rel_bind A); [apply H|]. intros x x' Hx. apply A_not_exists, Hx. }
      eapply res_rel_ok; eassumption.
    - apply A_call; assumption.
    - apply A_select; assumption.
    - constructor.
    - constructor; assumption.
    - apply (G_bound g g' v v'); assumption.
    - apply G_expr; assumption.
    - apply G_query; assumption.
    - apply G_same.
    - apply H.
    - apply G_array; assumption.
    - constructor.
    - constructor; assumption.
    - apply GL_same.
    - apply GL_several; assumption.
    - apply GL_one; apply H.
    - apply (GL_slice g g' l l'); assumption.
    - apply PI_same.
    - apply PI_name; assumption.
    - apply PI_expr; assumption.
    - constructor.
    - constructor; [|assumption]. eapply res_rel_ok; [apply (AW_of name g g'); assumption|eassumption|assumption].
    - eapply res_rel_ok; [apply (call_columns items items'); [assumption|apply AS_same]|eassumption|assumption].
    - eapply res_rel_ok; [apply H0, H|eassumption|assumption].
    - apply call_same.
    - apply call_columns; assumption.
    - apply call_withs; assumption.
    - apply call_where; assumption.
    - apply call_and; assumption.
    - apply call_or; assumption.
    - apply call_having; assumption.
  Qed.
End Proofs.
