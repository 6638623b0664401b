(* Proofs for C01 at the level of programs: Insert, Update and Delete. *)
From Coq Require Import String List ZArith.
From Verif Require Import Ast Write Api Parser Build Sql Template ExprInd SubstP RenderP EraseP Alike AlikeP.
Import ListNotations.
Local Open Scope string_scope.
Local Open Scope list_scope.

Section Proofs.
  Context (R : gval -> gval -> Prop) (Rr : forall v, R v v).
  Notation A := (A R).
  Notation G := (G R).
  Notation GL := (GL R).
  Notation AI := (AI R).
  Notation AW := (AW R).
  Notation AS := (AS R).

  Definition AE (x x' : column * expr) : Prop := fst x = fst x' /\ A (snd x) (snd x').
  Definition AP (p p' : pairs) : Prop :=
    p_mode p = p_mode p' /\ Forall2 AE (p_map p) (p_map p') /\ p_cols p = p_cols p' /\ Forall2 A (p_exprs p) (p_exprs p').

  Lemma AP_same : forall p, AP p p.
  Proof.
    intro p. split; [reflexivity|]. split; [apply Forall2_same; intro; split; [reflexivity|apply (A_same R Rr)]|].
    split; [reflexivity|apply Forall2_same, (A_same R Rr)].
  Qed.
  Lemma AP_erase : forall p p', AP p p' -> erase_pairs p = erase_pairs p'.
  Proof.
    intros p p' (M & E & C & X). unfold erase_pairs, subst_pairs. rewrite M, C.
    destruct (A_list R _ _ X) as [X' _]. unfold erase in X'. rewrite X'.
    assert (Y : map (fun ce => (fst ce, subst (fun _ => GBool true) (snd ce))) (p_map p)
              = map (fun ce => (fst ce, subst (fun _ => GBool true) (snd ce))) (p_map p')).
    { apply (Forall2_map_eq AE); [exact E|]. intros a a' [K [K' _]]. unfold erase in K'. rewrite K, K'. reflexivity. }
    rewrite Y. reflexivity.
  Qed.

  Definition get_rel (o o' : option expr) : Prop :=
    match o, o' with Some e, Some e' => A e e' | None, None => True | _, _ => False end.
  Lemma AE_get : forall c l l', Forall2 AE l l' -> get_rel (pm_get c l) (pm_get c l').
  Proof.
    intros c l l' H. induction H as [|[k e] [k' e'] l l' [K E] H IH]; cbn; [exact I|]. cbn in K, E. subst k'.
    destruct (col_eqb c k); [exact E|exact IH].
  Qed.
  Lemma AE_set : forall c e e' l l', A e e' -> Forall2 AE l l' -> Forall2 AE (pm_set c e l) (pm_set c e' l').
  Proof.
    intros c e e' l l' He H. induction H as [|[k x] [k' x'] l l' [K E] H IH]; cbn.
    - constructor; [split; [reflexivity|exact He]|constructor].
    - cbn in K, E. subst k'. destruct (col_eqb c k); constructor; try assumption; split; try reflexivity; assumption.
  Qed.

  Lemma AP_values {O : Oracle} : forall p p', AP p p' -> Forall2 R (set_values p) (set_values p').
  Proof.
    intros p p' (M & E & C & X). unfold set_values. rewrite M, C.
    assert (K : Forall2 R (flat_map values_of (p_exprs p)) (flat_map values_of (p_exprs p'))) by apply (A_list R _ _ X).
    destruct (p_mode p'); try exact K. clear K.
    induction (o_sort (p_cols p')) as [|c l IH]; cbn; [constructor|]. apply Forall2_app; [|exact IH].
    pose proof (AE_get c _ _ E) as H. destruct (pm_get c (p_map p)), (pm_get c (p_map p')); try contradiction; [apply H|constructor].
  Qed.
  Lemma AP_empty : forall p p', AP p p' -> pairs_empty p = pairs_empty p'.
  Proof.
    intros p p' (M & E & C & X). unfold pairs_empty. rewrite M, (Forall2_nonempty _ _ _ E), (Forall2_nonempty _ _ _ X). reflexivity.
  Qed.
  Lemma AP_pairs {O : Oracle} : forall p p', AP p p' ->
    res_rel (fun x x' => fst x = fst x' /\ Forall2 A (snd x) (snd x')) (pairs_values p) (pairs_values p').
  Proof.
    intros p p' (M & E & C & X). unfold pairs_values. rewrite M, C.
    destruct (p_mode p'); try (split; [reflexivity|exact X]).
    apply (res_rel_bind (Forall2 A)); [|intros l l' H; split; [reflexivity|exact H]].
    apply (map_res_rel eq); [apply Forall2_same; reflexivity|]. intros c c' <-.
    pose proof (AE_get c _ _ E) as H. destruct (pm_get c (p_map p)), (pm_get c (p_map p')); try contradiction; [exact H|reflexivity].
  Qed.

  Lemma AP_add : forall p p' c e e', AP p p' -> A e e' -> res_rel AP (pairs_add p c e) (pairs_add p' c e').
  Proof.
    intros p p' c e e' (M & E & C & X) He. unfold pairs_add. rewrite M, C.
    assert (K : (match pm_get c (p_map p) with Some _ => p_cols p' | None => p_cols p' ++ [c] end)
              = (match pm_get c (p_map p') with Some _ => p_cols p' | None => p_cols p' ++ [c] end)).
    { pose proof (AE_get c _ _ E) as H. destruct (pm_get c (p_map p)), (pm_get c (p_map p')); try contradiction; reflexivity. }
    destruct (p_mode p'); try reflexivity; (split; [reflexivity|split; [apply AE_set; assumption|split; [exact K|exact X]]]).
  Qed.
  Lemma AP_put : forall p p' c, AP p p' -> res_rel AP (pairs_set p c) (pairs_set p' c).
  Proof.
    intros p p' c (M & E & C & X). unfold pairs_set. rewrite M, C.
    destruct (p_mode p'); try reflexivity; (split; [reflexivity|split; [exact E|split; [reflexivity|exact X]]]).
  Qed.
  Lemma AP_use : forall p p' e e', AP p p' -> A e e' -> res_rel AP (pairs_use p e) (pairs_use p' e').
  Proof.
    intros p p' e e' (M & E & C & X) He. unfold pairs_use. rewrite M, C.
    destruct (p_mode p'); try reflexivity. split; [reflexivity|]. split; [exact E|]. split; [reflexivity|].
    apply Forall2_app; [exact X|]. constructor; [exact He|constructor].
  Qed.

  Definition entry (x x' : gval * gval) : Prop := fst x = fst x' /\ G (snd x) (snd x').
  Lemma AP_pair : forall p p' x x', AP p p' -> entry x x' -> res_rel AP (merge_pair p x) (merge_pair p' x').
  Proof.
    intros p p' [k g] [k' g'] H [K [Hg _]]. cbn in K, Hg. subst k'. unfold merge_pair. cbn [fst snd].
    apply res_rel_eq; [reflexivity|]. intro c. apply (res_rel_bind A); [exact Hg|]. intros e e' He.
    apply AP_add; [exact H|apply A_wrapper, He].
  Qed.
  Lemma arg_G : forall g g', arg_alike R g g' -> G g g'.
  Proof. apply (alike_all R Rr). Qed.
  Lemma entries_any : forall l l', entries_alike R l l' ->
    Forall2 entry (map (fun kv => (GStr (fst kv), snd kv)) l) (map (fun kv => (GStr (fst kv), snd kv)) l').
  Proof.
    intros l l' H. induction H as [|k v v' l l' Hv H IH]; cbn; constructor; [|exact IH].
    split; [reflexivity|apply arg_G, Hv].
  Qed.
  Lemma entries_map : forall l l', entries_alike R l l' -> Forall2 entry l l'.
  Proof.
    intros l l' H. induction H as [|k v v' l l' Hv H IH]; cbn; constructor; [|exact IH].
    split; [reflexivity|apply arg_G, Hv].
  Qed.
  Lemma AP_arg_same : forall g p p', AP p p' -> res_rel AP (merge_arg p g) (merge_arg p' g).
  Proof.
    intros g p p' H. assert (E : forall l, Forall2 entry l l) by (intro; apply Forall2_same; intro; split; [reflexivity|apply (G_same R Rr)]).
    assert (C : forall cols, res_rel AP (fold_res pairs_set cols p) (fold_res pairs_set cols p')).
    { intro cols. apply (fold_res_rel AP eq); [apply Forall2_same; reflexivity| |exact H]. intros a a' c c' Ha <-. apply AP_put, Ha. }
    destruct g; try reflexivity; cbn [merge_arg].
    all: try (apply res_rel_eq; [reflexivity|exact C]).
    all: try (apply (fold_res_rel AP entry); [apply E|intros; apply AP_pair; assumption|exact H]).
    apply AP_pair; [exact H|]. split; [reflexivity|apply (G_same R Rr)].
  Qed.
  Lemma AP_arg : forall g g', set_alike R g g' -> forall p p', AP p p' -> res_rel AP (merge_arg p g) (merge_arg p' g').
  Proof.
    intros g g' H p p' Hp. destruct H as [g|k v v' Hv|l l' Hl|l l' Hl].
    - apply AP_arg_same, Hp.
    - apply AP_pair; [exact Hp|]. split; [reflexivity|apply arg_G, Hv].
    - apply (fold_res_rel AP entry); [apply entries_map, Hl|intros; apply AP_pair; assumption|exact Hp].
    - apply (fold_res_rel AP entry); [apply entries_any, Hl|intros; apply AP_pair; assumption|exact Hp].
  Qed.
  Lemma sets_Forall : forall l l', sets_alike R l l' -> Forall2 (set_alike R) l l'.
  Proof. intros l l' H. induction H; constructor; assumption. Qed.
  Lemma AP_merge : forall l l', sets_alike R l l' -> forall p p', AP p p' -> res_rel AP (merge_set p l) (merge_set p' l').
  Proof.
    intros l l' H p p' Hp. apply (fold_res_rel AP (set_alike R)); [apply sets_Forall, H| |exact Hp].
    intros a a' g g' Ha Hg. apply AP_arg; assumption.
  Qed.
  Lemma AP_set : forall l l', sets_alike R l l' -> res_rel AP (to_set l) (to_set l').
  Proof. intros l l' H. apply AP_merge; [exact H|apply AP_same]. Qed.

  (* ----------------------------------------------------------------------- *)
  (* Insert                                                                    *)
  (* ----------------------------------------------------------------------- *)

  Lemma rows_given_elems : forall g rows, rows_given g = Some rows -> row_elems g = rows /\ new_expression g = new_expression (GAnyss []) /\ new_array [g] = new_array [GAnyss []].
  Proof.
    intros g rows H. destruct g; cbn in H; try discriminate H; try (injection H as <-; repeat split; reflexivity).
    destruct k; try discriminate H; injection H as <-; repeat split; reflexivity.
  Qed.
  Lemma rows_rel : forall l l', rows_alike R l l' -> res_rel (Forall2 A) (map_res new_array l) (map_res new_array l').
  Proof.
    intros l l' H. assert (F : Forall2 GL l l').
    { induction H as [|r r' l l' Hr H IH]; constructor; [apply (alike_all R Rr), Hr|exact IH]. }
    apply (map_res_rel GL); [exact F|]. intros a a' [K _]. exact K.
  Qed.
  Lemma values_rel : forall l l', values_alike R l l' -> res_rel A (new_array_list l) (new_array_list l').
  Proof.
    intros l l' H. destruct H as [l l' H|g g' rows rows' E E' H].
    - apply (GL_array_list R Rr). apply (alike_all R Rr), H.
    - destruct (rows_given_elems _ _ E) as (W & _ & N), (rows_given_elems _ _ E') as (W' & _ & N').
      unfold new_array_list, to_array_list. rewrite W, W', N, N'.
      apply (res_rel_bind (Forall2 A)); [apply rows_rel, H|]. intros x x' Hx. rewrite (Forall2_nonempty _ _ _ Hx).
      destruct (nonempty x'); [apply A_array_list, Hx|]. apply res_rel_same, (A_same R Rr).
  Qed.
  Lemma exprs_rel : forall l l', Forall2 A l l' -> res_rel A (new_array_list [GExprs l]) (new_array_list [GExprs l']).
  Proof.
    intros l l' H. unfold new_array_list. cbn [to_array_list row_elems map_res bind nonempty].
    apply (res_rel_bind A); [|intros x x' Hx; apply A_array_list; constructor; [exact Hx|constructor]].
    unfold new_array. cbn [to_array]. apply array_rel, (map_res_rel (fun g g' => G g g')); [|intros a a' [K _]; exact K].
    clear -H Rr. induction H as [|e e' l l' He H IH]; cbn; constructor; [apply (G_expr R Rr), He|exact IH].
  Qed.

  Definition act_rel (a a' : conflict_action) : Prop :=
    match a, a' with ActNothing, ActNothing => True | ActUpdate p, ActUpdate p' => AP p p' | _, _ => False end.
  Lemma act_same : forall a, act_rel a a.
  Proof. intros []; [exact I|apply AP_same]. Qed.
  Definition opt_rel (o o' : option conflict_action) : Prop :=
    match o, o' with None, None => True | Some a, Some a' => act_rel a a' | _, _ => False end.

  Lemma conflict_loop_rel : forall l l', conflict_alike R l l' -> forall t,
    res_rel (fun x x' => fst x = fst x' /\ act_rel (snd x) (snd x')) (on_conflict_loop l t) (on_conflict_loop l' t).
  Proof.
    intros l l' H. induction H as [l|g l l' H IH|s s' g g' H E E']; intro t.
    - apply res_rel_same. intros [c a]. split; [reflexivity|apply act_same].
    - destruct g; try reflexivity; cbn [on_conflict_loop].
      all: try apply IH.
      all: try (apply res_rel_eq; [reflexivity|]; intro; apply IH).
      all: try (split; [reflexivity|exact I]).
      destruct (nonempty t); [|reflexivity]. split; [reflexivity|apply AP_same].
    - unfold lk_do_update in E, E'. pose proof (AP_set _ _ H) as K.
      destruct (to_set s) as [p|], (to_set s') as [p'|]; try discriminate; injection E as <-; injection E' as <-.
      cbn. destruct (nonempty t); [|reflexivity]. split; [reflexivity|exact K].
  Qed.
  Lemma conflict_nil : forall l l', conflict_alike R l l' -> l = [] <-> l' = [].
  Proof. intros l l' H. destruct H; split; congruence. Qed.

  Definition AN (i i' : insert) : Prop :=
    i_into i = i_into i' /\ i_columns i = i_columns i' /\ A (i_values i) (i_values i')
    /\ i_conflict_target i = i_conflict_target i' /\ opt_rel (i_conflict_action i) (i_conflict_action i')
    /\ Forall2 AI (i_returning i) (i_returning i') /\ i_comment i = i_comment i'.

  Lemma opt_same : forall o, opt_rel o o.
  Proof. intros [a|]; [apply act_same|exact I]. Qed.
  Lemma AI_same_list' : forall l, Forall2 AI l l.
  Proof. apply AI_same_list. Qed.
  Lemma AN_same : forall i, AN i i.
  Proof.
    intro i. split; [reflexivity|]. split; [reflexivity|]. split; [apply (A_same R Rr)|]. split; [reflexivity|].
    split; [apply opt_same|]. split; [apply AI_same_list|reflexivity].
  Qed.
  Lemma opt_empty : forall o o', opt_rel o o' -> conflict_empty o = conflict_empty o'.
  Proof.
    intros [[|p]|] [[|p']|] H; try contradiction; try reflexivity. cbn in *. apply AP_empty, H.
  Qed.
  Lemma items_rel : forall l l', items_alike R l l' -> res_rel (Forall2 AI) (to_selexprs l) (to_selexprs l').
  Proof. intros l l' H. apply (alike_all R Rr) in H. apply H. Qed.

  Section Insert.
    Context {O : Oracle}.

    Lemma sets_nil_iff : forall l l', sets_alike R l l' -> match l, l' with [], [] | _ :: _, _ :: _ => True | _, _ => False end.
    Proof. intros l l' H. destruct H; exact I. Qed.

    Lemma ins_values_rel : forall l l' i i', AN i i' -> res_rel A (new_array_list l) (new_array_list l') ->
      res_rel AN (ins_step i (InsValues l)) (ins_step i' (InsValues l')).
    Proof.
      intros l l' i i' (I1 & I2 & I3 & I4 & I5 & I6 & I7) H. cbn [ins_step].
      apply res_rel_eq; [apply (A_cond_empty R), I3|]. intros []; [|reflexivity].
      apply (res_rel_bind A); [exact H|]. intros e e' He. repeat (split; [assumption|]). assumption.
    Qed.
    Lemma ins_set_rel : forall l l' i i', AN i i' -> res_rel AP (to_set l) (to_set l') ->
      res_rel AN (ins_step i (InsSet l)) (ins_step i' (InsSet l')).
    Proof.
      intros l l' i i' (I1 & I2 & I3 & I4 & I5 & I6 & I7) H. cbn [ins_step]. rewrite I2.
      destruct (nonempty (i_columns i')); [reflexivity|].
      apply res_rel_eq; [apply (A_cond_empty R), I3|]. intros []; [|reflexivity].
      apply (res_rel_bind AP); [exact H|]. intros p p' Hp.
      apply (res_rel_bind (fun x x' => fst x = fst x' /\ Forall2 A (snd x) (snd x'))); [apply AP_pairs, Hp|].
      intros [c es] [c' es'] [C E]. cbn in C, E. subst c'. cbn [fst snd].
      apply (res_rel_bind A); [apply exprs_rel, E|]. intros e e' He.
      split; [exact I1|]. split; [reflexivity|]. repeat (split; [assumption|]). assumption.
    Qed.
    Lemma ins_returning_rel : forall l l' i i', AN i i' -> res_rel (Forall2 AI) (to_selexprs l) (to_selexprs l') ->
      res_rel AN (ins_step i (InsReturning l)) (ins_step i' (InsReturning l')).
    Proof.
      intros l l' i i' (I1 & I2 & I3 & I4 & I5 & I6 & I7) H. cbn [ins_step]. rewrite (Forall2_nonempty _ _ _ I6).
      destruct (nonempty (i_returning i')); [reflexivity|]. apply (res_rel_bind (Forall2 AI)); [exact H|].
      intros e e' He. repeat (split; [assumption|]). assumption.
    Qed.
    Lemma ins_conflict_rel : forall l l' i i', AN i i' -> conflict_alike R l l' ->
      res_rel AN (ins_step i (InsOnConflict l)) (ins_step i' (InsOnConflict l')).
    Proof.
      intros l l' i i' (I1 & I2 & I3 & I4 & I5 & I6 & I7) H. cbn [ins_step]. rewrite (opt_empty _ _ I5), I4.
      destruct (conflict_empty _); [|reflexivity].
      pose proof (conflict_loop_rel _ _ H (i_conflict_target i')) as K. pose proof (conflict_nil _ _ H) as N.
      destruct l as [|g l], l' as [|g' l']; try reflexivity; try (destruct N as [N1 N2]; first [specialize (N1 eq_refl); discriminate N1|specialize (N2 eq_refl); discriminate N2]).
      apply (res_rel_bind _ _ _ _ _ _ K). intros x x' [X Y]. rewrite X. split; [exact I1|]. split; [exact I2|].
      split; [exact I3|]. split; [reflexivity|]. split; [exact Y|]. split; assumption.
    Qed.
    Lemma sets_same : forall l, sets_alike R l l.
    Proof. intro l. induction l; constructor; [constructor|assumption]. Qed.

    Lemma ins_call_rel : forall c c', ins_call_alike R c c' -> forall i i', AN i i' -> res_rel AN (ins_step i c) (ins_step i' c').
    Proof.
      intros c c' H i i' HN. destruct H as [c|l l' H|l l' H|l l' H|l l' H].
      - destruct c.
        + destruct HN as (I1 & I2 & I3 & I4 & I5 & I6 & I7). cbn [ins_step]. rewrite I1. destruct (no_str _); [|reflexivity].
          apply res_rel_eq; [reflexivity|]. intro t. split; [reflexivity|]. repeat (split; [assumption|]). assumption.
        + destruct args as [|a l]; [exact HN|]. destruct HN as (I1 & I2 & I3 & I4 & I5 & I6 & I7). cbn [ins_step]. rewrite I2.
          destruct (nonempty (i_columns i')); [reflexivity|]. apply res_rel_eq; [reflexivity|]. intro t.
          split; [exact I1|]. split; [reflexivity|]. repeat (split; [assumption|]). assumption.
        + apply ins_values_rel; [exact HN|apply res_rel_same, (A_same R Rr)].
        + apply ins_returning_rel; [exact HN|apply res_rel_same, AI_same_list].
        + destruct HN as (I1 & I2 & I3 & I4 & I5 & I6 & I7). repeat (split; [assumption|]). reflexivity.
        + apply ins_conflict_rel; [exact HN|constructor].
        + apply ins_set_rel; [exact HN|apply AP_set, sets_same].
      - apply ins_values_rel; [exact HN|apply values_rel, H].
      - apply ins_set_rel; [exact HN|apply AP_set, H].
      - apply ins_conflict_rel; assumption.
      - apply ins_returning_rel; [exact HN|apply items_rel, H].
    Qed.
    Lemma insert_rel : forall i i', insert_alike R i i' -> AN i i'.
    Proof.
      intros i i' H. induction H as [g i _|i i' c c' r r' _ IH Hc E E']; [apply AN_same|].
      eapply res_rel_ok; [apply (ins_call_rel c c' Hc i i' IH)|exact E|exact E'].
    Qed.
  End Insert.

  (* ----------------------------------------------------------------------- *)
  (* Update                                                                    *)
  (* ----------------------------------------------------------------------- *)

  Definition AU (u u' : update) : Prop :=
    Forall2 AW (u_with u) (u_with u') /\ u_table u = u_table u' /\ u_only u = u_only u' /\ u_from u = u_from u'
    /\ AP (u_set u) (u_set u') /\ A (u_where u) (u_where u') /\ Forall2 AI (u_returning u) (u_returning u')
    /\ u_comment u = u_comment u'.
  Lemma AW_same_list : forall l, Forall2 AW l l.
  Proof. apply Forall2_same. intro x. split; [reflexivity|apply (A_same R Rr)]. Qed.
  Lemma AU_same : forall u, AU u u.
  Proof.
    intro u. split; [apply AW_same_list|]. split; [reflexivity|]. split; [reflexivity|]. split; [reflexivity|].
    split; [apply AP_same|]. split; [apply (A_same R Rr)|]. split; [apply AI_same_list|reflexivity].
  Qed.

  Lemma args_G : forall l l', args_alike R l l' -> Forall2 G l l'.
  Proof. apply (alike_all R Rr). Qed.
  Lemma withs_W : forall l l', withs_alike R l l' -> Forall2 AW l l'.
  Proof. apply (alike_all R Rr). Qed.
  Lemma expr_A : forall e e', expr_alike R e e' -> A e e'.
  Proof. apply (alike_all R Rr). Qed.

  Ltac rest := repeat (split; [first [assumption|reflexivity]|]); first [assumption|reflexivity].

  Lemma upd_set_rel : forall l l' u u', AU u u' -> sets_alike R l l' -> res_rel AU (upd_step u (UpdSet l)) (upd_step u' (UpdSet l')).
  Proof.
    intros l l' u u' (U1 & U2 & U3 & U4 & U5 & U6 & U7 & U8) H. pose proof (AP_merge _ _ H _ _ U5) as K.
    destruct H as [|g g' l l' Hg H]; [reflexivity|]. cbn [upd_step]. apply (res_rel_bind AP); [exact K|].
    intros p p' Hp. rest.
  Qed.
  Lemma upd_using_rel : forall l l' u u', AU u u' -> Forall2 G l l' -> res_rel AU (upd_step u (UpdUsing l)) (upd_step u' (UpdUsing l')).
  Proof.
    intros l l' u u' (U1 & U2 & U3 & U4 & U5 & U6 & U7 & U8) H. cbn [upd_step].
    pose proof U5 as (M & _). rewrite M. destruct (p_mode (u_set u')); try reflexivity.
    assert (K : res_rel AP (fold_res (fun p g => do e <- new_expression g; pairs_use p e) l (u_set u))
                           (fold_res (fun p g => do e <- new_expression g; pairs_use p e) l' (u_set u'))).
    { apply (fold_res_rel AP G); [exact H| |exact U5]. intros p p' g g' Hp [Hg _].
      apply (res_rel_bind A); [exact Hg|]. intros e e' He. apply AP_use; assumption. }
    destruct H as [|g g' l l' Hg H]; [reflexivity|]. apply (res_rel_bind AP); [exact K|]. intros p p' Hp. rest.
  Qed.
  Lemma upd_with_rel : forall l l' u u', AU u u' -> Forall2 AW l l' -> res_rel AU (upd_step u (UpdWith l)) (upd_step u' (UpdWith l')).
  Proof.
    intros l l' u u' (U1 & U2 & U3 & U4 & U5 & U6 & U7 & U8) H. cbn [upd_step].
    split; [|rest]. cbn. rewrite (Forall2_nonempty _ _ _ U1). destruct (nonempty _); [apply Forall2_app; assumption|exact H].
  Qed.
  Lemma upd_cond_rel : forall (f : expr -> expr -> res expr) e e' u u',
    (forall a a' c c', A a a' -> A c c' -> res_rel A (f a c) (f a' c')) -> AU u u' -> A e e' ->
    res_rel AU (do wh <- f (u_where u) e; Ok (upd_with_where u wh)) (do wh <- f (u_where u') e'; Ok (upd_with_where u' wh)).
  Proof.
    intros f e e' u u' F (U1 & U2 & U3 & U4 & U5 & U6 & U7 & U8) H.
    apply (res_rel_bind A); [apply F; assumption|]. intros x x' Hx. rest.
  Qed.
  Lemma upd_returning_rel : forall l l' u u', AU u u' -> res_rel (Forall2 AI) (to_selexprs l) (to_selexprs l') ->
    res_rel AU (upd_step u (UpdReturning l)) (upd_step u' (UpdReturning l')).
  Proof.
    intros l l' u u' (U1 & U2 & U3 & U4 & U5 & U6 & U7 & U8) H. cbn [upd_step]. rewrite (Forall2_nonempty _ _ _ U7).
    destruct (nonempty _); [reflexivity|]. apply (res_rel_bind (Forall2 AI)); [exact H|]. intros x x' Hx. rest.
  Qed.
  Lemma sets_same' : forall l, sets_alike R l l.
  Proof. intro l. induction l; constructor; [constructor|assumption]. Qed.

  Lemma upd_call_rel : forall c c', upd_call_alike R c c' -> forall u u', AU u u' -> res_rel AU (upd_step u c) (upd_step u' c').
  Proof.
    intros c c' H u u' HU. destruct H as [c|l l' H|l l' H|l l' H|e e' H|e e' H|e e' H|l l' H].
    - destruct c.
      + destruct HU as (U1 & U2 & U3 & U4 & U5 & U6 & U7 & U8). cbn [upd_step]. rest.
      + apply upd_set_rel; [exact HU|apply sets_same'].
      + apply upd_using_rel; [exact HU|apply Forall2_same, (G_same R Rr)].
      + apply upd_with_rel; [exact HU|apply AW_same_list].
      + apply (upd_cond_rel where_where); [apply where_where_rel|exact HU|apply (A_same R Rr)].
      + apply (upd_cond_rel where_and); [apply where_and_rel|exact HU|apply (A_same R Rr)].
      + apply (upd_cond_rel where_or); [apply where_or_rel|exact HU|apply (A_same R Rr)].
      + destruct HU as (U1 & U2 & U3 & U4 & U5 & U6 & U7 & U8). cbn [upd_step]. rewrite U4. destruct (nonempty _); [reflexivity|].
        apply res_rel_eq; [reflexivity|]. intro f. rest.
      + apply upd_returning_rel; [exact HU|apply res_rel_same, AI_same_list].
      + destruct HU as (U1 & U2 & U3 & U4 & U5 & U6 & U7 & U8). cbn [upd_step]. rest.
    - apply upd_set_rel; assumption.
    - apply upd_using_rel; [exact HU|apply args_G, H].
    - apply upd_with_rel; [exact HU|apply withs_W, H].
    - apply (upd_cond_rel where_where); [apply where_where_rel|exact HU|apply expr_A, H].
    - apply (upd_cond_rel where_and); [apply where_and_rel|exact HU|apply expr_A, H].
    - apply (upd_cond_rel where_or); [apply where_or_rel|exact HU|apply expr_A, H].
    - apply upd_returning_rel; [exact HU|apply items_rel, H].
  Qed.
  Lemma update_rel : forall u u', update_alike R u u' -> AU u u'.
  Proof.
    intros u u' H. induction H as [g u _|u u' c c' r r' _ IH Hc E E']; [apply AU_same|].
    eapply res_rel_ok; [apply (upd_call_rel c c' Hc u u' IH)|exact E|exact E'].
  Qed.

  (* ----------------------------------------------------------------------- *)
  (* Delete                                                                    *)
  (* ----------------------------------------------------------------------- *)

  Definition AD (d d' : delete) : Prop :=
    d_from d = d_from d' /\ d_using d = d_using d' /\ A (d_where d) (d_where d')
    /\ Forall2 AI (d_returning d) (d_returning d') /\ d_comment d = d_comment d'.
  Lemma AD_same : forall d, AD d d.
  Proof.
    intro d. split; [reflexivity|]. split; [reflexivity|]. split; [apply (A_same R Rr)|]. split; [apply AI_same_list|reflexivity].
  Qed.
  Lemma del_cond_rel : forall (f : expr -> expr -> res expr) e e' d d',
    (forall a a' c c', A a a' -> A c c' -> res_rel A (f a c) (f a' c')) -> AD d d' -> A e e' ->
    res_rel AD (do wh <- f (d_where d) e; Ok (del_with_where d wh)) (do wh <- f (d_where d') e'; Ok (del_with_where d' wh)).
  Proof.
    intros f e e' d d' F (D1 & D2 & D3 & D4 & D5) H. apply (res_rel_bind A); [apply F; assumption|]. intros x x' Hx. rest.
  Qed.
  Lemma del_returning_rel : forall l l' d d', AD d d' -> res_rel (Forall2 AI) (to_selexprs l) (to_selexprs l') ->
    res_rel AD (del_step d (DelReturning l)) (del_step d' (DelReturning l')).
  Proof.
    intros l l' d d' (D1 & D2 & D3 & D4 & D5) H. cbn [del_step]. rewrite (Forall2_nonempty _ _ _ D4).
    destruct (nonempty _); [reflexivity|]. apply (res_rel_bind (Forall2 AI)); [exact H|]. intros x x' Hx. rest.
  Qed.
  Lemma del_call_rel : forall c c', del_call_alike R c c' -> forall d d', AD d d' -> res_rel AD (del_step d c) (del_step d' c').
  Proof.
    intros c c' H d d' HD. destruct H as [c|e e' H|e e' H|e e' H|l l' H].
    - destruct c.
      + destruct HD as (D1 & D2 & D3 & D4 & D5). cbn [del_step]. rewrite D1. destruct (nonempty _); [reflexivity|].
        apply res_rel_eq; [reflexivity|]. intro f. rest.
      + destruct HD as (D1 & D2 & D3 & D4 & D5). cbn [del_step]. rewrite D2. destruct (nonempty _); [reflexivity|].
        apply res_rel_eq; [reflexivity|]. intro f. rest.
      + apply (del_cond_rel where_where); [apply where_where_rel|exact HD|apply (A_same R Rr)].
      + apply (del_cond_rel where_and); [apply where_and_rel|exact HD|apply (A_same R Rr)].
      + apply (del_cond_rel where_or); [apply where_or_rel|exact HD|apply (A_same R Rr)].
      + apply del_returning_rel; [exact HD|apply res_rel_same, AI_same_list].
      + destruct HD as (D1 & D2 & D3 & D4 & D5). cbn [del_step]. rest.
    - apply (del_cond_rel where_where); [apply where_where_rel|exact HD|apply expr_A, H].
    - apply (del_cond_rel where_and); [apply where_and_rel|exact HD|apply expr_A, H].
    - apply (del_cond_rel where_or); [apply where_or_rel|exact HD|apply expr_A, H].
    - apply del_returning_rel; [exact HD|apply items_rel, H].
  Qed.
  Lemma delete_rel : forall d d', delete_alike R d d' -> AD d d'.
  Proof.
    intros d d' H. induction H as [g d _|d d' c c' r r' _ IH Hc E E']; [apply AD_same|].
    eapply res_rel_ok; [apply (del_call_rel c c' Hc d d' IH)|exact E|exact E'].
  Qed.

  (* ----------------------------------------------------------------------- *)
  (* Statements                                                                *)
  (* ----------------------------------------------------------------------- *)

  Lemma stmt_rel {O : Oracle} : forall s s', stmt_alike R s s' ->
    erase_stmt s = erase_stmt s' /\ Forall2 R (stmt_values s) (stmt_values s').
  Proof.
    intros s s' H. destruct H as [q q' H|i i' H|u u' H|d d' H].
    - apply (alike_all R Rr) in H. split; [|apply (AS_values R Rr), H].
      unfold erase_stmt. cbn [subst_stmt]. f_equal. apply (AS_erase R), H.
    - apply insert_rel in H. destruct H as (I1 & I2 & I3 & I4 & I5 & I6 & I7). split.
      + unfold erase_stmt. cbn [subst_stmt]. pose proof (AI_list_erase R _ _ I6) as E. pose proof (proj1 I3) as V.
        unfold erase in E, V. rewrite I1, I2, I4, I7, E, V.
        replace (option_map (subst_action (fun _ => GBool true)) (i_conflict_action i))
          with (option_map (subst_action (fun _ => GBool true)) (i_conflict_action i')); [reflexivity|].
        destruct (i_conflict_action i) as [[|p]|], (i_conflict_action i') as [[|p']|]; try contradiction; try reflexivity.
        cbn in *. apply AP_erase in I5. unfold erase_pairs in I5. rewrite I5. reflexivity.
      + cbn [stmt_values]. apply Forall2_app; [apply (A_kept R), I3|]. apply Forall2_app; [|apply (AI_list_values R Rr), I6].
        destruct (i_conflict_action i) as [[|p]|], (i_conflict_action i') as [[|p']|]; try contradiction; try constructor.
        cbn in I5. rewrite (AP_empty _ _ I5). destruct (pairs_empty p'); [constructor|apply AP_values, I5].
    - apply update_rel in H. destruct H as (U1 & U2 & U3 & U4 & U5 & U6 & U7 & U8). split.
      + unfold erase_stmt. cbn [subst_stmt]. pose proof (AI_list_erase R _ _ U7) as E. pose proof (proj1 U6) as V.
        pose proof (AW_list_erase R _ _ U1) as W. apply AP_erase in U5. unfold erase, erase_pairs in *.
        rewrite U2, U3, U4, U5, U8, E, V, W. reflexivity.
      + cbn [stmt_values]. apply Forall2_app; [apply (AW_list_values R), U1|]. apply Forall2_app; [apply AP_values, U5|].
        apply Forall2_app; [apply (A_kept R), U6|apply (AI_list_values R Rr), U7].
    - apply delete_rel in H. destruct H as (D1 & D2 & D3 & D4 & D5). split.
      + unfold erase_stmt. cbn [subst_stmt]. pose proof (AI_list_erase R _ _ D4) as E. pose proof (proj1 D3) as V.
        unfold erase in *. rewrite D1, D2, D5, E, V. reflexivity.
      + cbn [stmt_values]. apply Forall2_app; [apply (A_kept R), D3|apply (AI_list_values R Rr), D4].
  Qed.
End Proofs.
