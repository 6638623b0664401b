(* The four builders satisfy what ArgsP.v asks for. *)
From Coq Require Import String List Arith ZArith Lia Bool.
From Verif Require Import Ast Write Api Parser Build Sort Mem Forks MemP ForksP Args ArgsP.
Import ListNotations.
Local Open Scope list_scope.

Ltac step_cases H :=
  repeat match type of H with
         | (if ?x then _ else _) = Ok _ => destruct x; try discriminate H
         | (do _ <- ?x; _) = Ok _ => destruct x; cbn [bind] in H; try discriminate H
         | match ?x with _ => _ end = Ok _ => destruct x; try discriminate H
         end.

Lemma sim_start {V M} (put : M -> V -> var -> V) set_with get_with :
  sim put set_with get_with [] [] [] [] [] [] [].
Proof.
  split; [constructor|reflexivity|apply inv_start| | | |].
  - intro r. destruct r; reflexivity.
  - intros [|r] b E; discriminate E.
  - intros [|r] s E; discriminate E.
  - intros [|k] s E; discriminate E.
Qed.

(* ------------------------------------------------------------------------- *)
(* SELECT                                                                      *)
(* ------------------------------------------------------------------------- *)

Lemma sel_join_rest : forall q args q', sel_join q args = Ok q' ->
  exists js, q' = with_joins q js.
Proof.
  intros q args q' H. rewrite sel_join_value in H. destruct (join_value args) as [j|e]; cbn [map_ok] in H; [|discriminate H].
  injection H as <-. eexists. reflexivity.
Qed.

Lemma sel_put_fixed : forall m v q, sel_put m q v = q <->
  match m, v with
  | SMDistinctOn, VColumns l => s_distinct_on q = l
  | SMGroupBy, VColumns l => s_group_by q = l
  | SMColumns, VItems l => s_exprs q = l
  | _, _ => True
  end.
Proof.
  intros m v q. destruct m, v; cbn [sel_put]; try tauto;
    (split; [intro E; rewrite <- E; reflexivity|intros <-; destruct q; reflexivity]).
Qed.

Lemma sel_fields : forall q c q', sel_step q c = Ok q' ->
  (sel_clears c SMDistinctOn = false -> s_distinct_on q' = s_distinct_on q)
  /\ (sel_clears c SMGroupBy = false -> s_group_by q' = s_group_by q)
  /\ (sel_clears c SMColumns = false -> s_exprs q' = s_exprs q)
  /\ (sel_as_with c = None -> s_with q' = s_with q).
Proof.
  intros q c q' H. destruct c; cbn [sel_step] in H;
    try (apply sel_join_rest in H; destruct H as [js ->]; repeat split; reflexivity);
    step_cases H; injection H as <-; repeat split; intros; try reflexivity; discriminate.
Qed.

Lemma to_columns_kept : forall l cols, to_columns [GColumns l] = Ok cols -> cols = l.
Proof.
  intros l cols H. cbn [to_columns] in H. revert cols H.
  induction l as [|c l IH]; intros cols H; cbn [map_res] in H; [injection H as <-; reflexivity|].
  unfold check_column in H at 1. destruct (no_str (c_name c)); cbn [bind] in H; [discriminate H|].
  destruct (map_res check_column l) as [l'|e] eqn:E; cbn [bind] in H; [|discriminate H].
  injection H as <-. rewrite (IH l' eq_refl). reflexivity.
Qed.

Lemma select_arguments : forall g p, sel_careful p -> sel_arg_memory g p = sel_arg_values p.
Proof.
  intros g p H. unfold sel_arg_memory, sel_arg_values.
  eapply (run_values lk_select sel_step sel_given sel_given_withs sel_as_with sel_keeps sel_put sel_clears with_with s_with);
    [..|apply sim_start|exact H].
  - intros m v v' E. destruct m, v, v'; try discriminate E; reflexivity.
  - intros m v q c q' Hc Hp Hs. apply sel_put_fixed. apply sel_put_fixed in Hp.
    destruct (sel_fields q c q' Hs) as (F1 & F2 & F3 & _).
    destruct m, v; try exact I; [rewrite (F1 Hc)|rewrite (F3 Hc)|rewrite (F2 Hc)]; exact Hp.
  - intros m v q c q' Hg Hk Hs. apply sel_put_fixed. destruct m, v; try discriminate Hk; cbn [sel_given as_args] in Hg; injection Hg as <-;
      cbn [sel_step] in Hs.
    + destruct (nonempty (s_group_by q)); [discriminate Hs|]. destruct (to_columns [GColumns l]) as [cols|] eqn:E; cbn [bind] in Hs; [|discriminate Hs].
      destruct (nonempty cols); [|discriminate Hs]. injection Hs as <-. exact (to_columns_kept l cols E).
    + cbn [to_selexprs bind] in Hs. injection Hs as <-. reflexivity.
    + destruct (nonempty (s_group_by q)); [discriminate Hs|]. destruct (to_columns [GColumns l]) as [cols|] eqn:E; cbn [bind] in Hs; [|discriminate Hs].
      destruct (nonempty cols); [|discriminate Hs]. injection Hs as <-. exact (to_columns_kept l cols E).
  - intros m v c Hg. destruct m; cbn [sel_given] in Hg; try (injection Hg as <-; reflexivity).
    destruct v; try discriminate Hg. injection Hg as <-. reflexivity.
  - intros l l' c Hg. injection Hg as <-. split; [discriminate|reflexivity].
  - intros c l _. discriminate.
  - intros q c l Hc. destruct c; try discriminate Hc. injection Hc as ->. reflexivity.
  - intros q c q' Hc Hs. exact (proj2 (proj2 (proj2 (sel_fields q c q' Hs))) Hc).
  - intros a q Hn. exact (proj2 (proj2 (proj2 (sel_fields _ _ _ Hn))) eq_refl).
  - intros []. reflexivity.
  - reflexivity.
  - reflexivity.
  - intros m q v w. destruct m, v; reflexivity.
Qed.

(* ------------------------------------------------------------------------- *)
(* INSERT                                                                      *)
(* ------------------------------------------------------------------------- *)

Lemma ins_put_fixed : forall m v i, ins_put m i v = i <->
  match m, v with
  | IMColumns, VColumns l => i_columns i = l
  | IMReturning, VItems l => i_returning i = l
  | _, _ => True
  end.
Proof.
  intros m v i. destruct m, v; cbn [ins_put]; try tauto;
    (split; [intro E; rewrite <- E; reflexivity|intros <-; destruct i; reflexivity]).
Qed.

Lemma ins_fields {O : Oracle} : forall i c i', ins_step i c = Ok i' ->
  (ins_clears c IMColumns = false -> i_columns i' = i_columns i)
  /\ (ins_clears c IMReturning = false -> i_returning i' = i_returning i).
Proof.
  intros i c i' H. destruct c as [a|args|args|args|s|args|args]; cbn [ins_step] in H;
    try (destruct args as [|a0 args]); step_cases H; injection H as <-; repeat split; intros; try reflexivity; discriminate.
Qed.

Lemma insert_arguments {O : Oracle} : forall g p, ins_careful p -> ins_arg_memory g p = ins_arg_values p.
Proof.
  intros g p H. unfold ins_arg_memory, ins_arg_values.
  eapply (run_values lk_insert ins_step ins_given (fun _ => None) (fun _ => None) ins_keeps ins_put ins_clears (fun i _ => i) (fun _ => []));
    [..|apply sim_start|exact H].
  - intros m v v' E. destruct m, v, v'; try discriminate E; reflexivity.
  - intros m v i c i' Hc Hp Hs. apply ins_put_fixed. apply ins_put_fixed in Hp.
    destruct (ins_fields i c i' Hs) as (F1 & F2).
    destruct m, v; try exact I; [rewrite (F1 Hc)|rewrite (F2 Hc)]; exact Hp.
  - intros m v i c i' Hg Hk Hs. apply ins_put_fixed. destruct m, v; try discriminate Hk; cbn [ins_given as_args] in Hg; injection Hg as <-;
      cbn [ins_step] in Hs.
    + destruct (nonempty (i_columns i)); [discriminate Hs|]. destruct (to_columns [GColumns l]) as [cols|] eqn:E; cbn [bind] in Hs; [|discriminate Hs].
      injection Hs as <-. exact (to_columns_kept l cols E).
    + destruct (nonempty (i_returning i)); [discriminate Hs|]. cbn [to_selexprs bind] in Hs. injection Hs as <-. reflexivity.
  - reflexivity.
  - discriminate.
  - discriminate.
  - discriminate.
  - reflexivity.
  - reflexivity.
  - reflexivity.
  - reflexivity.
  - intros q w Nn. congruence.
  - reflexivity.
Qed.

(* ------------------------------------------------------------------------- *)
(* UPDATE                                                                      *)
(* ------------------------------------------------------------------------- *)

Lemma upd_put_fixed : forall m v u, upd_put m u v = u <->
  match m, v with UMReturning, VItems l => u_returning u = l | _, _ => True end.
Proof.
  intros m v u. destruct m, v; cbn [upd_put]; try tauto;
    (split; [intro E; rewrite <- E; reflexivity|intros <-; destruct u; reflexivity]).
Qed.

Lemma upd_fields : forall u c u', upd_step u c = Ok u' ->
  (upd_clears c UMReturning = false -> u_returning u' = u_returning u)
  /\ (upd_as_with c = None -> u_with u' = u_with u).
Proof.
  intros u c u' H. destruct c as [|args|args|args|e|e|e|a|args|s]; cbn [upd_step] in H;
    step_cases H; injection H as <-; repeat split; intros; try reflexivity; discriminate.
Qed.

Lemma update_arguments : forall g p, upd_careful p -> upd_arg_memory g p = upd_arg_values p.
Proof.
  intros g p H. unfold upd_arg_memory, upd_arg_values.
  eapply (run_values lk_update upd_step upd_given upd_given_withs upd_as_with upd_keeps upd_put upd_clears upd_with_with u_with);
    [..|apply sim_start|exact H].
  - intros m v v' E. destruct m, v, v'; try discriminate E; reflexivity.
  - intros m v q c q' Hc Hp Hs. apply upd_put_fixed. apply upd_put_fixed in Hp.
    destruct (upd_fields q c q' Hs) as (F1 & _). destruct m, v; try exact I. rewrite (F1 Hc). exact Hp.
  - intros m v u c u' Hg Hk Hs. apply upd_put_fixed. destruct m, v; try discriminate Hk; cbn [upd_given as_args] in Hg; injection Hg as <-;
      cbn [upd_step] in Hs.
    destruct (nonempty (u_returning u)); [discriminate Hs|]. cbn [to_selexprs bind] in Hs. injection Hs as <-. reflexivity.
  - intros m v c Hg. destruct m; injection Hg as <-; reflexivity.
  - intros l l' c Hg. injection Hg as <-. split; [discriminate|reflexivity].
  - intros c l _. discriminate.
  - intros q c l Hc. destruct c; try discriminate Hc. injection Hc as ->. reflexivity.
  - intros q c q' Hc Hs. exact (proj2 (upd_fields q c q' Hs) Hc).
  - intros a q Hn. unfold lk_update in Hn. destruct (to_table a); cbn [bind] in Hn; [|discriminate Hn]. injection Hn as <-. reflexivity.
  - intros []. reflexivity.
  - reflexivity.
  - reflexivity.
  - intros m q v w. destruct m, v; reflexivity.
Qed.

(* ------------------------------------------------------------------------- *)
(* DELETE                                                                      *)
(* ------------------------------------------------------------------------- *)

Lemma del_put_fixed : forall m v d, del_put m d v = d <->
  match m, v with DMReturning, VItems l => d_returning d = l | _, _ => True end.
Proof.
  intros m v d. destruct m, v; cbn [del_put]; try tauto;
    (split; [intro E; rewrite <- E; reflexivity|intros <-; destruct d; reflexivity]).
Qed.

Lemma del_fields : forall d c d', del_step d c = Ok d' ->
  del_clears c DMReturning = false -> d_returning d' = d_returning d.
Proof.
  intros d c d' H. destruct c; cbn [del_step] in H; step_cases H; injection H as <-; intros; try reflexivity; discriminate.
Qed.

Lemma delete_arguments : forall g p, del_careful p -> del_arg_memory g p = del_arg_values p.
Proof.
  intros g p H. unfold del_arg_memory, del_arg_values.
  eapply (run_values lk_delete del_step del_given (fun _ => None) (fun _ => None) del_keeps del_put del_clears (fun d _ => d) (fun _ => []));
    [..|apply sim_start|exact H].
  - intros m v v' E. destruct m, v, v'; try discriminate E; reflexivity.
  - intros m v d c d' Hc Hp Hs. apply del_put_fixed. apply del_put_fixed in Hp.
    pose proof (del_fields d c d' Hs) as F1. destruct m, v; try exact I. rewrite (F1 Hc). exact Hp.
  - intros m v d c d' Hg Hk Hs. apply del_put_fixed. destruct m, v; try discriminate Hk; cbn [del_given as_args] in Hg; injection Hg as <-;
      cbn [del_step] in Hs.
    destruct (nonempty (d_returning d)); [discriminate Hs|]. cbn [to_selexprs bind] in Hs. injection Hs as <-. reflexivity.
  - reflexivity.
  - discriminate.
  - discriminate.
  - discriminate.
  - reflexivity.
  - reflexivity.
  - reflexivity.
  - reflexivity.
  - intros q w Nn. congruence.
  - reflexivity.
Qed.
