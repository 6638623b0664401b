(* Proofs about AddRows.v. *)
From Coq Require Import List Bool.
From Verif Require Import AddRows.
Import ListNotations.

Section AddRowsP.
  Context {A : Type} (hit : A -> A -> bool).

  Definition marked (rows : list A) : list (A * bool) := map (fun r => (r, true)) rows.
  Lemma fst_marked : forall rows : list A, map fst (marked rows) = rows.
  Proof. intro rows. unfold marked. rewrite map_map. apply map_id. Qed.
  Lemma fst_unmarked : forall rows : list A, map fst (unmarked rows) = rows.
  Proof. intro rows. unfold unmarked. rewrite map_map. apply map_id. Qed.
  Lemma barred_fst new : forall rows : list (A * bool),
    existsb (fun old => hit new (fst old)) rows = barred hit (map fst rows) new.
  Proof. unfold barred. induction rows as [|x rows IH]; [reflexivity|]. cbn [map existsb]. rewrite <- IH. reflexivity. Qed.

  Lemma fails_accepted : forall news rows, accepted hit (map fst rows) news ->
    add_rows hit Fails news rows = Some (rows ++ marked news, news).
  Proof.
    induction news as [|new news IH]; intros rows H; [cbn; rewrite app_nil_r; reflexivity|].
    cbn [accepted] in H. destruct H as [H1 H2]. cbn [add_rows]. rewrite barred_fst, H1.
    rewrite IH by (rewrite map_app; exact H2). rewrite <- app_assoc. reflexivity.
  Qed.
  Lemma fails_not_accepted : forall news rows, ~ accepted hit (map fst rows) news -> add_rows hit Fails news rows = None.
  Proof.
    induction news as [|new news IH]; intros rows H; [elim H; exact I|].
    cbn [accepted] in H. cbn [add_rows]. rewrite barred_fst. destruct (barred hit (map fst rows) new); [reflexivity|].
    rewrite IH; [reflexivity|]. rewrite map_app. intro B. apply H. split; [reflexivity|exact B].
  Qed.
  Lemma leaves_out_kept : forall news rows,
    add_rows hit LeavesOut news rows = Some (rows ++ marked (kept_rows hit (map fst rows) news), kept_rows hit (map fst rows) news).
  Proof.
    induction news as [|new news IH]; intros rows; [cbn; rewrite app_nil_r; reflexivity|].
    cbn [kept_rows add_rows]. rewrite barred_fst. destruct (barred hit (map fst rows) new); rewrite IH; [reflexivity|].
    rewrite map_app, <- app_assoc. reflexivity.
  Qed.

  Lemma add_accepted : forall rows news, accepted hit rows news -> add_to hit Fails news rows = Some (rows ++ news, news).
  Proof.
    intros rows news H. unfold add_to. rewrite fails_accepted by (rewrite fst_unmarked; exact H).
    cbn [option_map fst snd]. rewrite map_app, fst_unmarked, fst_marked. reflexivity.
  Qed.
  Lemma add_not_accepted : forall rows news, ~ accepted hit rows news -> add_to hit Fails news rows = None.
  Proof. intros rows news H. unfold add_to. rewrite fails_not_accepted by (rewrite fst_unmarked; exact H). reflexivity. Qed.
  Lemma add_kept : forall rows news,
    add_to hit LeavesOut news rows = Some (rows ++ kept_rows hit rows news, kept_rows hit rows news).
  Proof.
    intros rows news. unfold add_to. rewrite leaves_out_kept, fst_unmarked. cbn [option_map fst snd].
    rewrite map_app, fst_unmarked, fst_marked. reflexivity.
  Qed.

  Context (after : A -> A -> A).

  (* The rows that are not marked. *)
  Definition old_rows (rows : list (A * bool)) : list A := map fst (filter (fun x => negb (snd x)) rows).
  Definition put (news : list A) (x : A * bool) : A * bool :=
    if snd x then x else match find (fun new => hit new (fst x)) news with Some new => (after new (fst x), true) | None => x end.

  Lemma old_unmarked : forall rows : list A, old_rows (unmarked rows) = rows.
  Proof. induction rows as [|y r IH]; [reflexivity|]. unfold old_rows, unmarked in *. cbn. f_equal. exact IH. Qed.
  Lemma In_old_rows : forall rows r, In r (old_rows rows) <-> In (r, false) rows.
  Proof.
    intros rows r. unfold old_rows. rewrite in_map_iff. split.
    - intros ([r' b] & <- & H). apply filter_In in H as [H B]. destruct b; [discriminate|]. exact H.
    - intro H. exists (r, false). split; [reflexivity|]. apply filter_In. split; [exact H|reflexivity].
  Qed.
  Lemma barred_old : forall rows new, (forall x, In (x, true) rows -> hit new x = false) ->
    barred hit (map fst rows) new = barred hit (old_rows rows) new.
  Proof.
    unfold barred. induction rows as [|[x b] rows IH]; intros new M; [reflexivity|]. cbn [map existsb fst].
    rewrite IH by (intros y Y; apply M; right; exact Y).
    unfold old_rows. destruct b; cbn [filter snd negb map]; [|reflexivity].
    rewrite (M x (or_introl eq_refl)). reflexivity.
  Qed.
  Lemma filter_old (f : A -> bool) : forall rows : list (A * bool), (forall x, In (x, true) rows -> f x = false) ->
    filter f (map fst rows) = filter f (old_rows rows).
  Proof.
    unfold old_rows. induction rows as [|[r b] rows IH]; intro H; [reflexivity|]. cbn [map filter fst snd].
    rewrite IH by (intros x X; apply H; right; exact X). destruct b; cbn [negb map filter fst]; [|reflexivity].
    rewrite (H r (or_introl eq_refl)). reflexivity.
  Qed.
  Lemma or_found {B} (f : A -> bool) (h : A -> B) (e : list B) : forall o,
    (if existsb f o then map h (filter f o) else e) = match filter f o with [] => e | found => map h found end.
  Proof.
    intro o. assert (X : existsb f o = match filter f o with [] => false | _ => true end).
    { induction o as [|y o IH]; [reflexivity|]. cbn [existsb filter]. destruct (f y); [reflexivity|exact IH]. }
    rewrite X. destruct (filter f o); reflexivity.
  Qed.

  Lemma rewrites_each : forall news rows,
    (forall new x, In new news -> In (x, true) rows -> hit new x = false) -> one_each hit after (old_rows rows) news ->
    add_rows hit (Rewrites after) news rows
    = Some (map (put news) rows ++ marked (filter (fun new => negb (barred hit (old_rows rows) new)) news),
            flat_map (fun new => if barred hit (old_rows rows) new then map (after new) (filter (hit new) (old_rows rows)) else [new]) news).
  Proof.
    induction news as [|new news IH]; intros rows M P.
    - cbn. rewrite app_nil_r. f_equal. f_equal. symmetry. transitivity (map (fun x : A * bool => x) rows); [|apply map_id].
      apply map_ext. intros [r b]. unfold put. cbn. destruct b; reflexivity.
    - inversion P as [|? ? An As]; subst. rewrite Forall_forall in An.
      cbn [add_rows]. rewrite barred_fst, (barred_old rows new (fun x => M new x (or_introl eq_refl))).
      cbn [filter flat_map].
      destruct (barred hit (old_rows rows) new) eqn:Rn.
      + assert (N : existsb (fun old : A * bool => snd old && hit new (fst old)) rows = false).
        { apply not_true_is_false. intro B. apply existsb_exists in B as ([r b] & I & B). cbn [fst snd] in B.
          apply andb_true_iff in B as [-> B]. pose proof (M new r (or_introl eq_refl) I) as F. congruence. }
        rewrite N. cbn [negb].
        set (rows' := map (fun old : A * bool => if hit new (fst old) then (after new (fst old), true) else old) rows).
        assert (O : forall r, In (r, false) rows' <-> In (r, false) rows /\ hit new r = false).
        { intro r. unfold rows'. rewrite in_map_iff. split.
          - intros ([r' b] & E & I). cbn [fst] in E. destruct (hit new r') eqn:Cl; [discriminate|].
            injection E as -> ->. split; [exact I|exact Cl].
          - intros [I F]. exists (r, false). split; [|exact I]. cbn [fst]. rewrite F. reflexivity. }
        assert (T : forall r, In (r, true) rows' -> In (r, true) rows \/ exists old, In (old, false) rows /\ hit new old = true /\ r = after new old).
        { intros r I. unfold rows' in I. apply in_map_iff in I as ([r' b] & E & I). cbn [fst] in E.
          destruct (hit new r') eqn:Cl.
          - injection E as <-. destruct b.
            + exfalso. pose proof (M new r' (or_introl eq_refl) I) as F. congruence.
            + right. exists r'. split; [exact I|]. split; [exact Cl|reflexivity].
          - injection E as -> ->. left. exact I. }
        assert (S : forall m, In m news -> barred hit (old_rows rows') m = barred hit (old_rows rows) m).
        { intros m Im. unfold barred. apply eq_iff_eq_true. rewrite !existsb_exists. split; intros (r & I & F); exists r; (split; [|exact F]).
          - apply In_old_rows in I. apply O in I as [I _]. apply In_old_rows, I.
          - apply In_old_rows. apply In_old_rows in I. apply O. split; [exact I|]. apply not_true_is_false. intro Hn.
            destruct (proj2 (An m Im) r (proj2 (In_old_rows rows r) I) Hn) as [F' _]. congruence. }
        assert (L : forall m, In m news -> filter (hit m) (old_rows rows') = filter (hit m) (old_rows rows)).
        { intros m Im. pose proof (proj2 (An m Im)) as Q. clear - Q. unfold rows'. induction rows as [|[r b] rest IHr]; [reflexivity|].
          cbn [map fst]. unfold old_rows in *. cbn [filter snd negb].
          destruct b; cbn [negb filter map fst].
          - destruct (hit new r); cbn [filter snd negb]; apply IHr; intros o I; apply Q; exact I.
          - assert (IHr' := IHr ltac:(intros o I; apply Q; right; exact I)).
            destruct (hit new r) eqn:Cl; cbn [filter snd negb map fst].
            + destruct (Q r (or_introl eq_refl) Cl) as [F _]. rewrite F. exact IHr'.
            + rewrite IHr'. reflexivity. }
        rewrite IH.
        * f_equal. f_equal.
          { f_equal.
            - unfold rows'. rewrite map_map. apply map_ext_in. intros [r b] I. cbn [fst]. unfold put. cbn [find fst].
              destruct b.
              + pose proof (M new r (or_introl eq_refl) I) as F. rewrite F. reflexivity.
              + destruct (hit new r); cbn [snd fst]; reflexivity.
            - f_equal. apply filter_ext_in. intros m Im. rewrite (S m Im). reflexivity. }
          { f_equal.
            - f_equal. apply filter_old. intros x I. exact (M new x (or_introl eq_refl) I).
            - rewrite !flat_map_concat_map. f_equal. apply map_ext_in. intros m Im. rewrite (S m Im), (L m Im). reflexivity. }
        * intros m x Im I. apply T in I as [I|(old & I & F & ->)]; [exact (M m x (or_intror Im) I)|].
          exact (proj2 (proj2 (An m Im) old (proj2 (In_old_rows rows old) I) F)).
        * clear - As O. unfold one_each in *. induction As as [|a l Fa As' IHA]; [constructor|]. constructor; [|exact IHA].
          apply Forall_forall. intros m Im. rewrite Forall_forall in Fa. destruct (Fa m Im) as [F1 F2]. split; [exact F1|].
          intros old I. apply F2. apply In_old_rows. apply In_old_rows in I. apply O in I as [I _]. exact I.
      + cbn [negb]. assert (OE : old_rows (rows ++ [(new, true)]) = old_rows rows).
        { unfold old_rows. rewrite filter_app, map_app. cbn. apply app_nil_r. }
        rewrite IH.
        * rewrite OE. f_equal. f_equal. rewrite map_app, <- app_assoc. cbn [map put snd app]. f_equal.
          apply map_ext_in. intros [r b] I. unfold put. cbn [find fst snd]. destruct b; [reflexivity|].
          assert (F : hit new r = false).
          { apply not_true_is_false. intro F. assert (barred hit (old_rows rows) new = true); [|congruence].
            apply existsb_exists. exists r. split; [apply In_old_rows, I|exact F]. }
          rewrite F. reflexivity.
        * intros m x Im I. apply in_app_or in I as [I|[I|[]]]; [exact (M m x (or_intror Im) I)|].
          injection I as <-. exact (proj1 (An m Im)).
        * rewrite OE. exact As.
  Qed.

  Lemma add_rewriting : forall rows news, one_each hit after rows news ->
    add_to hit (Rewrites after) news rows
    = Some (map (fun r => match find (fun new => hit new r) news with Some new => after new r | None => r end) rows
              ++ filter (fun new => negb (barred hit rows new)) news,
            flat_map (fun new => match filter (hit new) rows with [] => [new] | found => map (after new) found end) news).
  Proof.
    intros rows news P. unfold add_to. rewrite rewrites_each.
    - rewrite old_unmarked. cbn [option_map fst snd]. f_equal. f_equal.
      + rewrite map_app, fst_marked. f_equal. unfold unmarked. rewrite !map_map. apply map_ext. intro r. unfold put. cbn [fst snd].
        destruct (find _ _); reflexivity.
      + rewrite !flat_map_concat_map. f_equal. apply map_ext. intro new. apply or_found.
    - intros new x _ I. unfold unmarked in I. apply in_map_iff in I as (y & E & _). discriminate.
    - rewrite old_unmarked. exact P.
  Qed.
  Lemma one_each_one : forall rows new, one_each hit after rows [new].
  Proof. intros rows new. constructor; constructor. Qed.
End AddRowsP.

Lemma found_or_barred {A} (hit : A -> A -> bool) new rows :
  barred hit rows new = match filter (hit new) rows with [] => false | _ => true end.
Proof. unfold barred. induction rows as [|y o IH]; [reflexivity|]. cbn [existsb filter]. destruct (hit new y); [reflexivity|exact IH]. Qed.
Lemma find_or_none {A B} (f : A -> bool) (x y : B) : forall l,
  match find f l with Some _ => x | None => y end = if existsb f l then x else y.
Proof. induction l as [|a l IH]; [reflexivity|]. cbn [find existsb]. destruct (f a); [reflexivity|exact IH]. Qed.

Lemma add_one_rewriting {A} (hit : A -> A -> bool) (after : A -> A -> A) : forall new rows,
  add_to hit (Rewrites after) [new] rows
  = Some match filter (hit new) rows with
         | [] => (rows ++ [new], [new])
         | found => (map (fun old => if hit new old then after new old else old) rows, map (after new) found)
         end.
Proof.
  intros new rows. rewrite add_rewriting by apply one_each_one. cbn [find flat_map filter]. rewrite app_nil_r, found_or_barred.
  destruct (filter (hit new) rows) as [|r0 found] eqn:E; cbn [negb]; do 2 f_equal.
  - f_equal. rewrite <- (map_id rows) at 2. apply map_ext_in. intros r I. destruct (hit new r) eqn:F; [|reflexivity].
    assert (In r []); [|contradiction]. rewrite <- E. apply filter_In. split; [exact I|exact F].
  - rewrite app_nil_r. apply map_ext. intro r. destruct (hit new r); reflexivity.
Qed.

(* What is done depends on the actions alone. *)
Lemma add_rows_ext {A} (hit : A -> A -> bool) : forall w w' : A -> A -> A, (forall x y, w x y = w' x y) -> forall news rows,
  add_rows hit (Rewrites w) news rows = add_rows hit (Rewrites w') news rows.
Proof.
  intros w w' E. induction news as [|new news IH]; intro rows; [reflexivity|]. cbn [add_rows].
  destruct (existsb _ _); [|rewrite IH; reflexivity]. destruct (existsb _ _); [reflexivity|].
  rewrite IH. rewrite (map_ext _ (w' new) (E new)).
  rewrite (map_ext (fun old : A * bool => if hit new (fst old) then (w new (fst old), true) else old)
                   (fun old => if hit new (fst old) then (w' new (fst old), true) else old)); [reflexivity|].
  intros old. rewrite E. reflexivity.
Qed.
Lemma add_to_ext {A} (hit : A -> A -> bool) : forall w w' : A -> A -> A, (forall x y, w x y = w' x y) -> forall news rows,
  add_to hit (Rewrites w) news rows = add_to hit (Rewrites w') news rows.
Proof. intros w w' E news rows. unfold add_to. rewrite (add_rows_ext hit w w' E). reflexivity. Qed.
