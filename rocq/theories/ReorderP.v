(* Proofs for C56, Reorder.v. *)
From Coq Require Import String List Bool.
From Verif Require Import Ast Write Api Parser Build Calls CallsP Reorder.
Import ListNotations.
Local Open Scope list_scope.

Section Traces.
  Context {S C K : Type} (step : S -> C -> res S) (about : K -> C -> bool) (clauses : list K).
  Context (every_clause : forall k, In k clauses) (about_one : forall c, exists k, about k c = true).

  Definition apart_from (a b : C) : Prop := forall k, about k a = true -> about k b = false.
  Context (commute : forall a b s, apart_from a b ->
    same_outcome (do x <- step s a; step x b) (do x <- step s b; step x a)).

  Lemma apart_dec : forall a b, {apart_from a b} + {exists k, about k a = true /\ about k b = true}.
  Proof.
    intros a b. destruct (existsb (fun k => about k a && about k b) clauses) eqn:E.
    - right. apply existsb_exists in E. destruct E as (k & _ & E). apply andb_true_iff in E. exists k. exact E.
    - left. intros k Ha. destruct (about k b) eqn:Hb; [|reflexivity].
      assert (X : existsb (fun k => about k a && about k b) clauses = true).
      { apply existsb_exists. exists k. split; [apply every_clause|]. rewrite Ha, Hb. reflexivity. }
      congruence.
  Qed.

  (* A list in which some call is about a clause of [a]: the first such call. *)
  Lemma first_about : forall a cs, (exists k, about k a = true /\ filter (about k) cs <> []) ->
    exists pre b post, cs = pre ++ b :: post /\ Forall (apart_from a) pre /\ exists k, about k a = true /\ about k b = true.
  Proof.
    intros a cs. induction cs as [|b cs IH]; intros (k & Hk & N); [contradiction|].
    destruct (apart_dec a b) as [D|D].
    - destruct IH as (pre & b' & post & -> & F & X).
      { exists k. split; [exact Hk|]. cbn [filter] in N. rewrite (D k Hk) in N. exact N. }
      exists (b :: pre), b', post. split; [reflexivity|]. split; [constructor; assumption|exact X].
    - exists [], b, cs. split; [reflexivity|]. split; [constructor|exact D].
  Qed.
  Lemma filter_apart : forall a pre k, Forall (apart_from a) pre -> about k a = true -> filter (about k) pre = [].
  Proof.
    intros a pre k F H. induction F as [|b pre D F IH]; [reflexivity|]. cbn. rewrite (D k H). exact IH.
  Qed.

  Definition run (s : S) (cs : list C) : res S := fold_res step cs s.

  Lemma run_cons : forall s c cs, run s (c :: cs) = do x <- step s c; run x cs.
  Proof. reflexivity. Qed.
  Lemma run_app : forall cs cs' s, run s (cs ++ cs') = do x <- run s cs; run x cs'.
  Proof.
    induction cs as [|c cs IH]; intros cs' s; [reflexivity|]. cbn [app]. rewrite !run_cons.
    destruct (step s c); [apply IH|reflexivity].
  Qed.
  Lemma same_under : forall A B (r : res A) (f g : A -> res B), (forall a, same_outcome (f a) (g a)) ->
    same_outcome (do a <- r; f a) (do a <- r; g a).
  Proof. intros A B [a|p] f g H; [apply H|cbn; exact I]. Qed.
  Lemma bind_bind : forall A B D (r : res A) (f : A -> res B) (g : B -> res D),
    (do b <- (do a <- r; f a); g b) = (do a <- r; do b <- f a; g b).
  Proof. intros A B D [a|p] f g; reflexivity. Qed.

  Lemma to_front : forall pre a post s, Forall (apart_from a) pre ->
    same_outcome (run s (pre ++ a :: post)) (run s (a :: pre ++ post)).
  Proof.
    intros pre a post s F. revert s. induction F as [|b pre D F IH]; intro s; [apply same_refl|].
    cbn [app]. apply (same_trans _ _ (do x <- step s b; run x (a :: pre ++ post))).
    - rewrite run_cons. apply same_under. exact IH.
    - assert (E : forall c d, run s (c :: d :: pre ++ post) = do y <- (do x <- step s c; step x d); run y (pre ++ post)).
      { intros c d. rewrite run_cons, bind_bind. destruct (step s c); reflexivity. }
      change (same_outcome (run s (b :: a :: pre ++ post)) (run s (a :: b :: pre ++ post))). rewrite !E.
      apply same_bind, same_sym, commute, D.
  Qed.

  Theorem same_run : forall cs cs' s, same_calls about cs cs' -> same_outcome (run s cs) (run s cs').
  Proof.
    induction cs as [|a cs IH]; intros cs' s H.
    - destruct cs' as [|b cs']; [apply same_refl|]. destruct (about_one b) as [k Hk]. specialize (H k). cbn in H.
      rewrite Hk in H. discriminate H.
    - destruct (first_about a cs') as (pre & b & post & -> & F & k & Ha & Hb).
      { destruct (about_one a) as [k Hk]. exists k. split; [exact Hk|]. rewrite <- (H k). cbn. rewrite Hk. discriminate. }
      assert (E : b = a).
      { pose proof (H k) as X. rewrite filter_app, (filter_apart a pre k F Ha) in X. cbn in X. rewrite Ha, Hb in X.
        injection X as X _. symmetry. exact X. }
      subst b. apply (same_trans _ _ (run s (a :: pre ++ post))); [|apply same_sym, to_front, F].
      rewrite !run_cons. apply same_under. intro x. apply IH. intro j. pose proof (H j) as X.
      rewrite filter_app in X |- *. cbn [filter] in X. destruct (about j a) eqn:J.
      + rewrite (filter_apart a pre j F J) in X |- *. cbn in X. injection X as X. exact X.
      + exact X.
  Qed.
End Traces.

Ltac bind_cases norm := norm;
  repeat (match goal with
    | H : ?r = _ |- context [bind ?r _] => rewrite H
    | |- context [bind ?r _] =>
      lazymatch r with Ok _ => fail | Panic _ => fail | bind _ _ => fail | _ => destruct r eqn:? end
    end; norm);
  first [exact I|reflexivity].

(* Each method computes from the clauses it is about, and writes those. *)
Section Insert.
  Context {O : Oracle}.
  Definition to_put_into (t : table) (g : gval) : res table :=
    if no_str (t_name t) then to_into g else Panic (already "insert builder has into clause").
  Definition to_put_columns (l : list column) (args : list gval) : res (list column) :=
    match args with
    | [] => Ok l
    | _ => if nonempty l then Panic (already "insert builder has columns clause") else to_columns args
    end.
  Definition to_put_values (e : expr) (args : list gval) : res expr :=
    do b <- cond_empty e; if b then new_array_list args else Panic (already "insert builder has values clause").
  Definition to_put_returning (l : list selexpr) (args : list gval) : res (list selexpr) :=
    if nonempty l then Panic (already "insert builder has returning clause") else to_selexprs args.
  Definition to_put_conflict (t : list column) (a : option conflict_action) (args : list gval)
    : res (list column * conflict_action) :=
    if conflict_empty a then
      match args with
      | [] => Panic (PMsg "loukoum: on conflict clause requires arguments")
      | _ => on_conflict_loop args t
      end
    else Panic (already "insert builder has on conflict clause").
  Definition to_put_set (l : list column) (e : expr) (args : list gval) : res (list column * expr) :=
    if nonempty l then Panic (already "insert builder has columns clause")
    else do b <- cond_empty e;
         if b then do p <- to_set args; do ce <- pairs_values p; do x <- new_array_list [GExprs (snd ce)]; Ok (fst ce, x)
         else Panic (already "insert builder has values clause").

  Definition ins_parts (i : insert) (c : ins_call) : res insert :=
    match c with
    | InsInto g => do t <- to_put_into (i_into i) g; Ok (ins_with_into i t)
    | InsColumns args => do l <- to_put_columns (i_columns i) args; Ok (ins_with_columns i l)
    | InsValues args => do e <- to_put_values (i_values i) args; Ok (ins_with_values i e)
    | InsReturning args => do l <- to_put_returning (i_returning i) args; Ok (ins_with_returning i l)
    | InsComment c => Ok (ins_with_comment i c)
    | InsOnConflict args => do x <- to_put_conflict (i_conflict_target i) (i_conflict_action i) args;
                            Ok (ins_with_conflict i (fst x) (Some (snd x)))
    | InsSet args => do x <- to_put_set (i_columns i) (i_values i) args;
                     Ok (ins_with_values (ins_with_columns i (fst x)) (snd x))
    end.
  Lemma ins_step_parts : forall i c, ins_step i c = ins_parts i c.
  Proof.
    intros i c. destruct c; cbn [ins_step ins_parts].
    - unfold to_put_into. destruct (no_str _); reflexivity.
    - unfold to_put_columns. destruct args; [destruct i; reflexivity|]. destruct (nonempty _); reflexivity.
    - unfold to_put_values. destruct (cond_empty _) as [[]|]; reflexivity.
    - unfold to_put_returning. destruct (nonempty _); reflexivity.
    - reflexivity.
    - unfold to_put_conflict. destruct (conflict_empty _); [|reflexivity]. destruct args; reflexivity.
    - unfold to_put_set. destruct (nonempty _); [reflexivity|]. destruct (cond_empty _) as [[]|]; try reflexivity. cbn [bind].
      destruct (to_set args) as [p|]; [|reflexivity]. cbn [bind]. destruct (pairs_values p) as [ce|]; [|reflexivity]. cbn [bind].
      destruct (new_array_list _); reflexivity.
  Qed.
  Lemma ins_commute : forall a b i, apart_from ins_about a b ->
    same_outcome (do x <- ins_step i a; ins_step x b) (do x <- ins_step i b; ins_step x a).
  Proof.
    intros a b i D.
    assert (E : forall a b, (do x <- ins_step i a; ins_step x b) = (do x <- ins_parts i a; ins_parts x b)).
    { intros a' b'. rewrite ins_step_parts. destruct (ins_parts i a'); [apply ins_step_parts|reflexivity]. }
    rewrite !E. clear E.
    destruct a, b; try (exfalso; first [discriminate (D InInto eq_refl)|discriminate (D InColumns eq_refl)
      |discriminate (D InValues eq_refl)|discriminate (D InConflict eq_refl)|discriminate (D InReturning eq_refl)
      |discriminate (D InComment eq_refl)]); clear D; unfold ins_parts.
    all: bind_cases ltac:(cbn [i_into i_columns i_values i_conflict_target i_conflict_action i_returning i_comment
              ins_with_into ins_with_columns ins_with_values ins_with_conflict ins_with_returning ins_with_comment bind fst snd]).
  Qed.
End Insert.
Lemma ins_same_run {O : Oracle} : forall cs cs' i, same_calls ins_about cs cs' -> same_outcome (ins_run i cs) (ins_run i cs').
Proof.
  intros cs cs' i. apply (same_run ins_step ins_about [InInto; InColumns; InValues; InConflict; InReturning; InComment]).
  - intros []; cbn; auto 7.
  - intros []; [exists InInto|exists InColumns|exists InValues|exists InReturning|exists InComment|exists InConflict|exists InColumns]; reflexivity.
  - apply ins_commute.
Qed.
