(* Interleavings of programs that do not write what the others use; what the rendering programs
   compute alone. *)
From Coq Require Import String List Arith ZArith Lia Permutation Bool.
From Verif Require Import Ast Write Api Build Sort Mem Forks MemP WhereP Race.
Import ListNotations.
Local Open Scope list_scope.
Local Open Scope nat_scope.

Lemma write_eq : forall m l c, write m l c l = c.
Proof. intros m l c. unfold write. destruct (loc_dec l l) as [_|N]; [reflexivity|destruct N; reflexivity]. Qed.
Lemma write_ne : forall m l c l', l' <> l -> write m l c l' = m l'.
Proof. intros m l c l' N. unfold write. destruct (loc_dec l' l) as [E|_]; [destruct (N E)|reflexivity]. Qed.

Lemma solo_bind {A B} : forall (p : prog A) (f : A -> prog B) m,
  solo m (pbind p f) = solo (fst (solo m p)) (f (snd (solo m p))).
Proof. induction p as [r|l k IH|l c k IH]; intros f m; cbn; [reflexivity|apply IH|apply IH]. Qed.

(* ------------------------------------------------------------------------- *)
(* General theorems                                                            *)
(* ------------------------------------------------------------------------- *)

Lemma same_nth {A} : forall l l' : list A, (forall i, nth_error l i = nth_error l' i) -> l = l'.
Proof.
  induction l as [|x l IH]; intros [|y l'] H; [reflexivity|discriminate (H 0)|discriminate (H 0)|].
  pose proof (H 0) as E. injection E as ->. f_equal. apply IH. intro i. exact (H (S i)).
Qed.

Section General.
  Context {R : Type}.
  Notation thread := (prog R).

  (* The program accesses cells in [U] only, and writes cells in [W] only, whatever it reads. *)
  Fixpoint within (U W : loc -> Prop) (p : thread) : Prop :=
    match p with
    | Ret _ => True
    | Rd l k => U l /\ forall c, within U W (k c)
    | Wr l _ k => U l /\ W l /\ within U W k
    end.

  Lemma solo_agree : forall (p : thread) U W m m', within U W p -> (forall l, U l -> m l = m' l) ->
    snd (solo m p) = snd (solo m' p) /\ (forall l, U l -> fst (solo m p) l = fst (solo m' p) l).
  Proof.
    induction p as [r|l k IH|l c k IH]; intros U W m m' Hw A; cbn in *.
    - split; [reflexivity|exact A].
    - destruct Hw as [Ul Hk]. rewrite <- (A l Ul). apply (IH (m l) U W); [apply Hk|exact A].
    - destruct Hw as (Ul & _ & Hk). apply (IH U W); [exact Hk|]. intros l' U'. unfold write.
      destruct (loc_dec l' l); [reflexivity|apply A; exact U'].
  Qed.

  Lemma solo_outside : forall (p : thread) U W m l, within U W p -> ~ W l -> fst (solo m p) l = m l.
  Proof.
    induction p as [r|l0 k IH|l0 c k IH]; intros U W m l Hw N; cbn in *.
    - reflexivity.
    - destruct Hw as [_ Hk]. apply (IH (m l0) U W); [apply Hk|exact N].
    - destruct Hw as (_ & Wl & Hk). rewrite (IH U W); [|exact Hk|exact N]. apply write_ne. intros ->. exact (N Wl).
  Qed.

  (* Footprints of the goroutines. *)
  Definition apart_threads (U W : nat -> loc -> Prop) (n : nat) : Prop :=
    forall i j l, i < n -> j < n -> i <> j -> W j l -> U i l -> False.

  Record inv (U W : nat -> loc -> Prop) (m0 : memory) (ts0 : list thread) (s : memory * list thread) : Prop := {
    iv_length : length (snd s) = length ts0;
    iv_within : forall i p, nth_error (snd s) i = Some p -> within (U i) (W i) p;
    iv_result : forall i p p0, nth_error (snd s) i = Some p -> nth_error ts0 i = Some p0 ->
      snd (solo (fst s) p) = snd (solo m0 p0)
      /\ (forall l, U i l -> fst (solo (fst s) p) l = fst (solo m0 p0) l);
    iv_rest : forall l, (forall i, i < length ts0 -> ~ W i l) -> fst s l = m0 l }.

  Lemma nth_error_store_eq : forall (ts : list thread) i p, i < length ts -> nth_error (store ts i p) i = Some p.
  Proof. induction ts as [|t ts IH]; intros [|i] p L; cbn in *; [lia..|reflexivity|apply IH; lia]. Qed.
  Lemma nth_error_store_ne : forall (ts : list thread) i j p, i <> j -> nth_error (store ts i p) j = nth_error ts j.
  Proof. induction ts as [|t ts IH]; intros [|i] [|j] p N; cbn; try reflexivity; try lia. apply IH. lia. Qed.

  Lemma inv_step : forall U W m0 ts0 s i, apart_threads U W (length ts0) -> inv U W m0 ts0 s -> inv U W m0 ts0 (advance i s).
  Proof.
    intros U W m0 ts0 [m ts] i A [L1 H1 H2 H3]. cbn [fst snd] in *. unfold advance. cbn [fst snd].
    destruct (nth_error ts i) as [[r|l k|l c k]|] eqn:E; try (split; assumption).
    - assert (Li : i < length ts) by (apply nth_error_Some; rewrite E; discriminate).
      destruct (H1 i _ E) as [Ul Hk]. split; cbn [fst snd].
      + rewrite store_length. exact L1.
      + intros j p Hj. destruct (Nat.eq_dec i j) as [<-|N].
        * rewrite nth_error_store_eq in Hj by exact Li. injection Hj as <-. apply Hk.
        * rewrite nth_error_store_ne in Hj by exact N. apply H1. exact Hj.
      + intros j p p0 Hj Hp0. destruct (Nat.eq_dec i j) as [<-|N].
        * rewrite nth_error_store_eq in Hj by exact Li. injection Hj as <-. apply (H2 i _ p0 E Hp0).
        * rewrite nth_error_store_ne in Hj by exact N. apply (H2 j); assumption.
      + exact H3.
    - assert (Li : i < length ts) by (apply nth_error_Some; rewrite E; discriminate).
      destruct (H1 i _ E) as (Ul & Wl & Hk). split; cbn [fst snd].
      + rewrite store_length. exact L1.
      + intros j p Hj. destruct (Nat.eq_dec i j) as [<-|N].
        * rewrite nth_error_store_eq in Hj by exact Li. injection Hj as <-. exact Hk.
        * rewrite nth_error_store_ne in Hj by exact N. apply H1. exact Hj.
      + intros j p p0 Hj Hp0. destruct (Nat.eq_dec i j) as [<-|N].
        * rewrite nth_error_store_eq in Hj by exact Li. injection Hj as <-. apply (H2 i _ p0 E Hp0).
        * rewrite nth_error_store_ne in Hj by exact N.
          assert (Lj : j < length ts0) by (apply nth_error_Some; rewrite Hp0; discriminate).
          destruct (solo_agree p (U j) (W j) (write m l c) m (H1 j p Hj)) as [E1 E2].
          { intros l' Ul'. apply write_ne. intros ->. apply (A j i l Lj); [lia|lia|exact Wl|exact Ul']. }
          destruct (H2 j p p0 Hj Hp0) as [F1 F2]. split; [congruence|]. intros l' Ul'. rewrite E2, F2 by exact Ul'. reflexivity.
      + intros l' N. rewrite write_ne; [apply H3; exact N|]. intros ->. apply (N i); [lia|exact Wl].
  Qed.

  Lemma inv_start : forall U W m0 ts0, (forall i p, nth_error ts0 i = Some p -> within (U i) (W i) p) ->
    inv U W m0 ts0 (m0, ts0).
  Proof.
    intros U W m0 ts0 H. split; cbn [fst snd]; [reflexivity|exact H| |reflexivity].
    intros i p p0 E E'. rewrite E in E'. injection E' as ->. split; reflexivity.
  Qed.

  Lemma inv_run : forall U W m0 ts0 sched s, apart_threads U W (length ts0) -> inv U W m0 ts0 s ->
    inv U W m0 ts0 (interleave sched s).
  Proof.
    intros U W m0 ts0 sched. induction sched as [|i sched IH]; intros s A H; [exact H|].
    cbn. apply IH; [exact A|]. apply inv_step; assumption.
  Qed.

  (* Goroutines that do not write what the others use: each returns what it returns alone, and
     the cells end as they do alone. *)
  Theorem separated_run : forall U W m ts sched m' rs,
    apart_threads U W (length ts) -> (forall i p, nth_error ts i = Some p -> within (U i) (W i) p) ->
    interleave sched (m, ts) = (m', map Ret rs) ->
    rs = map (fun p => snd (solo m p)) ts
    /\ (forall i p l, nth_error ts i = Some p -> U i l -> m' l = fst (solo m p) l)
    /\ (forall l, (forall i, i < length ts -> ~ W i l) -> m' l = m l).
  Proof.
    intros U W m ts sched m' rs A H E.
    pose proof (inv_run U W m ts sched (m, ts) A (inv_start U W m ts H)) as [L1 H1 H2 H3]. rewrite E in *. cbn [fst snd] in *.
    assert (K : forall i p, nth_error ts i = Some p -> exists r, nth_error rs i = Some r /\ r = snd (solo m p)
              /\ forall l, U i l -> m' l = fst (solo m p) l).
    { intros i p Hp. assert (Li : i < length rs).
      { rewrite map_length in L1. rewrite L1. apply nth_error_Some. rewrite Hp. discriminate. }
      destruct (nth_error rs i) as [r|] eqn:Er; [|apply nth_error_None in Er; lia].
      exists r. split; [reflexivity|].
      assert (Er' : nth_error (map Ret rs) i = Some (Ret r)) by (rewrite nth_error_map, Er; reflexivity).
      destruct (H2 i (Ret r) p Er' Hp) as [F1 F2]. cbn in F1, F2. split; [exact F1|exact F2]. }
    split; [|split; [|exact H3]].
    - apply same_nth.
      intro i. destruct (nth_error ts i) as [p|] eqn:Hp.
      + destruct (K i p Hp) as (r & Er & -> & _). rewrite Er, nth_error_map, Hp. reflexivity.
      + rewrite nth_error_map, Hp. apply nth_error_None in Hp. apply nth_error_None. rewrite map_length in L1. lia.
    - intros i p l Hp Ul. destruct (K i p Hp) as (r & _ & _ & F). apply F. exact Ul.
  Qed.

  (* The program, run alone from this memory, writes nothing. *)
  Fixpoint quiet (m : memory) (p : thread) : Prop :=
    match p with
    | Ret _ => True
    | Rd l k => quiet m (k (m l))
    | Wr _ _ _ => False
    end.

  Lemma quiet_step : forall m ts i, (forall j p, nth_error ts j = Some p -> quiet m p) ->
    fst (advance i (m, ts)) = m
    /\ (forall j p, nth_error (snd (advance i (m, ts))) j = Some p -> quiet m p)
    /\ map (fun p => snd (solo m p)) (snd (advance i (m, ts))) = map (fun p => snd (solo m p)) ts.
  Proof.
    intros m ts i H. unfold advance. cbn [fst snd].
    destruct (nth_error ts i) as [[r|l k|l c k]|] eqn:E; try (split; [reflexivity|split; [exact H|reflexivity]]).
    - assert (Li : i < length ts) by (apply nth_error_Some; rewrite E; discriminate).
      split; [reflexivity|]. cbn [fst snd]. split.
      + intros j p Hj. destruct (Nat.eq_dec i j) as [<-|N].
        * rewrite nth_error_store_eq in Hj by exact Li. injection Hj as <-. exact (H i _ E).
        * rewrite nth_error_store_ne in Hj by exact N. apply (H j). exact Hj.
      + apply same_nth. intro j. rewrite !nth_error_map. destruct (Nat.eq_dec i j) as [<-|N].
        * rewrite nth_error_store_eq by exact Li. rewrite E. reflexivity.
        * rewrite nth_error_store_ne by exact N. reflexivity.
    - destruct (H i _ E).
  Qed.

  Theorem quiet_run : forall sched m ts, (forall i p, nth_error ts i = Some p -> quiet m p) ->
    fst (interleave sched (m, ts)) = m
    /\ forall rs, snd (interleave sched (m, ts)) = map Ret rs -> rs = map (fun p => snd (solo m p)) ts.
  Proof.
    induction sched as [|i sched IH]; intros m ts H.
    - split; [reflexivity|]. cbn. intros rs ->. rewrite map_map. cbn. symmetry. apply map_id.
    - cbn [interleave fold_left]. destruct (quiet_step m ts i H) as (E1 & E2 & E3).
      destruct (advance i (m, ts)) as [m1 ts1]. cbn [fst snd] in *. subst m1.
      destruct (IH m ts1 E2) as [F1 F2]. split; [exact F1|]. intros rs E. rewrite (F2 rs E). exact E3.
  Qed.

  (* Whatever has happened so far, the goroutines can go on and return. *)
  Lemma finish_one : forall (p : thread) m ts i, nth_error ts i = Some p ->
    exists sched m' r, interleave sched (m, ts) = (m', store ts i (Ret r)).
  Proof.
    induction p as [r|l k IH|l c k IH]; intros m ts i E;
      assert (Li : i < length ts) by (apply nth_error_Some; rewrite E; discriminate).
    - exists [], m, r. cbn. f_equal. apply same_nth. intro j. destruct (Nat.eq_dec i j) as [<-|N].
      + rewrite nth_error_store_eq by exact Li. exact E.
      + rewrite nth_error_store_ne by exact N. reflexivity.
    - destruct (IH (m l) m (store ts i (k (m l))) i) as (sched & m' & r & H); [apply nth_error_store_eq; exact Li|].
      exists (i :: sched), m', r. cbn. unfold advance at 2. cbn [fst snd]. rewrite E. unfold interleave in H. rewrite H. f_equal.
      apply same_nth. intro j. destruct (Nat.eq_dec i j) as [<-|N].
      + rewrite !nth_error_store_eq; [reflexivity|exact Li|rewrite store_length; exact Li].
      + rewrite !nth_error_store_ne by exact N. reflexivity.
    - destruct (IH (write m l c) (store ts i k) i) as (sched & m' & r & H); [apply nth_error_store_eq; exact Li|].
      exists (i :: sched), m', r. cbn. unfold advance at 2. cbn [fst snd]. rewrite E. unfold interleave in H. rewrite H. f_equal.
      apply same_nth. intro j. destruct (Nat.eq_dec i j) as [<-|N].
      + rewrite !nth_error_store_eq; [reflexivity|exact Li|rewrite store_length; exact Li].
      + rewrite !nth_error_store_ne by exact N. reflexivity.
  Qed.

  Theorem can_finish : forall s : memory * list thread, exists sched m' rs, interleave sched s = (m', map Ret rs).
  Proof.
    intros [m ts].
    assert (K : forall n (m : memory) (ts : list thread), n <= length ts -> exists sched m' (rs : list R) rest,
              interleave sched (m, ts) = (m', map Ret rs ++ rest) /\ length rs = n /\ length (map Ret rs ++ rest) = length ts).
    { clear m ts. induction n as [|n IH]; intros m ts L.
      - exists [], m, (@nil R), ts. split; [reflexivity|split; reflexivity].
      - destruct (IH m ts ltac:(lia)) as (sched & m1 & rs & rest & E & Ln & Lt).
        destruct rest as [|p rest]; [rewrite app_nil_r, map_length in Lt; lia|].
        destruct (finish_one p m1 (map Ret rs ++ p :: rest) n) as (sched' & m' & r & E').
        { rewrite nth_error_app2 by (rewrite map_length; lia). rewrite map_length, Ln, Nat.sub_diag. reflexivity. }
        exists (sched ++ sched'), m', (rs ++ [r]), rest. split; [|split].
        + unfold interleave in *. rewrite fold_left_app, E, E'. f_equal. rewrite map_app, <- app_assoc. cbn.
          subst n. clear. induction rs as [|x rs IH]; cbn; [reflexivity|]. rewrite IH. reflexivity.
        + rewrite app_length. cbn. lia.
        + rewrite map_app, app_length, app_length, map_length in *. cbn in *. lia. }
    destruct (K (length ts) m ts (le_n _)) as (sched & m' & rs & rest & E & Ln & Lt).
    exists sched, m', rs. rewrite E. rewrite app_length, map_length in Lt. destruct rest; [|cbn in Lt; lia].
    rewrite app_nil_r. reflexivity.
  Qed.
End General.

Lemma within_bind {A B} : forall (p : prog A) (f : A -> prog B) U W,
  within U W p -> (forall a, within U W (f a)) -> within U W (pbind p f).
Proof.
  induction p as [r|l k IH|l c k IH]; intros f U W H K; cbn in *; [apply K| |].
  - destruct H as [Ul H]. split; [exact Ul|]. intro c. apply IH; [apply H|exact K].
  - destruct H as (Ul & Wl & H). split; [exact Ul|]. split; [exact Wl|]. apply IH; assumption.
Qed.

Lemma quiet_bind {A B} : forall (p : prog A) (f : A -> prog B) m,
  quiet m p -> quiet m (f (snd (solo m p))) -> quiet m (pbind p f).
Proof.
  induction p as [r|l k IH|l c k IH]; intros f m H K; cbn in *; [exact K|apply IH; assumption|destruct H].
Qed.

Lemma quiet_solo {R} : forall (p : prog R) m, quiet m p -> fst (solo m p) = m.
Proof. induction p as [r|l k IH|l c k IH]; intros m H; cbn in *; [reflexivity|apply IH; exact H|destruct H]. Qed.

(* Programs that never write. *)
Fixpoint reads_only {R} (p : prog R) : Prop :=
  match p with Ret _ => True | Rd _ k => forall c, reads_only (k c) | Wr _ _ _ => False end.
Lemma reads_only_quiet {R} : forall (p : prog R) m, reads_only p -> quiet m p.
Proof. induction p as [r|l k IH|l c k IH]; intros m H; cbn in *; [exact I|apply IH; apply H|exact H]. Qed.
Lemma reads_only_bind {A B} : forall (p : prog A) (f : A -> prog B),
  reads_only p -> (forall a, reads_only (f a)) -> reads_only (pbind p f).
Proof.
  induction p as [r|l k IH|l c k IH]; intros f H K; cbn in *; [apply K| |exact H].
  intro c. apply IH; [apply H|exact K].
Qed.
Lemma reads_only_cat : forall a b, reads_only a -> reads_only b -> reads_only (p_cat a b).
Proof.
  intros a b A B. apply reads_only_bind; [exact A|]. intros [t|e]; [|exact I].
  apply reads_only_bind; [exact B|]. intro y. exact I.
Qed.
