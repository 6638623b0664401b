(* Programs that keep their slices print what they would print if arguments were values, when
   they are careful. *)
From Coq Require Import String List Arith ZArith Lia Bool.
From Verif Require Import Ast Write Api Parser Build Sort Mem Forks MemP ForksP Args.
Import ListNotations.
Local Open Scope list_scope.
Local Open Scope nat_scope.

(* ------------------------------------------------------------------------- *)
(* Arrays                                                                      *)
(* ------------------------------------------------------------------------- *)

Lemma nth_store_any {A} : forall (h : list A) p q x d,
  nth q (store h p x) d = if (q =? p) && (p <? length h) then x else nth q h d.
Proof.
  induction h as [|y h IH]; intros [|p] [|q] x d; cbn; try reflexivity.
  - rewrite andb_false_r. reflexivity.
  - rewrite IH. reflexivity.
Qed.

Lemma firstn_store {A} : forall (a : list A) n j x, j < n -> firstn n (store a j x) = store (firstn n a) j x.
Proof.
  induction a as [|y a IH]; intros [|n] [|j] x L; cbn; try reflexivity; try lia.
  rewrite IH by lia. reflexivity.
Qed.

Lemma store_out {A} : forall (a : list A) j x, length a <= j -> store a j x = a.
Proof. induction a as [|y a IH]; intros [|j] x L; cbn in *; try reflexivity; try lia. rewrite IH by lia. reflexivity. Qed.

Lemma map_store {A B} (f : A -> B) : forall l k x, map f (store l k x) = store (map f l) k (f x).
Proof. induction l as [|y l IH]; intros [|k] x; cbn; try reflexivity. rewrite IH. reflexivity. Qed.

Lemma Forall2_weaken {A B} (R R' : A -> B -> Prop) : (forall a b, R a b -> R' a b) ->
  forall l l', Forall2 R l l' -> Forall2 R' l l'.
Proof. intros H l l' F. induction F; constructor; auto. Qed.

Lemma Forall2_len {A B} (R : A -> B -> Prop) : forall l l', Forall2 R l l' -> length l = length l'.
Proof. intros l l' F. induction F; cbn; congruence. Qed.

Lemma Forall2_store {A B} (R : A -> B -> Prop) : forall l l' k x y, Forall2 R l l' -> R x y ->
  Forall2 R (store l k x) (store l' k y).
Proof.
  intros l l' k x y F H. revert k. induction F as [|a b l l' Ha T IH]; intros [|k]; cbn [store].
  - constructor.
  - constructor.
  - constructor; assumption.
  - constructor; [assumption|apply IH].
Qed.

Section Withs.
  Context {A : Type} (zero : A) (grow : nat -> nat -> nat).

  (* A new array with room for more. *)
  Lemma inv_alloc : forall h sl vals vers used xs spare, inv (A := A) h sl vals vers used ->
    inv (h ++ [xs ++ repeat zero spare])
        (sl ++ [{| sl_ptr := length h; sl_len := length xs; sl_cap := length xs + spare |}])
        (vals ++ [xs]) (vers ++ [Grown (length vers)]) used.
  Proof.
    intros h sl vals vers used xs spare [Is Iv Iw (F & If & Ip)].
    set (a := xs ++ repeat zero spare). set (s := {| sl_ptr := length h; sl_len := length xs; sl_cap := length xs + spare |}).
    assert (La : length a = length xs + spare) by (unfold a; rewrite app_length, repeat_length; reflexivity).
    assert (LL : length (vers ++ [Grown (length vers)]) = S (length vers)) by (rewrite app_length; cbn; lia).
    assert (Oth : forall t, valid h t -> view (h ++ [a]) t = view h t /\ valid (h ++ [a]) t) by (intros t; apply (make_others h a)).
    assert (V : valid (h ++ [a]) s).
    { right. cbn [sl_ptr sl_len sl_cap s]. rewrite app_length, app_nth2 by lia. rewrite Nat.sub_diag. cbn [nth length]. lia. }
    split; [rewrite !app_length; cbn; lia..| |].
    - intros r L. rewrite LL in L. destruct (Nat.eq_dec r (length vers)) as [-> | N].
      + rewrite !nth_snoc_eq by congruence. unfold view. cbn [sl_ptr sl_len s].
        rewrite app_nth2 by lia. rewrite Nat.sub_diag. cbn [nth]. unfold a.
        rewrite firstn_app, Nat.sub_diag, firstn_O, app_nil_r. apply firstn_all.
      + rewrite !nth_snoc_lt by lia. rewrite <- Iw by lia. apply Oth. apply (If r). lia.
    - exists (fun p => if p =? length h then length xs else F p). split.
      + intros r L. rewrite LL in *. destruct (Nat.eq_dec r (length vers)) as [-> | N].
        * rewrite !nth_snoc_eq by congruence. split; [exact V| |].
          -- intros _. cbn [sl_ptr sl_len sl_cap s]. rewrite app_length, Nat.eqb_refl. cbn. lia.
          -- split; [lia|]. intros _ _. cbn [sl_ptr sl_len s]. rewrite Nat.eqb_refl. reflexivity.
        * rewrite !nth_snoc_lt by lia. destruct (If r ltac:(lia)) as [Vr Fr Or].
          split; [apply Oth; exact Vr| |].
          -- intro C. destruct (Fr C) as (P & L1 & L2). rewrite app_length. cbn [length].
             replace (sl_ptr (nth r sl nil_slice) =? length h) with false by (symmetry; apply Nat.eqb_neq; lia).
             repeat split; [lia|exact L1|exact L2].
          -- destruct (nth r vers Never) as [| |k]; [exact Or..|]. destruct Or as [K Or]. split; [lia|].
             intros C NI. destruct (Fr C) as (P & _ & _).
             replace (sl_ptr (nth r sl nil_slice) =? length h) with false by (symmetry; apply Nat.eqb_neq; lia).
             apply Or; assumption.
      + intros r1 r2 k1 k2 L1 L2. rewrite LL in L1, L2.
        assert (Clash : forall t, t < length vers -> sl_cap (nth t sl nil_slice) > 0 ->
                  sl_ptr (nth t sl nil_slice) <> length h).
        { intros t Lt C. destruct (If t Lt) as [_ Ft _]. destruct (Ft C). lia. }
        destruct (Nat.eq_dec r1 (length vers)) as [-> | N1].
        * rewrite (nth_snoc_eq vers), (nth_snoc_eq sl) by congruence. intro E1.
          destruct (Nat.eq_dec r2 (length vers)) as [-> | N2].
          -- rewrite (nth_snoc_eq vers) by reflexivity. intro E2. intros. congruence.
          -- rewrite !nth_snoc_lt by lia. intros E2 C1 C2 Ep. exfalso. apply (Clash r2); [lia|exact C2|]. rewrite <- Ep. reflexivity.
        * rewrite (nth_snoc_lt vers _ _ r1), (nth_snoc_lt sl _ _ r1) by lia. intro E1.
          destruct (Nat.eq_dec r2 (length vers)) as [-> | N2].
          -- rewrite (nth_snoc_eq vers), (nth_snoc_eq sl) by congruence. intros E2 C1 C2 Ep. exfalso. apply (Clash r1); [lia|exact C1|exact Ep].
          -- rewrite !nth_snoc_lt by lia. intros. apply (Ip r1 r2 k1 k2); try assumption; lia.
  Qed.

  (* An assignment to an element of an array that one register alone has. *)
  Lemma inv_put : forall h sl vals vers used k j x, inv (A := A) h sl vals vers used -> k < length vers ->
    j < sl_len (nth k sl nil_slice) ->
    (forall r, r <> k -> r < length vers -> sl_cap (nth r sl nil_slice) > 0 ->
       sl_ptr (nth r sl nil_slice) <> sl_ptr (nth k sl nil_slice)) ->
    inv (store h (sl_ptr (nth k sl nil_slice)) (store (nth (sl_ptr (nth k sl nil_slice)) h []) j x)) sl
        (store vals k (store (nth k vals []) j x)) vers used.
  Proof.
    intros h sl vals vers used k j x [Is Iv Iw (F & If & Ip)] Lk Lj Al.
    set (s := nth k sl nil_slice) in *.
    assert (Vd : forall t, valid h t -> valid (store h (sl_ptr s) (store (nth (sl_ptr s) h []) j x)) t).
    { intros t [C | (P & Ln & L)]; [left; exact C|right]. rewrite store_length. repeat split; [exact P| |exact L].
      rewrite nth_store_any. destruct (sl_ptr t =? sl_ptr s) eqn:E; cbn [andb]; [|exact Ln].
      apply Nat.eqb_eq in E. destruct (sl_ptr s <? length h); [|exact Ln]. rewrite store_length, <- E. exact Ln. }
    assert (Ps : sl_ptr s < length h).
    { destruct (If k Lk) as [Vs _ _]. fold s in Vs. destruct Vs as [[_ Z] | (P & _)]; [lia|exact P]. }
    split; [exact Is|rewrite store_length; exact Iv| |].
    - intros r L. destruct (Nat.eq_dec r k) as [-> | N].
      + fold s. rewrite nth_store_eq by lia. rewrite <- (Iw k Lk). fold s. unfold view.
        rewrite nth_store_eq by exact Ps. apply firstn_store. exact Lj.
      + rewrite (nth_store_ne vals) by congruence. rewrite <- (Iw r L).
        destruct (If r L) as [Vr _ _]. destruct Vr as [[C Z] | (P & Ln & Le)].
        { unfold view. rewrite Z. reflexivity. }
        destruct (Nat.eq_dec (sl_cap (nth r sl nil_slice)) 0) as [Z|NZ].
        { unfold view. replace (sl_len (nth r sl nil_slice)) with 0 by lia. reflexivity. }
        unfold view. rewrite nth_store_ne; [reflexivity|]. intro E. apply (Al r N L); [lia|]. symmetry. exact E.
    - exists F. split; [|exact Ip]. intros r L. destruct (If r L) as [Vr Fr Or]. split; [apply Vd; exact Vr| |exact Or].
      intro C. destruct (Fr C) as (P & L1 & L2). rewrite store_length. repeat split; assumption.
  Qed.
End Withs.


(* ------------------------------------------------------------------------- *)
(* The invariant                                                               *)
(* ------------------------------------------------------------------------- *)

Inductive kind := KColumns | KItems | KNames | KAnys | KOrders | KWiths (n : nat).
Definition kind_of (v : var) : kind :=
  match v with
  | VColumns _ => KColumns | VItems _ => KItems | VNames _ => KNames | VAnys _ => KAnys
  | VOrders _ => KOrders | VWiths l => KWiths (length l)
  end.

Lemma poke_kind : forall v j x, kind_of (poke v j x) = kind_of v.
Proof. intros [] j []; cbn; try reflexivity. rewrite store_length. reflexivity. Qed.

Section Simulation.
  Context {N V C M : Type}
    (new : N -> res V) (step : V -> C -> res V)
    (given : M -> var -> option C)
    (given_withs : list withq -> option C) (as_with : C -> option (list withq))
    (keeps : M -> var -> bool) (put : M -> V -> var -> V) (clears : C -> M -> bool)
    (set_with : V -> list withq -> V) (get_with : V -> list withq).

  Hypothesis keeps_kind : forall m v v', kind_of v = kind_of v' -> keeps m v = keeps m v'.
  Hypothesis put_stays : forall m v q c q', clears c m = false -> put m q v = q -> step q c = Ok q' -> put m q' v = q'.
  Hypothesis put_given : forall m v q c q', given m v = Some c -> keeps m v = true -> step q c = Ok q' -> put m q' v = q'.
  Hypothesis given_plain : forall m v c, given m v = Some c -> as_with c = None.
  Hypothesis given_with : forall l l' c, given_withs l = Some c -> given_withs l' <> None /\ as_with c = Some l.
  Hypothesis with_given : forall c l, as_with c = Some l -> given_withs [] <> None.
  Hypothesis with_step : forall q c l, as_with c = Some l ->
    step q c = Ok (set_with q (if nonempty (get_with q) then get_with q ++ l else l)).
  Hypothesis plain_get : forall q c q', as_with c = None -> step q c = Ok q' -> get_with q' = get_with q.
  Hypothesis new_get : forall a q, new a = Ok q -> get_with q = [].
  Hypothesis set_get : forall q, set_with q (get_with q) = q.
  Hypothesis set_set : forall q a b, set_with (set_with q a) b = set_with q b.
  Hypothesis get_set : forall q w, given_withs [] <> None -> get_with (set_with q w) = w.
  Hypothesis put_set : forall m q v w, put m (set_with q w) v = set_with (put m q v) w.

  Context (g : growth).

  Definition with_of (r : shown V) : list withq :=
    match r with Built q => get_with q | Held (VWiths l) => l | _ => [] end.
  Definition slice_of (r : mreg (V := V) (M := M)) : slice :=
    match r with MBuilt b => br_withs b | MSlice s => s | _ => nil_slice end.

  Definition rel (vals : list (shown V)) (kept : list nat) (r : mreg (V := V) (M := M)) (s : shown V) : Prop :=
    match r, s with
    | MNothing, Nothing => True
    | MBuilt b, Built q =>
      set_with (br_rest b) (get_with q) = q
      /\ forall m k, In (m, k) (br_kept b) -> In k kept /\ exists v, nth k vals Nothing = Held v /\ put m q v = q
    | MHeld (VWiths _), _ => False
    | MHeld v, Held v' => v = v'
    | MSlice _, Held (VWiths _) => True
    | _, _ => False
    end.

  Definition shape (r : mreg (V := V) (M := M)) (s : shown V) : Prop :=
    match r, s with
    | MHeld (VWiths _), _ => False
    | MHeld v, Held v' => v = v'
    | MSlice _, Held (VWiths _) => True
    | MBuilt _, Built _ | MNothing, Nothing => True
    | _, _ => False
    end.

  Record sim (h : list (list withq)) (regs : list (mreg (V := V) (M := M))) (vals : list (shown V)) (vars : list (option var))
      (vers : list origin) (used kept : list nat) : Prop := {
    sim_rel : Forall2 (rel vals kept) regs vals;
    sim_vars : length vars = length vals;
    sim_inv : inv h (map slice_of regs) (map with_of vals) vers used;
    sim_kind : forall r, match nth r vals Nothing with
                         | Held v => exists v0, nth r vars None = Some v0 /\ kind_of v0 = kind_of v
                         | _ => nth r vars None = None
                         end;
    sim_some : forall r b, nth r regs MNothing = MBuilt b -> nth r vers Never <> Never -> sl_len (br_withs b) > 0;
    sim_empty : forall r s, nth r regs MNothing = MSlice s -> sl_len s = 0 -> sl_cap s = 0;
    sim_alone : forall k s, nth k regs MNothing = MSlice s -> sl_cap s > 0 -> ~ In k kept ->
      forall r, r <> k -> r < length vers -> sl_cap (nth r (map slice_of regs) nil_slice) > 0 ->
      sl_ptr (nth r (map slice_of regs) nil_slice) <> sl_ptr s }.

  Lemma nth_slice : forall regs i, nth i (map slice_of regs) nil_slice = slice_of (nth i regs MNothing).
  Proof. intros regs i. change nil_slice with (slice_of MNothing). apply map_nth. Qed.
  Lemma nth_with : forall vals i, nth i (map with_of vals) [] = with_of (nth i vals Nothing).
  Proof. intros vals i. change (@nil withq) with (with_of Nothing). apply map_nth. Qed.

  Lemma sim_length : forall h regs vals vars vers used kept, sim h regs vals vars vers used kept ->
    length regs = length vers /\ length vals = length vers /\ length vars = length vers.
  Proof.
    intros h regs vals vars vers used kept S.
    pose proof (inv_sl _ _ _ _ _ (sim_inv _ _ _ _ _ _ _ S)) as L1. rewrite map_length in L1.
    pose proof (inv_vals _ _ _ _ _ (sim_inv _ _ _ _ _ _ _ S)) as L2. rewrite map_length in L2.
    pose proof (sim_vars _ _ _ _ _ _ _ S). lia.
  Qed.

  Lemma sim_nth : forall h regs vals vars vers used kept i, sim h regs vals vars vers used kept ->
    rel vals kept (nth i regs MNothing) (nth i vals Nothing).
  Proof.
    intros h regs vals vars vers used kept i S.
    assert (H : forall vs l l', Forall2 (rel vs kept) l l' -> forall i, rel vs kept (nth i l MNothing) (nth i l' Nothing)).
    { intros vs l l' H. induction H as [|x y l l' Hx _ IH]; intros [|j]; cbn [nth]; [exact I|exact I|exact Hx|apply IH]. }
    apply H. exact (sim_rel _ _ _ _ _ _ _ S).
  Qed.

  Lemma sim_view : forall h regs vals vars vers used kept i, sim h regs vals vars vers used kept -> i < length vers ->
    view h (slice_of (nth i regs MNothing)) = with_of (nth i vals Nothing).
  Proof.
    intros h regs vals vars vers used kept i S L.
    pose proof (inv_view _ _ _ _ _ (sim_inv _ _ _ _ _ _ _ S) i L) as W. rewrite nth_slice, nth_with in W. exact W.
  Qed.

  Lemma sim_valid : forall h regs vals vars vers used kept i, sim h regs vals vars vers used kept -> i < length vers ->
    valid h (slice_of (nth i regs MNothing)).
  Proof.
    intros h regs vals vars vers used kept i S L.
    destruct (inv_shares _ _ _ _ _ (sim_inv _ _ _ _ _ _ _ S)) as (F & If & _). destruct (If i L) as [Vs _ _].
    rewrite nth_slice in Vs. exact Vs.
  Qed.

  Lemma nth_in {A} : forall (l : list A) i d x, nth i l d = x -> x <> d -> i < length l.
  Proof. intros l i d x E Nd. destruct (le_lt_dec (length l) i) as [L|L]; [|exact L]. rewrite nth_overflow in E by exact L. congruence. Qed.

  Lemma sim_content : forall h regs vals vars vers used kept k, sim h regs vals vars vers used kept ->
    content h (nth k regs MNothing) = match nth k vals Nothing with Held v => Some v | _ => None end.
  Proof.
    intros h regs vals vars vers used kept k S. pose proof (sim_nth _ _ _ _ _ _ _ k S) as R.
    pose proof (sim_length _ _ _ _ _ _ _ S) as (L & _).
    destruct (nth k regs MNothing) as [|b|v|s] eqn:Ek; destruct (nth k vals Nothing) as [|q|v'] eqn:Ev; try contradiction R; try reflexivity.
    - destruct v; contradiction R.
    - destruct v; contradiction R.
    - destruct v; cbn in R; try contradiction R; subst; reflexivity.
    - destruct v'; try contradiction R. cbn. f_equal. f_equal.
      assert (Lk : k < length regs) by (eapply nth_in; [exact Ek|discriminate]).
      pose proof (sim_view _ _ _ _ _ _ _ k S ltac:(lia)) as W. rewrite Ek, Ev in W. exact W.
  Qed.

  Lemma sim_resolve : forall h regs vals vars vers used kept i b q, sim h regs vals vars vers used kept ->
    nth i regs MNothing = MBuilt b -> nth i vals Nothing = Built q ->
    resolve put set_with h regs b = q /\ view h (br_withs b) = get_with q /\ i < length vers.
  Proof.
    intros h regs vals vars vers used kept i b q S Eb Eq.
    assert (L : i < length vers).
    { destruct (sim_length _ _ _ _ _ _ _ S) as (L & _). rewrite <- L. eapply nth_in; [exact Eb|discriminate]. }
    pose proof (sim_view _ _ _ _ _ _ _ i S L) as W. rewrite Eb, Eq in W. cbn [slice_of with_of] in W.
    split; [|split; [exact W|exact L]].
    pose proof (sim_nth _ _ _ _ _ _ _ i S) as R. rewrite Eb, Eq in R. cbn in R. destruct R as [Rr Rk].
    unfold resolve. rewrite W.
    assert (F : forall l, (forall m k, In (m, k) l -> exists v, nth k vals Nothing = Held v /\ put m q v = q) ->
      set_with (fold_right (fun mk q => match content h (nth (snd mk) regs MNothing) with
                               | Some v => put (fst mk) q v | None => q end) (br_rest b) l) (get_with q) = q).
    { induction l as [|[m k] l IH]; intro H; [exact Rr|]. cbn [fold_right fst snd].
      destruct (H m k (or_introl eq_refl)) as (v & Ev & Ep).
      rewrite (sim_content _ _ _ _ _ _ _ k S), Ev. rewrite <- put_set, IH; [exact Ep|].
      intros m' k' I. apply H. right. exact I. }
    apply F. intros m k I. destruct (Rk m k I) as [_ E]. exact E.
  Qed.

  (* ----------------------------------------------------------------------- *)
  (* One more register                                                         *)
  (* ----------------------------------------------------------------------- *)

  Lemma rel_more : forall vals kept kept' x r s, incl kept kept' -> rel vals kept r s -> rel (vals ++ [x]) kept' r s.
  Proof.
    intros vals kept kept' x r s I R. destruct r as [|b|v|sl]; destruct s as [|q|v']; try exact R.
    destruct R as [R1 R2]. split; [exact R1|]. intros m k Hin. destruct (R2 m k Hin) as (Hk & v & Ev & Ep).
    split; [apply I; exact Hk|]. exists v. split; [|exact Ep].
    rewrite app_nth1; [exact Ev|]. eapply nth_in; [exact Ev|discriminate].
  Qed.

  Lemma rel_mono : forall vals kept kept' r s, incl kept kept' -> rel vals kept r s -> rel vals kept' r s.
  Proof.
    intros vals kept kept' r s I R. destruct r as [|b|v|sl]; destruct s as [|q|v']; try exact R.
    destruct R as [R1 R2]. split; [exact R1|]. intros m k Hin. destruct (R2 m k Hin) as (Hk & E). split; [apply I; exact Hk|exact E].
  Qed.

  Lemma sim_more : forall h regs vals vars vers used kept h' used' kept' r s v o,
    sim h regs vals vars vers used kept ->
    incl kept kept' ->
    rel (vals ++ [s]) kept' r s ->
    inv h' (map slice_of (regs ++ [r])) (map with_of (vals ++ [s])) (vers ++ [o]) used' ->
    match s with
    | Held x => exists v0, v = Some v0 /\ kind_of v0 = kind_of x
    | _ => v = None
    end ->
    (forall b, r = MBuilt b -> o <> Never -> sl_len (br_withs b) > 0) ->
    (forall s', r = MSlice s' -> sl_len s' = 0 -> sl_cap s' = 0) ->
    (* the new register shares only with variables that are not assigned any more *)
    (sl_cap (slice_of r) > 0 -> forall k s', nth k regs MNothing = MSlice s' -> sl_cap s' > 0 -> ~ In k kept' -> sl_ptr (slice_of r) <> sl_ptr s') ->
    (forall s', r = MSlice s' -> sl_cap s' > 0 -> ~ In (length vers) kept' ->
       forall t, t < length vers -> sl_cap (nth t (map slice_of regs) nil_slice) > 0 ->
       sl_ptr (nth t (map slice_of regs) nil_slice) <> sl_ptr s') ->
    sim h' (regs ++ [r]) (vals ++ [s]) (vars ++ [v]) (vers ++ [o]) used' kept'.
  Proof.
    intros h regs vals vars vers used kept h' used' kept' r s v o S I R W K B Em A1 A2.
    pose proof (sim_length _ _ _ _ _ _ _ S) as (Lr & Lv & La).
    destruct S as [SR SV SI SK SS SE SA]. split.
    - apply Forall2_snoc; [|exact R]. eapply Forall2_weaken; [|exact SR]. intros a b H. eapply rel_more; [exact I|exact H].
    - rewrite !app_length. cbn. lia.
    - exact W.
    - intro t. destruct (lt_eq_lt_dec t (length vers)) as [[L| ->]|L].
      + rewrite !nth_snoc_lt by lia. apply SK.
      + rewrite !nth_snoc_eq by congruence. destruct s; exact K.
      + rewrite !nth_overflow by (rewrite app_length; cbn; lia). reflexivity.
    - intros t b. destruct (lt_eq_lt_dec t (length vers)) as [[L| ->]|L].
      + rewrite !nth_snoc_lt by lia. apply SS.
      + rewrite !nth_snoc_eq by congruence. apply B.
      + rewrite !nth_overflow by (rewrite app_length; cbn; lia). discriminate.
    - intros t s'. destruct (lt_eq_lt_dec t (length vers)) as [[L| ->]|L].
      + rewrite !nth_snoc_lt by lia. apply SE.
      + rewrite !nth_snoc_eq by congruence. apply Em.
      + rewrite !nth_overflow by (rewrite app_length; cbn; lia). discriminate.
    - intros k s' Ek Ck Nk t Nt Lt. rewrite app_length in Lt. cbn in Lt. rewrite map_app. cbn [map].
      destruct (lt_eq_lt_dec k (length vers)) as [[L| ->]|L].
      + rewrite nth_snoc_lt in Ek by lia.
        destruct (Nat.eq_dec t (length vers)) as [-> | Nx].
        * rewrite nth_snoc_eq by (rewrite map_length; congruence). intro Cp. apply (A1 Cp k s' Ek Ck Nk).
        * rewrite nth_snoc_lt by (rewrite map_length; lia). intro Cp. apply (SA k s' Ek Ck); [|exact Nt|lia|exact Cp].
          intro H. apply Nk. apply I. exact H.
      + rewrite nth_snoc_eq in Ek by congruence.
        rewrite nth_snoc_lt by (rewrite map_length; lia). intro Cp. apply (A2 s' Ek Ck Nk); [lia|exact Cp].
      + rewrite nth_overflow in Ek by (rewrite app_length; cbn; lia). discriminate Ek.
  Qed.

  Lemma sim_below : forall h regs vals vars vers used kept i, sim h regs vals vars vers used kept ->
    origin_below (S (length vers)) (nth i vers Never).
  Proof. intros h regs vals vars vers used kept i S. eapply origin_below_nth. exact (sim_inv _ _ _ _ _ _ _ S). Qed.

  (* A command that gives nothing. *)
  Lemma sim_dead : forall h regs vals vars vers used kept used' kept' o,
    sim h regs vals vars vers used kept -> incl used used' -> incl kept kept' -> origin_below (S (length vers)) o ->
    sim h (regs ++ [MNothing]) (vals ++ [Nothing]) (vars ++ [None]) (vers ++ [o]) used' kept'.
  Proof.
    intros h regs vals vars vers used kept used' kept' o S U K B.
    eapply sim_more; [exact S|exact K|exact I| |reflexivity|discriminate|discriminate|cbn; lia|discriminate].
    rewrite !map_app. cbn [map slice_of with_of].
    apply inv_dead with (used := used); [exact (sim_inv _ _ _ _ _ _ _ S)|exact U|exact B|reflexivity..].
  Qed.

  (* A builder with the slice of register i. *)
  Lemma sim_copy : forall h regs vals vars vers used kept kept' i b b' q',
    sim h regs vals vars vers used kept -> incl kept kept' -> nth i regs MNothing = MBuilt b ->
    br_withs b' = br_withs b -> get_with q' = with_of (nth i vals Nothing) ->
    rel (vals ++ [Built q']) kept' (MBuilt b') (Built q') ->
    sim h (regs ++ [MBuilt b']) (vals ++ [Built q']) (vars ++ [None]) (vers ++ [nth i vers Never]) used kept'.
  Proof.
    intros h regs vals vars vers used kept kept' i b b' q' S K Eb Es Ew R.
    assert (L : i < length vers).
    { destruct (sim_length _ _ _ _ _ _ _ S) as (L & _). rewrite <- L. eapply nth_in; [exact Eb|discriminate]. }
    eapply sim_more; [exact S|exact K|exact R| |reflexivity| |discriminate| |discriminate].
    - rewrite !map_app. cbn [map slice_of with_of]. rewrite Es, Ew.
      pose proof (inv_copy _ _ _ _ _ i (sim_inv _ _ _ _ _ _ _ S) L) as W. rewrite nth_slice, nth_with, Eb in W. exact W.
    - intros b0 E NE. injection E as <-. rewrite Es. exact (sim_some _ _ _ _ _ _ _ S i b Eb NE).
    - cbn [slice_of]. rewrite Es. intros Cp k s' Ek Ck Nk.
      pose proof (sim_alone _ _ _ _ _ _ _ S k s' Ek Ck) as A.
      specialize (A (fun H => Nk (K _ H)) i). rewrite nth_slice, Eb in A. cbn [slice_of] in A.
      apply A; [intros ->; congruence|exact L|exact Cp].
  Qed.

  (* Appending to the slice of register i. *)
  Lemma sim_append : forall h regs vals vars vers used kept kept' i xs r s v,
    sim h regs vals vars vers used kept -> incl kept kept' -> i < length vers -> xs <> [] ->
    (match nth i vers Never with Grown k => ~ In k used | _ => True end) ->
    let a := extend g h (slice_of (nth i regs MNothing)) xs in
    slice_of r = snd a -> with_of s = with_of (nth i vals Nothing) ++ xs ->
    rel (vals ++ [s]) kept' r s ->
    match s with
    | Held x => exists v0, v = Some v0 /\ kind_of v0 = kind_of x
    | _ => v = None
    end ->
    (forall x, nth i regs MNothing = MSlice x -> In i kept') ->
    (forall x, r = MSlice x -> In (length vers) kept') ->
    sim (fst a) (regs ++ [r]) (vals ++ [s]) (vars ++ [v]) (vers ++ [Grown (length vers)])
        (match nth i vers Never with Grown k => k :: used | _ => used end) kept'.
  Proof.
    intros h regs vals vars vers used kept kept' i xs r s v S K L NE Fr a Er Es R Kd Ki Kn.
    pose proof (sim_valid _ _ _ _ _ _ _ i S L) as Vi.
    eapply sim_more; [exact S|exact K|exact R| |exact Kd| | | |].
    - rewrite !map_app. cbn [map]. rewrite Er, Es.
      pose proof (inv_append zero_withq (g_withs g) _ _ _ _ _ i xs (sim_inv _ _ _ _ _ _ _ S) L NE Fr) as W. cbv zeta in W.
      rewrite nth_slice, nth_with in W. exact W.
    - intros b -> _. cbn [slice_of] in Er. rewrite Er. unfold a, extend.
      destruct (append_view zero_withq (g_withs g) h _ xs Vi) as (_ & _ & Ln). rewrite Ln. destruct xs; [congruence|cbn; lia].
    - intros s' -> Z. cbn [slice_of] in Er. exfalso. rewrite Er in Z. unfold a, extend in Z.
      destruct (append_view zero_withq (g_withs g) h _ xs Vi) as (_ & _ & Ln). rewrite Ln in Z. destruct xs; [congruence|cbn in Z; lia].
    - rewrite Er. intros Cp k s' Ek Ck Nk. unfold a, extend, append in *.
      destruct (sl_len (slice_of (nth i regs MNothing)) + length xs <=? sl_cap (slice_of (nth i regs MNothing))) eqn:E; cbn [snd sl_ptr sl_cap] in *.
      + pose proof (sim_alone _ _ _ _ _ _ _ S k s' Ek Ck (fun H => Nk (K _ H)) i) as A. rewrite nth_slice in A.
        apply A; [|exact L|exact Cp]. intros ->. apply Nk. apply (Ki s'). exact Ek.
      + assert (Lk : k < length vers).
        { destruct (sim_length _ _ _ _ _ _ _ S) as (Lr & _). rewrite <- Lr. eapply nth_in; [exact Ek|discriminate]. }
        pose proof (sim_valid _ _ _ _ _ _ _ k S Lk) as Vk. rewrite Ek in Vk. cbn [slice_of] in Vk.
        destruct Vk as [[Z _] | (P & _)]; lia.
    - intros s' E _ Nn. exfalso. apply Nn. exact (Kn s' E).
  Qed.

  Lemma build_plain : forall h regs vals vars vers used kept i b q c extra kept',
    sim h regs vals vars vers used kept -> nth i regs MNothing = MBuilt b -> nth i vals Nothing = Built q ->
    as_with c = None -> incl kept kept' ->
    (forall m k q', In (m, k) extra -> step q c = Ok q' -> In k kept' /\ exists v, nth k vals Nothing = Held v /\ put m q' v = q') ->
    sim h (regs ++ [ref_call step put clears set_with h regs b c extra]) (vals ++ [built (step q c)]) (vars ++ [None])
        (vers ++ [nth i vers Never]) used kept'.
  Proof.
    intros h regs vals vars vers used kept i b q c extra kept' S Eb Eq Ec K Ex.
    destruct (sim_resolve _ _ _ _ _ _ _ i b q S Eb Eq) as (Er & Ew & L).
    unfold ref_call. rewrite Er. destruct (step q c) as [q'|e] eqn:Es; cbn [built].
    2:{ eapply sim_dead; [exact S|apply incl_refl|exact K|eapply sim_below; exact S]. }
    eapply sim_copy; [exact S|exact K|exact Eb|reflexivity| |].
    - rewrite Eq. cbn [with_of]. eapply plain_get; [exact Ec|exact Es].
    - cbn [rel]. split; [cbn [br_rest]; apply set_get|]. cbn [br_kept]. intros m k Hin.
      apply in_app_or in Hin.
      assert (Nk : forall v, nth k vals Nothing = Held v -> nth k (vals ++ [Built q']) Nothing = Held v).
      { intros v Ev. rewrite app_nth1; [exact Ev|]. eapply nth_in; [exact Ev|discriminate]. }
      destruct Hin as [Hin | Hin].
      + destruct (Ex m k q' Hin eq_refl) as (Ik & v & Ev & Ep). split; [exact Ik|]. exists v. split; [apply Nk; exact Ev|exact Ep].
      + apply filter_In in Hin. destruct Hin as [Hin Hc]. cbn [fst] in Hc. apply negb_true_iff in Hc.
        pose proof (sim_nth _ _ _ _ _ _ _ i S) as R. rewrite Eb, Eq in R. destruct R as [_ Rk].
        destruct (Rk m k Hin) as (Ik & v & Ev & Ep). split; [apply K; exact Ik|]. exists v. split; [apply Nk; exact Ev|].
        exact (put_stays m v q c q' Hc Ep Es).
  Qed.

  (* The builder after With. *)
  Lemma rel_with : forall h regs vals vars vers used kept i b q s w x,
    sim h regs vals vars vers used kept -> nth i regs MNothing = MBuilt b -> nth i vals Nothing = Built q ->
    given_withs [] <> None ->
    rel (vals ++ [x]) kept (set_slice b s) (Built (set_with q w)).
  Proof.
    intros h regs vals vars vers used kept i b q s w x S Eb Eq Gw.
    pose proof (sim_nth _ _ _ _ _ _ _ i S) as R. rewrite Eb, Eq in R. destruct R as [Rr Rk].
    unfold set_slice. cbn [rel br_rest br_kept]. split.
    - rewrite get_set by exact Gw. rewrite <- Rr. rewrite !set_set. reflexivity.
    - intros m k Hin. destruct (Rk m k Hin) as (Ik & v & Ev & Ep). split; [exact Ik|]. exists v. split.
      + rewrite app_nth1; [exact Ev|]. eapply nth_in; [exact Ev|discriminate].
      + rewrite put_set, Ep. reflexivity.
  Qed.

  Lemma nonempty_len {A} : forall l : list A, nonempty l = negb (length l =? 0).
  Proof. intros []; reflexivity. Qed.

  Lemma run_values : forall p h regs vals vars vers used kept,
    sim h regs vals vars vers used kept ->
    careful_from as_with keeps vars vers used kept p ->
    arg_memory new step given given_withs as_with keeps put clears set_with g h regs p
    = arg_values new step given given_withs vals p.
  Proof.
    induction p as [|[a|i c|i m k|i k|v spare|k ws|k j x|i] p IH]; intros h regs vals vars vers used kept S Cf; [reflexivity| | | | | | | |].
    - (* New *)
      cbn [arg_memory arg_values careful_from] in *. eapply IH; [|exact Cf].
      destruct (new a) as [q|e] eqn:En; cbn [built].
      + eapply sim_more; [exact S|apply incl_refl| | |reflexivity| |discriminate| |discriminate].
        * cbn [rel br_rest br_kept]. split; [apply set_get|]. intros m k [].
        * rewrite !map_app. cbn [map slice_of with_of br_withs]. rewrite (new_get a q En).
          apply inv_dead with (used := used); [exact (sim_inv _ _ _ _ _ _ _ S)|apply incl_refl|exact I|reflexivity..].
        * intros b _ H. exfalso. apply H. reflexivity.
        * cbn. lia.
      + eapply sim_dead; [exact S|apply incl_refl|apply incl_refl|exact I].
    - (* a call *)
      cbn [arg_memory arg_values careful_from] in *.
      pose proof (sim_nth _ _ _ _ _ _ _ i S) as R.
      destruct (nth i regs MNothing) as [|b|w|s] eqn:Eb.
      2:{ destruct (nth i vals Nothing) as [|q|w] eqn:Eq; try contradiction R.
          destruct (sim_resolve _ _ _ _ _ _ _ i b q S Eb Eq) as (Er & Ew & L).
          destruct (as_with c) as [ws|] eqn:Ec.
          - pose proof (with_given c ws Ec) as Gw.
            rewrite (with_step q c ws Ec). cbn [built].
            pose proof (sim_valid _ _ _ _ _ _ _ i S L) as Vi. rewrite Eb in Vi. cbn [slice_of] in Vi.
            pose proof (view_length _ _ Vi) as Lw. rewrite Ew in Lw. rewrite nonempty_len, Lw.
            destruct (sl_len (br_withs b) =? 0) eqn:Z; cbn [negb].
            + apply Nat.eqb_eq in Z.
              destruct ws as [|w ws].
              * eapply IH; [|exact Cf]. cbn [make_slice fst snd].
                eapply sim_more; [exact S|apply incl_refl|eapply rel_with; eassumption| |reflexivity| |discriminate| |discriminate].
                -- rewrite !map_app. cbn [map slice_of set_slice with_of br_withs]. rewrite get_set by exact Gw.
                   apply inv_dead with (used := used); [apply inv_garbage; exact (sim_inv _ _ _ _ _ _ _ S)|apply incl_refl|eapply sim_below; exact S|reflexivity..].
                -- intros b' _ NE. exfalso. pose proof (sim_some _ _ _ _ _ _ _ S i b Eb NE). lia.
                -- cbn. lia.
              * assert (Nv : nth i vers Never = Never).
                { destruct (nth i vers Never) eqn:Ei; [reflexivity| |];
                    (pose proof (sim_some _ _ _ _ _ _ _ S i b Eb) as P; rewrite Ei in P; specialize (P ltac:(discriminate)); lia). }
                rewrite Nv in Cf. eapply IH; [|exact Cf].
                eapply sim_more; [exact S|apply incl_refl|eapply rel_with; eassumption| |reflexivity| |discriminate| |discriminate].
                -- rewrite !map_app. cbn [map slice_of set_slice with_of br_withs]. rewrite get_set by exact Gw.
                   apply inv_make with (used := used); [exact (sim_inv _ _ _ _ _ _ _ S)|apply incl_refl|left; reflexivity].
                -- intros b' E _. injection E as <-. cbn. lia.
                -- cbn [slice_of set_slice br_withs make_slice snd sl_cap sl_ptr]. intros _ k s' Ek Ck Nk.
                   assert (Lk : k < length vers).
                   { destruct (sim_length _ _ _ _ _ _ _ S) as (Lr & _). rewrite <- Lr. eapply nth_in; [exact Ek|discriminate]. }
                   pose proof (sim_valid _ _ _ _ _ _ _ k S Lk) as Vk. rewrite Ek in Vk. cbn [slice_of] in Vk.
                   destruct Vk as [[Zk _] | (P & _)]; lia.
            + apply Nat.eqb_neq in Z. destruct ws as [|w ws].
              * unfold extend. rewrite append_nothing by exact Vi. cbn [fst snd]. rewrite app_nil_r, set_get.
                eapply IH; [|exact Cf]. eapply sim_copy; [exact S|apply incl_refl|exact Eb|reflexivity|rewrite Eq; reflexivity|].
                rewrite <- (set_get q) at 2. eapply rel_with; eassumption.
              * pose proof (sim_append h regs vals vars vers used kept kept i (w :: ws)
                  (set_slice b (snd (extend g h (br_withs b) (w :: ws)))) (Built (set_with q (get_with q ++ w :: ws))) None S
                  (incl_refl _) L ltac:(discriminate)) as SA.
                rewrite Eb, Eq in SA. cbn [slice_of set_slice with_of br_withs] in SA. rewrite get_set in SA by exact Gw.
                assert (Nv : nth i vers Never <> Never \/ True) by (right; exact I).
                destruct (nth i vers Never) as [| |vv] eqn:Ei.
                -- (* nothing there yet, yet not empty *)
                   destruct (inv_shares _ _ _ _ _ (sim_inv _ _ _ _ _ _ _ S)) as (F & If & _).
                   destruct (If i L) as [_ _ O]. rewrite Ei, nth_slice, Eb in O. cbn [slice_of] in O.
                   pose proof (valid_le _ _ Vi). lia.
                -- eapply IH; [|exact Cf]. apply SA; [exact I|reflexivity|reflexivity| |reflexivity|discriminate|discriminate].
                   eapply rel_with; eassumption.
                -- destruct Cf as [Cu Cf]. eapply IH; [|exact Cf]. apply SA; [exact Cu|reflexivity|reflexivity| |reflexivity|discriminate|discriminate].
                   eapply rel_with; eassumption.
          - eapply IH; [|exact Cf]. eapply build_plain; [exact S|exact Eb|exact Eq|exact Ec|apply incl_refl|]. intros m k q' []. }
      all: assert (Nb : match nth i vals Nothing with Built q => built (step q c) | _ => Nothing end = Nothing)
             by (destruct (nth i vals Nothing); try reflexivity; try (destruct w; contradiction R); contradiction R).
      all: rewrite Nb.
      all: destruct (as_with c) as [[|w0 ws]|]; [eapply IH; [|exact Cf]; eapply sim_dead; [exact S|apply incl_refl..|eapply sim_below; exact S]| |eapply IH; [|exact Cf]; eapply sim_dead; [exact S|apply incl_refl..|eapply sim_below; exact S]].
      all: destruct (nth i vers Never) as [| |vv] eqn:Ei;
             [eapply IH; [|exact Cf]; eapply sim_dead; [exact S|apply incl_refl..|cbn; exact I]
             |eapply IH; [|exact Cf]; eapply sim_dead; [exact S|apply incl_refl..|cbn; lia]
             |destruct Cf as [_ Cf]; eapply IH; [|exact Cf]; eapply sim_dead; [exact S|apply incl_tl, incl_refl|apply incl_refl|cbn; lia]].
    - (* a variable given to a method *)
      cbn [arg_memory arg_values careful_from] in *. rewrite (sim_content _ _ _ _ _ _ _ k S).
      eapply IH; [|exact Cf].
      pose proof (sim_nth _ _ _ _ _ _ _ i S) as R. pose proof (sim_kind _ _ _ _ _ _ _ S k) as Kk.
      set (kept' := match nth k vars None with Some v => if keeps m v then k :: kept else kept | None => kept end).
      assert (K : incl kept kept').
      { unfold kept'. destruct (nth k vars None); [|apply incl_refl]. destruct (keeps m v); [apply incl_tl|]; apply incl_refl. }
      assert (Dead : sim h (regs ++ [MNothing]) (vals ++ [Nothing]) (vars ++ [None]) (vers ++ [nth i vers Never]) used kept').
      { eapply sim_dead; [exact S|apply incl_refl|exact K|eapply sim_below; exact S]. }
      destruct (nth i regs MNothing) as [|b|w|s] eqn:Eb; destruct (nth i vals Nothing) as [|q|w'] eqn:Eq;
        try contradiction R; try (destruct w; contradiction R); try exact Dead.
      destruct (nth k vals Nothing) as [|q0|v] eqn:Ek; try exact Dead.
      destruct (given m v) as [c|] eqn:Eg; [|exact Dead].
      eapply build_plain; [exact S|exact Eb|exact Eq|exact (given_plain _ _ _ Eg)|exact K|].
      intros m0 k0 q' Hin Es. destruct (keeps m v) eqn:Ekp; [|destruct Hin].
      destruct Hin as [Hin | []]. injection Hin as <- <-. split.
      + unfold kept'. destruct Kk as (v0 & Ev0 & Ekd). rewrite Ev0, (keeps_kind m v0 v Ekd), Ekp. left. reflexivity.
      + exists v. split; [exact Ek|]. exact (put_given m v q c q' Eg Ekp Es).
    - (* With(vs...) *)
      cbn [arg_memory arg_values careful_from] in *.
      pose proof (sim_nth _ _ _ _ _ _ _ i S) as R. pose proof (sim_nth _ _ _ _ _ _ _ k S) as Rk.
      pose proof (sim_kind _ _ _ _ _ _ _ S k) as Kk.
      (* nothing is obtained *)
      assert (Dead : arg_memory new step given given_withs as_with keeps put clears set_with g h (regs ++ [MNothing]) p
                     = arg_values new step given given_withs (vals ++ [Nothing]) p).
      { assert (D : forall used' kept' o, incl used used' -> incl kept kept' -> origin_below (Datatypes.S (length vers)) o ->
          careful_from as_with keeps (vars ++ [None]) (vers ++ [o]) used' kept' p ->
          arg_memory new step given given_withs as_with keeps put clears set_with g h (regs ++ [MNothing]) p
          = arg_values new step given given_withs (vals ++ [Nothing]) p).
        { intros used' kept' o U K B Cf'. eapply IH; [|exact Cf']. eapply sim_dead; [exact S|exact U|exact K|exact B]. }
        pose proof (sim_below _ _ _ _ _ _ _ i S) as Bi. pose proof (sim_below _ _ _ _ _ _ _ k S) as Bk.
        destruct (nth k vars None) as [[ | | | | |[|w0 l]]|];
          try (eapply D; [apply incl_refl|apply incl_refl| |exact Cf]; exact Bi).
        destruct (nth i vers Never) as [| |vv] eqn:Ei.
        - eapply D; [apply incl_refl|apply incl_tl, incl_refl| |exact Cf]. exact Bk.
        - eapply D; [apply incl_refl|apply incl_refl| |exact Cf]. cbn. lia.
        - destruct Cf as [_ Cf]. eapply D; [apply incl_tl, incl_refl|apply incl_refl| |exact Cf]. cbn. lia. }
      destruct (nth i regs MNothing) as [|b|w|s0] eqn:Eb; destruct (nth i vals Nothing) as [|q|w'] eqn:Eq;
        try contradiction R; try (destruct w; contradiction R); try exact Dead.
      destruct (nth k regs MNothing) as [|b0|w|s] eqn:Ebk; destruct (nth k vals Nothing) as [|q0|v] eqn:Ek;
        try contradiction Rk; try (destruct w; contradiction Rk); try exact Dead.
      { destruct w; cbn in Rk; try contradiction Rk; subst v; exact Dead. }
      destruct v as [ | | | | |l]; try contradiction Rk.
      destruct (given_withs l) as [c|] eqn:Eg.
      2:{ assert (E0 : given_withs [] = None).
          { destruct (given_withs []) as [c0|] eqn:E0; [|reflexivity]. exfalso. exact (proj1 (given_with [] l c0 E0) Eg). }
          rewrite E0. exact Dead. }
      destruct (given_with l [] c Eg) as [Gw' Ec].
      assert (E0 : exists c0, given_withs [] = Some c0) by (revert Gw'; case (given_withs []); [intros c0 _; exists c0; reflexivity|congruence]).
      destruct E0 as [c0 E0]. rewrite E0.
      rewrite (with_step q c l Ec). cbn [built].
      destruct (sim_resolve _ _ _ _ _ _ _ i b q S Eb Eq) as (Er & Ew & L).
      assert (Lk : k < length vers).
      { destruct (sim_length _ _ _ _ _ _ _ S) as (Lr & _). rewrite <- Lr. eapply nth_in; [exact Ebk|discriminate]. }
      pose proof (sim_view _ _ _ _ _ _ _ k S Lk) as Wk. rewrite Ebk, Ek in Wk. cbn [slice_of with_of] in Wk.
      pose proof (sim_valid _ _ _ _ _ _ _ k S Lk) as Vk. rewrite Ebk in Vk. cbn [slice_of] in Vk.
      pose proof (view_length _ _ Vk) as Llk. rewrite Wk in Llk.
      pose proof (sim_valid _ _ _ _ _ _ _ i S L) as Vi. rewrite Eb in Vi. cbn [slice_of] in Vi.
      pose proof (view_length _ _ Vi) as Lw. rewrite Ew in Lw. rewrite nonempty_len, Lw.
      destruct Kk as (v0 & Ev0 & Ekd). rewrite Ev0 in Cf.
      destruct v0 as [ | | | | |l0]; try discriminate Ekd. injection Ekd as Ekd.
      destruct (sl_len (br_withs b) =? 0) eqn:Z; cbn [negb fst snd].
      + apply Nat.eqb_eq in Z.
        assert (Nv : nth i vers Never = Never).
        { destruct (nth i vers Never) eqn:Ei; [reflexivity| |];
            (pose proof (sim_some _ _ _ _ _ _ _ S i b Eb) as P; rewrite Ei in P; specialize (P ltac:(discriminate)); lia). }
        rewrite Nv in Cf. destruct l0 as [|w0 l0].
        * (* an empty slice *)
          assert (l = []) as -> by (destruct l; [reflexivity|discriminate Ekd]).
          eapply IH; [|exact Cf].
          eapply sim_more; [exact S|apply incl_refl|eapply rel_with; eassumption| |reflexivity|intros b' _ NE; exfalso; apply NE; reflexivity|discriminate| |discriminate].
          -- rewrite !map_app. cbn [map slice_of set_slice with_of br_withs]. rewrite get_set by exact Gw'.
             apply inv_dead with (used := used); [exact (sim_inv _ _ _ _ _ _ _ S)|apply incl_refl|exact I| |].
             ++ apply (sim_empty _ _ _ _ _ _ _ S k s Ebk). rewrite <- Llk. reflexivity.
             ++ rewrite <- Llk. reflexivity.
          -- cbn [slice_of set_slice br_withs]. rewrite (sim_empty _ _ _ _ _ _ _ S k s Ebk) by (rewrite <- Llk; reflexivity). lia.
        * eapply IH; [|exact Cf].
          eapply sim_more; [exact S|apply incl_tl, incl_refl| | |reflexivity| |discriminate| |discriminate].
          -- eapply rel_mono; [apply incl_tl, incl_refl|eapply rel_with; eassumption].
          -- rewrite !map_app. cbn [map slice_of set_slice with_of br_withs]. rewrite get_set by exact Gw'.
             pose proof (inv_copy _ _ _ _ _ k (sim_inv _ _ _ _ _ _ _ S) Lk) as W. rewrite nth_slice, nth_with, Ebk, Ek in W. exact W.
          -- intros b' E _. injection E as <-. cbn [br_withs]. cbn in Ekd. lia.
          -- cbn [slice_of set_slice br_withs]. intros Cp k' s' Ek' Ck' Nk'.
             pose proof (sim_alone _ _ _ _ _ _ _ S k' s' Ek' Ck' (fun H => Nk' (or_intror H)) k) as A.
             rewrite nth_slice, Ebk in A. cbn [slice_of] in A. apply A; [|exact Lk|exact Cp].
             intros ->. apply Nk'. left. reflexivity.
      + apply Nat.eqb_neq in Z. rewrite Wk. destruct l0 as [|w0 l0].
        * assert (l = []) as -> by (destruct l; [reflexivity|discriminate Ekd]).
          unfold extend. rewrite append_nothing by exact Vi. cbn [fst snd]. rewrite app_nil_r, set_get.
          eapply IH; [|exact Cf]. eapply sim_copy; [exact S|apply incl_refl|exact Eb|reflexivity|rewrite Eq; reflexivity|].
          rewrite <- (set_get q) at 2. eapply rel_with; eassumption.
        * assert (NE : l <> []) by (destruct l; [discriminate Ekd|discriminate]).
          pose proof (sim_append h regs vals vars vers used kept kept i l
            (set_slice b (snd (extend g h (br_withs b) l))) (Built (set_with q (get_with q ++ l))) None S
            (incl_refl _) L NE) as SA.
          rewrite Eb, Eq in SA. cbn [slice_of set_slice with_of br_withs] in SA. rewrite get_set in SA by exact Gw'.
          destruct (nth i vers Never) as [| |vv] eqn:Ei.
          -- destruct (inv_shares _ _ _ _ _ (sim_inv _ _ _ _ _ _ _ S)) as (F & If & _).
             destruct (If i L) as [_ _ O]. rewrite Ei, nth_slice, Eb in O. cbn [slice_of] in O.
             pose proof (valid_le _ _ Vi). lia.
          -- eapply IH; [|exact Cf]. apply SA; [exact I|reflexivity|reflexivity| |reflexivity|discriminate|discriminate].
             eapply rel_with; eassumption.
          -- destruct Cf as [Cu Cf]. eapply IH; [|exact Cf]. apply SA; [exact Cu|reflexivity|reflexivity| |reflexivity|discriminate|discriminate].
             eapply rel_with; eassumption.
    - (* a new variable *)
      cbn [arg_memory arg_values careful_from] in *.
      assert (Fresh : forall t, t < length vers -> sl_cap (nth t (map slice_of regs) nil_slice) > 0 ->
                sl_ptr (nth t (map slice_of regs) nil_slice) < length h).
      { intros t Lt. rewrite nth_slice. intro Cp. pose proof (sim_valid _ _ _ _ _ _ _ t S Lt) as Vt.
        destruct Vt as [[Z _] | (P & _)]; [lia|exact P]. }
      assert (Plain : match v with VWiths _ => False | _ => True end ->
        sim h (regs ++ [MHeld v]) (vals ++ [Held v]) (vars ++ [Some v]) (vers ++ [Never]) used kept).
      { intro Nw. eapply sim_more; [exact S|apply incl_refl| | |exists v; split; reflexivity|discriminate|discriminate| |discriminate].
        - cbn [rel]. destruct v; try reflexivity. contradiction Nw.
        - rewrite !map_app. cbn [map slice_of with_of].
          replace (match v with VWiths l => l | _ => [] end) with (@nil withq) by (destruct v; try reflexivity; contradiction Nw).
          apply inv_dead with (used := used); [exact (sim_inv _ _ _ _ _ _ _ S)|apply incl_refl|exact I|reflexivity..].
        - cbn. lia. }
      destruct v as [l|l|l|l|l|[|w l]]; try (eapply IH; [apply Plain; exact I|exact Cf]).
      + eapply IH; [|exact Cf]. cbn [alloc fst snd].
        eapply sim_more; [exact S|apply incl_refl|exact I| |eexists; split; reflexivity|discriminate|intros s' E _; injection E as <-; reflexivity| |].
        * rewrite !map_app. cbn [map slice_of with_of].
          apply inv_dead with (used := used); [exact (sim_inv _ _ _ _ _ _ _ S)|apply incl_refl|exact I|reflexivity..].
        * cbn. lia.
        * intros s' E. injection E as <-. cbn. lia.
      + eapply IH; [|exact Cf]. unfold alloc. cbn [fst snd].
        eapply sim_more; [exact S|apply incl_refl|exact I| |eexists; split; reflexivity|discriminate|intros s' E; injection E as <-; cbn; lia| |].
        * rewrite !map_app. cbn [map slice_of with_of]. apply inv_alloc. exact (sim_inv _ _ _ _ _ _ _ S).
        * cbn [slice_of sl_cap sl_ptr]. intros _ k s' Ek Ck Nk E.
          assert (Lk : k < length vers).
          { destruct (sim_length _ _ _ _ _ _ _ S) as (Lr & _). rewrite <- Lr. eapply nth_in; [exact Ek|discriminate]. }
          specialize (Fresh k Lk). rewrite nth_slice, Ek in Fresh. cbn [slice_of] in Fresh. lia.
        * intros s' E _ _ t Lt Cp. injection E as <-. cbn [sl_ptr]. specialize (Fresh t Lt Cp). lia.
    - (* append by the caller *)
      cbn [arg_memory arg_values careful_from] in *.
      pose proof (sim_nth _ _ _ _ _ _ _ k S) as Rk. pose proof (sim_kind _ _ _ _ _ _ _ S k) as Kk.
      destruct (nth k regs MNothing) as [|b|w|s] eqn:Ebk; destruct (nth k vals Nothing) as [|q|v] eqn:Ek;
        try contradiction Rk; try (destruct w; contradiction Rk).
      1,2: rewrite Kk in Cf; eapply IH; [|exact Cf]; eapply sim_dead; [exact S|apply incl_refl..|exact I].
      + destruct Kk as (v0 & Ev0 & Ekd). rewrite Ev0 in Cf.
        assert (Nw : match v with VWiths _ => False | _ => True end) by (destruct w; cbn in Rk; try contradiction Rk; subst v; exact I).
        destruct v; try contradiction Nw; destruct v0; try discriminate Ekd;
          (eapply IH; [|exact Cf]; eapply sim_dead; [exact S|apply incl_refl..|exact I]).
      + destruct v as [ | | | | |l]; try contradiction Rk.
        destruct Kk as (v0 & Ev0 & Ekd). rewrite Ev0 in Cf. destruct v0 as [ | | | | |l0]; try discriminate Ekd. injection Ekd as Ekd.
        assert (Lk : k < length vers).
        { destruct (sim_length _ _ _ _ _ _ _ S) as (Lr & _). rewrite <- Lr. eapply nth_in; [exact Ebk|discriminate]. }
        pose proof (sim_view _ _ _ _ _ _ _ k S Lk) as Wk. rewrite Ebk, Ek in Wk. cbn [slice_of with_of] in Wk.
        pose proof (sim_valid _ _ _ _ _ _ _ k S Lk) as Vk. rewrite Ebk in Vk. cbn [slice_of] in Vk.
        assert (K : incl kept (k :: length vers :: kept)) by (apply incl_tl, incl_tl, incl_refl).
        destruct ws as [|w ws].
        * unfold extend. rewrite append_nothing by exact Vk. cbn [fst snd]. rewrite app_nil_r.
          eapply IH; [|exact Cf].
          eapply sim_more; [exact S|exact K|exact I| |eexists; split; [reflexivity|cbn [kind_of]; congruence]|discriminate| | |].
          -- rewrite !map_app. cbn [map slice_of with_of].
             pose proof (inv_copy _ _ _ _ _ k (sim_inv _ _ _ _ _ _ _ S) Lk) as W. rewrite nth_slice, nth_with, Ebk, Ek in W. exact W.
          -- intros s' E. injection E as <-. exact (sim_empty _ _ _ _ _ _ _ S k s Ebk).
          -- cbn [slice_of]. intros Cp k' s' Ek' Ck' Nk'.
             pose proof (sim_alone _ _ _ _ _ _ _ S k' s' Ek' Ck' (fun H => Nk' (K _ H)) k) as A.
             rewrite nth_slice, Ebk in A. cbn [slice_of] in A. apply A; [|exact Lk|exact Cp].
             intros ->. apply Nk'. left. reflexivity.
          -- intros s' _ _ Nn. exfalso. apply Nn. right. left. reflexivity.
        * pose proof (sim_append h regs vals vars vers used kept (k :: length vers :: kept) k (w :: ws)
            (MSlice (snd (extend g h s (w :: ws)))) (Held (VWiths (l ++ w :: ws))) (Some (VWiths (l0 ++ w :: ws))) S
            K Lk ltac:(discriminate)) as SA.
          rewrite Ebk, Ek in SA. cbn [slice_of with_of] in SA.
          assert (Kd : exists v1, Some (VWiths (l0 ++ w :: ws)) = Some v1 /\ kind_of v1 = kind_of (VWiths (l ++ w :: ws))).
          { eexists. split; [reflexivity|]. cbn [kind_of]. rewrite !app_length. congruence. }
          destruct (nth k vers Never) as [| |vv] eqn:Ei.
          -- eapply IH; [|exact Cf]. apply SA; [exact I|reflexivity|reflexivity|exact I|exact Kd|intros; left; reflexivity|intros; right; left; reflexivity].
          -- eapply IH; [|exact Cf]. apply SA; [exact I|reflexivity|reflexivity|exact I|exact Kd|intros; left; reflexivity|intros; right; left; reflexivity].
          -- destruct Cf as [Cu Cf]. eapply IH; [|exact Cf]. apply SA; [exact Cu|reflexivity|reflexivity|exact I|exact Kd|intros; left; reflexivity|intros; right; left; reflexivity].
    - (* an assignment by the caller *)
      cbn [arg_memory arg_values careful_from] in *. destruct Cf as [Nk Cf].
      pose proof (sim_nth _ _ _ _ _ _ _ k S) as Rk.
      assert (Same : forall h' regs' v v', nth k vals Nothing = Held v -> kind_of v' = kind_of v ->
        Forall2 shape regs' (store vals k (Held v')) ->
        map slice_of regs' = map slice_of regs ->
        (forall r b, nth r regs' MNothing = MBuilt b -> nth r regs MNothing = MBuilt b) ->
        (forall r s, nth r regs' MNothing = MSlice s -> nth r regs MNothing = MSlice s) ->
        inv h' (map slice_of regs) (map with_of (store vals k (Held v'))) vers used ->
        sim h' regs' (store vals k (Held v')) vars vers used kept).
      { intros h' regs' v v' Ev Ekd F Es Hb Hs W. pose proof (sim_length _ _ _ _ _ _ _ S) as (Lr & Lv & La).
        assert (Lk : k < length vals) by (eapply nth_in; [exact Ev|discriminate]).
        split.
        - assert (F2 : forall r, rel (store vals k (Held v')) kept (nth r regs' MNothing) (nth r (store vals k (Held v')) Nothing)).
          { intro r. pose proof (Forall2_len _ _ _ F) as LF.
            assert (Fr : shape (nth r regs' MNothing) (nth r (store vals k (Held v')) Nothing)).
            { clear - F. revert r. induction F as [|x0 y0 l l' H _ IHF]; intros [|r]; cbn [nth]; [exact I|exact I|exact H|apply IHF]. }
            destruct (nth r regs' MNothing) as [|b|w|s0] eqn:Er; destruct (nth r (store vals k (Held v')) Nothing) as [|q|w'] eqn:Eq;
              try contradiction Fr; try exact Fr.
            assert (Nr : r <> k) by (intros ->; rewrite nth_store_eq in Eq by exact Lk; discriminate Eq).
            rewrite nth_store_ne in Eq by congruence.
            pose proof (sim_nth _ _ _ _ _ _ _ r S) as R. rewrite (Hb r b Er), Eq in R. destruct R as [R1 R2]. split; [exact R1|].
            intros m k' Hin. destruct (R2 m k' Hin) as (Ik & v1 & Ev1 & Ep). split; [exact Ik|]. exists v1. split; [|exact Ep].
            rewrite nth_store_ne; [exact Ev1|]. intros ->. exact (Nk Ik). }
          pose proof (Forall2_len _ _ _ F) as LF. clear - F2 LF. generalize dependent (store vals k (Held v')). intros vs F2 LF.
          assert (G : forall vs' l l', length l = length l' -> (forall r, rel vs' kept (nth r l MNothing) (nth r l' Nothing)) -> Forall2 (rel vs' kept) l l').
          { intros vs'. induction l as [|a l IHl]; intros [|c l'] Ll H; cbn in Ll; try discriminate Ll; constructor.
            - exact (H 0).
            - apply IHl; [congruence|]. intro r. exact (H (Datatypes.S r)). }
          apply G; assumption.
        - rewrite store_length. exact (sim_vars _ _ _ _ _ _ _ S).
        - rewrite Es. exact W.
        - intro r. destruct (Nat.eq_dec r k) as [-> | Nr].
          + rewrite nth_store_eq by exact Lk. pose proof (sim_kind _ _ _ _ _ _ _ S k) as Kk. rewrite Ev in Kk.
            destruct Kk as (v0 & E0 & K0). exists v0. split; [exact E0|congruence].
          + rewrite nth_store_ne by congruence. apply (sim_kind _ _ _ _ _ _ _ S r).
        - intros r b Er. apply (sim_some _ _ _ _ _ _ _ S r b). apply Hb. exact Er.
        - intros r s Er. apply (sim_empty _ _ _ _ _ _ _ S r s). apply Hs. exact Er.
        - intros k0 s Ek0. rewrite Es. apply (sim_alone _ _ _ _ _ _ _ S k0 s). apply Hs. exact Ek0. }
      (* the shapes, from the invariant *)
      assert (Shape : Forall2 shape regs vals).
      { eapply Forall2_weaken; [|exact (sim_rel _ _ _ _ _ _ _ S)]. intros r0 s0 H. destruct r0 as [|b0|w0|s1], s0 as [|q0|w1]; try exact I; try contradiction H; try exact H; destruct w0; try contradiction H; exact H. }
      assert (ShapeS : forall (r0 : mreg (V := V) (M := M)) s0,
                shape r0 s0 ->
                Forall2 shape (store regs k r0) (store vals k s0)).
      { intros r0 s0 H0. apply Forall2_store; [exact Shape|exact H0]. }
      destruct (nth k regs MNothing) as [|b|w|s] eqn:Ebk; destruct (nth k vals Nothing) as [|q|v] eqn:Ek;
        try contradiction Rk; try (destruct w; contradiction Rk).
      + eapply IH; [exact S|exact Cf].
      + eapply IH; [exact S|exact Cf].
      + assert (w = v /\ match w with VWiths _ => False | _ => True end) as [<- Nw]
          by (destruct w; cbn in Rk; try contradiction Rk; subst v; split; try reflexivity; exact I).
        eapply IH; [|exact Cf]. eapply (Same h (store regs k (MHeld (poke w j x)))); [reflexivity|apply poke_kind| | | | |].
        * apply ShapeS. destruct w, x; try reflexivity; contradiction Nw.
        * rewrite map_store. cbn [slice_of].
          rewrite <- (store_same (map slice_of regs) k nil_slice) at 2. rewrite nth_slice, Ebk. reflexivity.
        * intros r b. rewrite nth_store_any. destruct ((r =? k) && (k <? length regs)); [discriminate|auto].
        * intros r s. rewrite nth_store_any. destruct ((r =? k) && (k <? length regs)); [discriminate|auto].
        * rewrite map_store. replace (with_of (Held (poke w j x))) with (with_of (nth k vals Nothing))
            by (rewrite Ek; destruct w, x; try reflexivity; contradiction Nw).
          rewrite <- nth_with, store_same. exact (sim_inv _ _ _ _ _ _ _ S).
      + destruct v as [ | | | | |l]; try contradiction Rk.
        assert (Lk : k < length vers).
        { destruct (sim_length _ _ _ _ _ _ _ S) as (Lr & _). rewrite <- Lr. eapply nth_in; [exact Ebk|discriminate]. }
        pose proof (sim_view _ _ _ _ _ _ _ k S Lk) as Wk. rewrite Ebk, Ek in Wk. cbn [slice_of with_of] in Wk.
        pose proof (sim_valid _ _ _ _ _ _ _ k S Lk) as Vk. rewrite Ebk in Vk. cbn [slice_of] in Vk.
        pose proof (view_length _ _ Vk) as Ll. rewrite Wk in Ll.
        assert (Id : forall x0, poke (VWiths l) j x0 = VWiths l -> store vals k (Held (poke (VWiths l) j x0)) = vals).
        { intros x0 E. rewrite E, <- Ek. apply store_same. }
        assert (Skip : poke (VWiths l) j x = VWiths l ->
          arg_memory new step given given_withs as_with keeps put clears set_with g h regs p
          = arg_values new step given given_withs (store vals k (Held (poke (VWiths l) j x))) p).
        { intro E. rewrite (Id x E). eapply IH; [exact S|exact Cf]. }
        destruct x as [x|x|x|x|x|x]; try (apply Skip; reflexivity).
        destruct (j <? sl_len s) eqn:Ej.
        2:{ apply Nat.ltb_ge in Ej. apply Skip. cbn [poke]. rewrite store_out by lia. reflexivity. }
        apply Nat.ltb_lt in Ej. eapply IH; [|exact Cf].
        eapply (Same _ regs); [reflexivity|apply poke_kind| |reflexivity|auto|auto|].
        * rewrite <- (store_same regs k MNothing), Ebk. apply ShapeS. exact I.
        * rewrite map_store. cbn [poke with_of].
          pose proof (inv_put h (map slice_of regs) (map with_of vals) vers used k j x (sim_inv _ _ _ _ _ _ _ S) Lk) as P.
          rewrite nth_slice, nth_with, Ebk, Ek in P. cbn [slice_of with_of] in P. apply P; [exact Ej|].
          pose proof (valid_le _ _ Vk) as Lc.
          intros r Nr Lr Cp. apply (sim_alone _ _ _ _ _ _ _ S k s Ebk ltac:(lia) Nk r Nr Lr Cp).
    - (* Show *)
      cbn [arg_memory arg_values careful_from] in *. f_equal; [|eapply IH; [exact S|exact Cf]].
      pose proof (sim_nth _ _ _ _ _ _ _ i S) as R.
      destruct (nth i regs MNothing) as [|b|w|s] eqn:Eb; destruct (nth i vals Nothing) as [|q|w'] eqn:Eq;
        try contradiction R; try (destruct w; contradiction R); try reflexivity; cbn [show_reg].
      + f_equal. apply (sim_resolve _ _ _ _ _ _ _ i b q S Eb Eq).
      + destruct w; cbn in R; try contradiction R; subst; reflexivity.
      + pose proof (sim_content _ _ _ _ _ _ _ i S) as Ct. rewrite Eb, Eq in Ct. cbn [content] in Ct. injection Ct as <-. reflexivity.
  Qed.
End Simulation.
