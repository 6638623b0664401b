(* What append, copies and literal slices do to the other slices of a program. *)
From Coq Require Import List Arith Lia.
From Verif Require Import Mem Forks.
Import ListNotations.
Local Open Scope list_scope.

Lemma store_length {A} : forall (h : list A) p x, length (store h p x) = length h.
Proof. induction h as [|y h IH]; intros [|p] x; cbn; [reflexivity..|rewrite IH; reflexivity]. Qed.

Lemma nth_store_eq {A} : forall (h : list A) p x d, p < length h -> nth p (store h p x) d = x.
Proof. induction h as [|y h IH]; intros [|p] x d L; cbn in *; [lia..|reflexivity|apply IH; lia]. Qed.

Lemma nth_store_ne {A} : forall (h : list A) p q x d, p <> q -> nth q (store h p x) d = nth q h d.
Proof.
  induction h as [|y h IH]; intros [|p] [|q] x d N; cbn; try reflexivity; try lia.
  apply IH. lia.
Qed.

Lemma store_same {A} : forall (h : list A) p d, store h p (nth p h d) = h.
Proof. induction h as [|y h IH]; intros [|p] d; cbn; [reflexivity..|rewrite IH; reflexivity]. Qed.

Section One.
  Context {A : Type} (zero : A) (grow : nat -> nat -> nat).

  (* A slice that append may have built. *)
  Definition valid (h : list (list A)) (s : slice) : Prop :=
    (sl_cap s = 0 /\ sl_len s = 0)
    \/ (sl_ptr s < length h /\ length (nth (sl_ptr s) h []) = sl_cap s /\ sl_len s <= sl_cap s).

  Lemma valid_le : forall h s, valid h s -> sl_len s <= sl_cap s.
  Proof. intros h s [[-> ->] | (_ & _ & L)]; lia. Qed.

  Lemma view_nil : forall h s, sl_len s = 0 -> view (A := A) h s = [].
  Proof. intros h s L. unfold view. rewrite L. reflexivity. Qed.

  Lemma view_length : forall h s, valid h s -> length (view h s) = sl_len s.
  Proof.
    intros h s [[_ L] | (_ & Ln & L)]; unfold view; rewrite firstn_length; [rewrite L; lia|lia].
  Qed.

  (* Appending, from the new slice's point of view. *)
  Lemma append_view : forall h s xs, valid h s ->
    let r := append zero grow h s xs in
    view (fst r) (snd r) = view h s ++ xs
    /\ valid (fst r) (snd r) /\ sl_len (snd r) = sl_len s + length xs.
  Proof.
    intros h s xs V r. subst r. unfold append.
    destruct (sl_len s + length xs <=? sl_cap s) eqn:E.
    - apply Nat.leb_le in E. cbn [fst snd]. destruct V as [[C L] | (P & Ln & L)].
      + assert (xs = []) as -> by (destruct xs; [reflexivity|cbn in E; lia]).
        repeat split.
        * unfold view. cbn [sl_len sl_ptr length]. rewrite L. reflexivity.
        * left. cbn. lia.
      + assert (Lf : length (firstn (sl_len s) (nth (sl_ptr s) h [])) = sl_len s) by (rewrite firstn_length; lia).
        repeat split.
        * unfold view. cbn [sl_len sl_ptr]. rewrite nth_store_eq by exact P.
          rewrite app_assoc, firstn_app. rewrite app_length, Lf.
          rewrite Nat.sub_diag, firstn_O, app_nil_r.
          apply firstn_all2. rewrite app_length, Lf. lia.
        * right. cbn [sl_len sl_ptr sl_cap]. rewrite store_length, nth_store_eq by exact P.
          repeat split; [exact P| |exact E].
          rewrite !app_length, Lf, skipn_length, Ln. lia.
    - apply Nat.leb_gt in E. cbn [fst snd].
      pose proof (view_length h s V) as Lv.
      repeat split.
      + unfold view at 1. cbn [sl_len sl_ptr].
        rewrite app_nth2 by lia. rewrite Nat.sub_diag. cbn [nth].
        rewrite app_assoc, firstn_app. rewrite app_length, Lv, Nat.sub_diag, firstn_O, app_nil_r.
        apply firstn_all2. rewrite app_length, Lv. lia.
      + right. cbn [sl_len sl_ptr sl_cap]. rewrite app_length. cbn [length].
        rewrite app_nth2 by lia. rewrite Nat.sub_diag. cbn [nth].
        rewrite !app_length, repeat_length, Lv. lia.
  Qed.

  (* From the point of view of a slice over another array, or over a prefix. *)
  Lemma append_others : forall h s xs t, valid h s -> valid h t ->
    (sl_cap t = 0 \/ sl_ptr t <> sl_ptr s \/ sl_len t <= sl_len s) ->
    view (fst (append zero grow h s xs)) t = view h t.
  Proof.
    intros h s xs t Vs Vt D. unfold append.
    destruct (sl_len s + length xs <=? sl_cap s) eqn:E; cbn [fst].
    - apply Nat.leb_le in E. destruct Vt as [[C L] | (P & Ln & L)]; [unfold view; rewrite L; reflexivity|].
      unfold view. destruct (Nat.eq_dec (sl_ptr s) (sl_ptr t)) as [Ep|Np].
      + destruct Vs as [[C0 L0] | (P0 & Ln0 & L0)].
        { assert (xs = []) as -> by (destruct xs; [reflexivity|cbn in E; lia]).
          rewrite L0. cbn [firstn app length skipn Nat.add]. rewrite store_same. reflexivity. }
        destruct D as [D | [D | D]].
        { rewrite D in L. replace (sl_len t) with 0 by lia. reflexivity. }
        { exfalso. apply D. symmetry. exact Ep. }
        rewrite <- Ep. rewrite nth_store_eq by exact P0.
        rewrite firstn_app. rewrite firstn_length, Nat.min_l by lia.
        replace (sl_len t - sl_len s) with 0 by lia. rewrite firstn_O, app_nil_r.
        rewrite firstn_firstn, Nat.min_l by exact D. reflexivity.
      + rewrite nth_store_ne by exact Np. reflexivity.
    - destruct Vt as [[C L] | (P & Ln & L)]; [unfold view; rewrite L; reflexivity|].
      unfold view at 1. rewrite app_nth1 by exact P. reflexivity.
  Qed.

  Lemma append_valid : forall h s xs t, valid h s -> valid h t ->
    valid (fst (append zero grow h s xs)) t.
  Proof.
    intros h s xs t Vs Vt. unfold append.
    destruct (sl_len s + length xs <=? sl_cap s) eqn:E; cbn [fst];
      (destruct Vt as [C | (P & Ln & L)]; [left; exact C|right]).
    - apply Nat.leb_le in E. rewrite store_length. repeat split; [exact P| |exact L].
      destruct (Nat.eq_dec (sl_ptr s) (sl_ptr t)) as [Ep|Np].
      + destruct Vs as [[C0 L0] | (P0 & Ln0 & L0)].
        { assert (xs = []) as -> by (destruct xs; [reflexivity|cbn in E; lia]).
          rewrite L0. cbn [firstn app length skipn Nat.add]. rewrite store_same. exact Ln. }
        rewrite <- Ep, nth_store_eq by exact P0.
        rewrite !app_length, firstn_length, skipn_length. rewrite <- Ep in Ln. lia.
      + rewrite nth_store_ne by exact Np. exact Ln.
    - rewrite app_length. cbn [length]. rewrite app_nth1 by exact P. repeat split; [lia|exact Ln|exact L].
  Qed.

  Lemma make_view : forall h xs, let r := make_slice (A := A) h xs in
    view (fst r) (snd r) = xs /\ valid (fst r) (snd r) /\ sl_len (snd r) = length xs /\ sl_cap (snd r) = length xs.
  Proof.
    intros h xs r. subst r. unfold make_slice. cbn [fst snd sl_len sl_cap].
    repeat split.
    - unfold view. cbn [sl_len sl_ptr]. rewrite app_nth2 by lia. rewrite Nat.sub_diag. apply firstn_all.
    - right. cbn [sl_len sl_cap sl_ptr]. rewrite app_length, app_nth2 by lia. rewrite Nat.sub_diag. cbn. lia.
  Qed.

  Lemma make_others : forall h xs t, valid h t ->
    view (fst (make_slice (A := A) h xs)) t = view h t /\ valid (fst (make_slice h xs)) t.
  Proof.
    intros h xs t [[C L] | (P & Ln & L)]; unfold make_slice; cbn [fst]; split.
    - unfold view. rewrite L. reflexivity.
    - left. split; assumption.
    - unfold view. rewrite app_nth1 by exact P. reflexivity.
    - right. rewrite app_length, app_nth1 by exact P. cbn [length]. repeat split; [lia|assumption|assumption].
  Qed.
End One.

(* ------------------------------------------------------------------------- *)
(* Many slices, each version extended at most once                             *)
(* ------------------------------------------------------------------------- *)

Section Many.
  Context {A : Type} (zero : A) (grow : nat -> nat -> nat).

  (* [F p] is how much of array [p] is in use. *)
  Record shares (h : list (list A)) (F : nat -> nat) (used : list nat) (n : nat) (o : origin) (s : slice) : Prop := {
    sh_valid : valid h s;
    sh_front : sl_cap s > 0 -> sl_ptr s < length h /\ sl_len s <= F (sl_ptr s) /\ F (sl_ptr s) <= sl_cap s;
    sh_origin : match o with
                | Never => sl_cap s = 0
                | Literal => sl_len s = sl_cap s
                | Grown k => k < n /\ (sl_cap s > 0 -> ~ In k used -> sl_len s = F (sl_ptr s))
                end }.

  Record inv (h : list (list A)) (sl : list slice) (vals : list (list A)) (vers : list origin) (used : list nat) : Prop := {
    inv_sl : length sl = length vers;
    inv_vals : length vals = length vers;
    inv_view : forall r, r < length vers -> view h (nth r sl nil_slice) = nth r vals [];
    inv_shares : exists F,
      (forall r, r < length vers -> shares h F used (length vers) (nth r vers Never) (nth r sl nil_slice))
      /\ (forall r1 r2 k1 k2, r1 < length vers -> r2 < length vers ->
          nth r1 vers Never = Grown k1 -> nth r2 vers Never = Grown k2 ->
          sl_cap (nth r1 sl nil_slice) > 0 -> sl_cap (nth r2 sl nil_slice) > 0 ->
          sl_ptr (nth r1 sl nil_slice) = sl_ptr (nth r2 sl nil_slice) ->
          ~ In k1 used -> ~ In k2 used -> k1 = k2) }.

  Lemma inv_start : inv [] [] [] [] [].
  Proof. split; [reflexivity..|cbn; lia|]. exists (fun _ => 0). split; cbn; lia. Qed.

  Lemma nth_snoc_lt {B} : forall (l : list B) x d r, r < length l -> nth r (l ++ [x]) d = nth r l d.
  Proof. intros l x d r L. apply app_nth1. exact L. Qed.
  Lemma nth_snoc_eq {B} : forall (l : list B) x d r, r = length l -> nth r (l ++ [x]) d = x.
  Proof. intros l x d r ->. rewrite app_nth2 by lia. rewrite Nat.sub_diag. reflexivity. Qed.

  Definition origin_below (n : nat) (o : origin) : Prop := match o with Grown k => k < n | _ => True end.

  (* An empty slice; also stands for a register without builder. *)
  Lemma inv_dead : forall h sl vals vers used used' o s, inv h sl vals vers used ->
    incl used used' -> origin_below (S (length vers)) o -> sl_cap s = 0 -> sl_len s = 0 ->
    inv h (sl ++ [s]) (vals ++ [[]]) (vers ++ [o]) used'.
  Proof.
    intros h sl vals vers used used' o s [Is Iv Iw (F & If & Ip)] U B Cs Ls.
    split; [rewrite !app_length; cbn; lia..| |].
    - intros r L. rewrite app_length in L. cbn in L.
      destruct (Nat.eq_dec r (length vers)) as [-> | N].
      + rewrite !nth_snoc_eq by congruence. apply view_nil. exact Ls.
      + rewrite !nth_snoc_lt by lia. apply Iw. lia.
    - exists F. split.
      + intros r L. rewrite app_length in *. cbn in *.
        destruct (Nat.eq_dec r (length vers)) as [-> | N].
        * rewrite !nth_snoc_eq by congruence. split; [left; lia|lia|].
          destruct o; [exact Cs|lia|]. cbn in B. split; [lia|lia].
        * rewrite !nth_snoc_lt by lia. destruct (If r ltac:(lia)) as [V Fr Or]. split; [exact V|exact Fr|].
          destruct (nth r vers Never); [exact Or..|]. destruct Or as [K Or]. split; [lia|].
          intros C NI. apply Or; [exact C|]. intro I. apply NI. apply U. exact I.
      + intros r1 r2 k1 k2 L1 L2. rewrite app_length in L1, L2. cbn in L1, L2.
        destruct (Nat.eq_dec r1 (length vers)) as [-> | N1].
        { intros E1 E2 C1. rewrite (nth_snoc_eq sl) in C1 by congruence. lia. }
        destruct (Nat.eq_dec r2 (length vers)) as [-> | N2].
        { intros E1 E2 _ C2. rewrite (nth_snoc_eq sl) in C2 by congruence. lia. }
        rewrite !nth_snoc_lt by lia. intros E1 E2 C1 C2 P NI1 NI2.
        apply (Ip r1 r2 k1 k2); try assumption; try lia; intro I; [apply NI1|apply NI2]; apply U; exact I.
  Qed.

  (* The same slice under another name. *)
  Lemma inv_copy : forall h sl vals vers used i, inv h sl vals vers used -> i < length vers ->
    inv h (sl ++ [nth i sl nil_slice]) (vals ++ [nth i vals []]) (vers ++ [nth i vers Never]) used.
  Proof.
    intros h sl vals vers used i [Is Iv Iw (F & If & Ip)] Li.
    set (g := fun r => if Nat.eq_dec r (length vers) then i else r).
    assert (G : forall r, r < S (length vers) -> g r < length vers).
    { intros r L. unfold g. destruct (Nat.eq_dec r (length vers)); lia. }
    assert (Gs : forall r, r < S (length vers) -> nth r (sl ++ [nth i sl nil_slice]) nil_slice = nth (g r) sl nil_slice).
    { intros r L. unfold g. destruct (Nat.eq_dec r (length vers)); [apply nth_snoc_eq; congruence|apply nth_snoc_lt; lia]. }
    assert (Gv : forall r, r < S (length vers) -> nth r (vals ++ [nth i vals []]) [] = nth (g r) vals []).
    { intros r L. unfold g. destruct (Nat.eq_dec r (length vers)); [apply nth_snoc_eq; congruence|apply nth_snoc_lt; lia]. }
    assert (Go : forall r, r < S (length vers) -> nth r (vers ++ [nth i vers Never]) Never = nth (g r) vers Never).
    { intros r L. unfold g. destruct (Nat.eq_dec r (length vers)); [apply nth_snoc_eq; congruence|apply nth_snoc_lt; lia]. }
    assert (LL : length (vers ++ [nth i vers Never]) = S (length vers)) by (rewrite app_length; cbn; lia).
    split; [rewrite !app_length; cbn; lia..| |].
    - intros r L. rewrite LL in L. rewrite Gs, Gv by exact L. apply Iw. apply G. exact L.
    - exists F. split.
      + intros r L. rewrite LL in *. rewrite Gs, Go by exact L. destruct (If (g r) (G r L)) as [V Fr Or].
        split; [exact V|exact Fr|]. destruct (nth (g r) vers Never); [exact Or..|]. destruct Or as [K Or]. split; [lia|exact Or].
      + intros r1 r2 k1 k2 L1 L2. rewrite LL in L1, L2. rewrite !Gs, !Go by assumption.
        apply Ip; apply G; assumption.
  Qed.

  (* The slice of the arguments of a call. *)
  Lemma inv_make : forall h sl vals vers used used' xs o, inv h sl vals vers used ->
    incl used used' -> o = Literal \/ o = Grown (length vers) ->
    inv (fst (make_slice h xs)) (sl ++ [snd (make_slice h xs)]) (vals ++ [xs]) (vers ++ [o]) used'.
  Proof.
    intros h sl vals vers used used' xs o [Is Iv Iw (F & If & Ip)] U Ho.
    destruct (make_view h xs) as (W & V & Ln & Cp).
    assert (LL : length (vers ++ [o]) = S (length vers)) by (rewrite app_length; cbn; lia).
    split; [rewrite !app_length; cbn; lia..| |].
    - intros r L. rewrite LL in L. destruct (Nat.eq_dec r (length vers)) as [-> | N].
      + rewrite !nth_snoc_eq by congruence. exact W.
      + rewrite !nth_snoc_lt by lia. rewrite <- Iw by lia. apply make_others. apply (If r). lia.
    - exists (fun p => if p =? length h then length xs else F p). split.
      + intros r L. rewrite LL in *. destruct (Nat.eq_dec r (length vers)) as [-> | N].
        * rewrite !nth_snoc_eq by congruence. split; [exact V| |].
          -- intros _. unfold make_slice. cbn [fst snd sl_ptr sl_len sl_cap].
             rewrite app_length, Nat.eqb_refl. cbn. lia.
          -- destruct Ho as [-> | ->]; [lia|]. split; [lia|]. intros _ _. unfold make_slice. cbn [snd sl_len sl_ptr].
             rewrite Nat.eqb_refl. reflexivity.
        * rewrite !nth_snoc_lt by lia. destruct (If r ltac:(lia)) as [Vr Fr Or].
          split; [apply make_others; exact Vr| |].
          -- intro C. destruct (Fr C) as (P & L1 & L2). unfold make_slice. cbn [fst]. rewrite app_length. cbn [length].
             replace (sl_ptr (nth r sl nil_slice) =? length h) with false by (symmetry; apply Nat.eqb_neq; lia).
             repeat split; [lia|exact L1|exact L2].
          -- destruct (nth r vers Never) as [| |k]; [exact Or..|]. destruct Or as [K Or]. split; [lia|].
             intros C NI. destruct (Fr C) as (P & _ & _).
             replace (sl_ptr (nth r sl nil_slice) =? length h) with false by (symmetry; apply Nat.eqb_neq; lia).
             apply Or; [exact C|]. intro I. apply NI, U, I.
      + intros r1 r2 k1 k2 L1 L2. rewrite LL in L1, L2.
        assert (Clash : forall t, t < length vers -> sl_cap (nth t sl nil_slice) > 0 ->
                  sl_ptr (nth t sl nil_slice) <> length h).
        { intros t Lt C. destruct (If t Lt) as [_ Ft _]. destruct (Ft C). lia. }
        destruct (Nat.eq_dec r1 (length vers)) as [-> | N1].
        * rewrite (nth_snoc_eq vers), (nth_snoc_eq sl) by congruence. intro E1.
          destruct (Nat.eq_dec r2 (length vers)) as [-> | N2].
          -- rewrite (nth_snoc_eq vers) by reflexivity. intro E2. intros. congruence.
          -- rewrite !nth_snoc_lt by lia. intros E2 C1 C2 Ep. exfalso. apply (Clash r2); [lia|exact C2|]. rewrite <- Ep. reflexivity.
        * rewrite (nth_snoc_lt vers _ _ r1), (nth_snoc_lt sl _ _ r1) by lia. intro E1.
          destruct (Nat.eq_dec r2 (length vers)) as [-> | N2].
          -- rewrite (nth_snoc_eq vers), (nth_snoc_eq sl) by congruence. intros E2 C1 C2 Ep. exfalso. apply (Clash r1); [lia|exact C1|exact Ep].
          -- rewrite !nth_snoc_lt by lia. intros E2 C1 C2 P NI1 NI2.
             apply (Ip r1 r2 k1 k2); try assumption; try lia; intro I; [apply NI1|apply NI2]; apply U, I.
  Qed.

  (* An array nobody refers to. *)
  Lemma inv_garbage : forall h sl vals vers used a, inv h sl vals vers used -> inv (h ++ [a]) sl vals vers used.
  Proof.
    intros h sl vals vers used a [Is Iv Iw (F & If & Ip)]. split; [assumption..| |].
    - intros r L. rewrite <- Iw by exact L. apply (make_others h a). apply (If r L).
    - exists F. split; [|exact Ip]. intros r L. destruct (If r L) as [V Fr Or]. split; [apply (make_others h a); exact V| |exact Or].
      intro C. destruct (Fr C) as (P & L1 & L2). rewrite app_length. repeat split; [lia|assumption|assumption].
  Qed.

  Lemma append_nothing : forall h s, valid h s -> append zero grow h s [] = (h, s).
  Proof.
    intros h s V. unfold append. cbn [length]. rewrite Nat.add_0_r.
    pose proof (valid_le _ _ V) as L. apply Nat.leb_le in L. rewrite L. cbn [app]. rewrite firstn_skipn, store_same.
    destruct s; reflexivity.
  Qed.

  (* Appending to the slice of register i. *)
  Lemma inv_append : forall h sl vals vers used i xs, inv h sl vals vers used ->
    i < length vers -> xs <> [] ->
    (match nth i vers Never with Grown k => ~ In k used | _ => True end) ->
    let r := append zero grow h (nth i sl nil_slice) xs in
    inv (fst r) (sl ++ [snd r]) (vals ++ [nth i vals [] ++ xs]) (vers ++ [Grown (length vers)])
        (match nth i vers Never with Grown k => k :: used | _ => used end).
  Proof.
    intros h sl vals vers used i xs [Is Iv Iw (F & If & Ip)] Li NE Fresh r.
    set (s := nth i sl nil_slice) in *.
    destruct (If i Li) as [Vs Fs Os]. fold s in Vs, Fs, Os.
    destruct (append_view zero grow h s xs Vs) as (W & V & Ln). fold r in W, V, Ln.
    set (used' := match nth i vers Never with Grown k => k :: used | _ => used end).
    assert (U : incl used used').
    { unfold used'. destruct (nth i vers Never); [apply incl_refl..|apply incl_tl, incl_refl]. }
    assert (LL : length (vers ++ [Grown (length vers)]) = S (length vers)) by (rewrite app_length; cbn; lia).
    assert (Lx : length xs > 0) by (destruct xs; [congruence|cbn; lia]).
    (* in place: the receiver was at the front *)
    assert (Front : sl_len s + length xs <= sl_cap s -> sl_cap s > 0 /\ F (sl_ptr s) = sl_len s).
    { intro Le. split; [lia|]. destruct (nth i vers Never) as [| |k]; [lia| lia|].
      destruct Os as [_ Os]. symmetry. apply Os; [lia|exact Fresh]. }
    assert (Others : forall t, t < length vers -> view (fst r) (nth t sl nil_slice) = view h (nth t sl nil_slice)).
    { intros t Lt. destruct (If t Lt) as [Vt Ft _].
      destruct (le_lt_dec (sl_len s + length xs) (sl_cap s)) as [Le|Gt].
      - destruct (Front Le) as [Cs Fe]. unfold r. apply append_others; [exact Vs|exact Vt|].
        destruct (Nat.eq_dec (sl_cap (nth t sl nil_slice)) 0) as [Z|NZ]; [left; exact Z|right].
        destruct (Nat.eq_dec (sl_ptr (nth t sl nil_slice)) (sl_ptr s)) as [Ep|Np]; [right|left; exact Np].
        destruct (Ft ltac:(lia)) as (_ & L1 & _). rewrite Ep, Fe in L1. exact L1.
      - unfold r, append. replace (sl_len s + length xs <=? sl_cap s) with false by (symmetry; apply Nat.leb_gt; exact Gt).
        cbn [fst]. destruct Vt as [[C L] | (P & Ln' & L)]; [unfold view; rewrite L; reflexivity|].
        unfold view at 1. rewrite app_nth1 by exact P. reflexivity. }
    split; [rewrite !app_length; cbn; lia..| |].
    - intros t L. rewrite LL in L. destruct (Nat.eq_dec t (length vers)) as [-> | N].
      + rewrite !nth_snoc_eq by congruence. rewrite W. f_equal. apply Iw. exact Li.
      + rewrite !nth_snoc_lt by lia. rewrite Others by lia. apply Iw. lia.
    - exists (fun p => if p =? sl_ptr (snd r) then sl_len (snd r) else F p).
      (* registers that were there *)
      assert (Old : forall t, t < length vers -> sl_cap (nth t sl nil_slice) > 0 ->
                sl_ptr (nth t sl nil_slice) = sl_ptr (snd r) ->
                sl_len s + length xs <= sl_cap s /\ sl_ptr (snd r) = sl_ptr s).
      { intros t Lt C Ep. destruct (If t Lt) as [_ Ft _]. destruct (Ft C) as (P & _ & _).
        destruct (le_lt_dec (sl_len s + length xs) (sl_cap s)) as [Le|Gt].
        - split; [exact Le|]. unfold r, append. apply Nat.leb_le in Le. rewrite Le. reflexivity.
        - exfalso. revert Ep. unfold r, append. replace (sl_len s + length xs <=? sl_cap s) with false by (symmetry; apply Nat.leb_gt; exact Gt).
          cbn. lia. }
      split.
      + intros t L. rewrite LL in *. destruct (Nat.eq_dec t (length vers)) as [-> | N].
        * rewrite !nth_snoc_eq by congruence. split; [exact V| |].
          -- intros C. rewrite Nat.eqb_refl. pose proof (valid_le _ _ V). destruct V as [[Z _] | (P & _)]; [lia|].
             repeat split; [exact P|lia|lia].
          -- split; [lia|]. intros _ _. rewrite Nat.eqb_refl. reflexivity.
        * rewrite !nth_snoc_lt by lia. destruct (If t ltac:(lia)) as [Vt Ft Ot].
          split; [unfold r; apply append_valid; [exact Vs|exact Vt]| |].
          -- intro C. destruct (Ft C) as (P & L1 & L2).
             assert (Lh : length h <= length (fst r)).
             { unfold r, append. destruct (_ <=? _); cbn [fst]; [rewrite store_length; lia|rewrite app_length; lia]. }
             split; [lia|]. destruct (sl_ptr (nth t sl nil_slice) =? sl_ptr (snd r)) eqn:E; [|split; assumption].
             apply Nat.eqb_eq in E. destruct (Old t ltac:(lia) C E) as [Le Ep]. destruct (Front Le) as [_ Fe].
             rewrite E, Ep in L1, L2. rewrite Fe in L1.
             assert (Cp : sl_cap (nth t sl nil_slice) = sl_cap s).
             { destruct Vt as [[Z _] | (_ & Lt' & _)]; [lia|]. destruct Vs as [[Z _] | (_ & Ls' & _)]; [lia|].
               rewrite <- Lt', <- Ls', E, Ep. reflexivity. }
             rewrite Ln. lia.
          -- destruct (nth t vers Never) as [| |k] eqn:Ek; [exact Ot..|]. destruct Ot as [K Ot]. split; [lia|].
             intros C NI. assert (NU : ~ In k used) by (intro I; apply NI, U, I).
             destruct (sl_ptr (nth t sl nil_slice) =? sl_ptr (snd r)) eqn:E; [|apply Ot; assumption].
             exfalso. apply Nat.eqb_eq in E. destruct (Old t ltac:(lia) C E) as [Le Ep]. destruct (Front Le) as [Cs Fe].
             unfold used' in NI. destruct (nth i vers Never) as [| |ki] eqn:Ei; [lia|lia|].
             apply NI. left. apply (Ip i t ki k); try assumption; try lia; fold s; rewrite <- Ep; symmetry; exact E.
      + intros t1 t2 k1 k2 L1 L2. rewrite LL in L1, L2.
        assert (Clash : forall t k, t < length vers -> nth t vers Never = Grown k -> sl_cap (nth t sl nil_slice) > 0 ->
                  sl_ptr (nth t sl nil_slice) = sl_ptr (snd r) -> ~ In k used' -> False).
        { intros t k Lt Ek C Ep NI. destruct (Old t Lt C Ep) as [Le Es]. destruct (Front Le) as [Cs Fe].
          assert (NU : ~ In k used) by (intro I; apply NI, U, I).
          unfold used' in NI. destruct (nth i vers Never) as [| |ki] eqn:Ei; [lia|lia|].
          apply NI. left. apply (Ip i t ki k); try assumption; try lia; fold s; rewrite <- Es; symmetry; exact Ep. }
        destruct (Nat.eq_dec t1 (length vers)) as [-> | N1].
        * rewrite (nth_snoc_eq vers), (nth_snoc_eq sl) by congruence. intros E1; injection E1 as <-.
          destruct (Nat.eq_dec t2 (length vers)) as [-> | N2].
          -- rewrite (nth_snoc_eq vers) by reflexivity. intro E2; injection E2 as <-. intros. reflexivity.
          -- rewrite !nth_snoc_lt by lia. intros E2 C1 C2 Ep NI1 NI2. exfalso. apply (Clash t2 k2); try assumption; try lia.
        * rewrite (nth_snoc_lt vers _ _ t1), (nth_snoc_lt sl _ _ t1) by lia. intro E1.
          destruct (Nat.eq_dec t2 (length vers)) as [-> | N2].
          -- rewrite (nth_snoc_eq vers), (nth_snoc_eq sl) by congruence. intros E2 C1 C2 Ep NI1 NI2. exfalso. apply (Clash t1 k1); try assumption; lia.
          -- rewrite !nth_snoc_lt by lia. intros E2 C1 C2 Ep NI1 NI2.
             apply (Ip t1 t2 k1 k2); try assumption; try lia; intro I; [apply NI1|apply NI2]; apply U; exact I.
  Qed.
End Many.
