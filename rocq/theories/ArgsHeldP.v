(* No call on a builder changes the elements of a slice of the caller, when the caller does not
   append to its slices. Nothing is asked of the program otherwise. *)
From Coq Require Import String List Arith ZArith Lia Bool.
From Verif Require Import Ast Write Api Parser Build Sort Mem Forks MemP ForksP Args ArgsP.
Import ListNotations.
Local Open Scope list_scope.
Local Open Scope nat_scope.

(* Both print the same slice, or both print something else. *)
Definition same_held {V} (a b : shown V) : Prop :=
  match a, b with
  | Held v, Held v' => v = v'
  | Held _, _ | _, Held _ => False
  | _, _ => True
  end.

Definition no_extend {N C M} (p : list (acmd N C M)) : Prop :=
  forall c, In c p -> match c with AExtend _ _ => False | _ => True end.

Section Held.
  Context {N V C M : Type}
    (new : N -> res V) (step : V -> C -> res V)
    (given : M -> var -> option C)
    (given_withs : list withq -> option C) (as_with : C -> option (list withq))
    (keeps : M -> var -> bool) (put : M -> V -> var -> V) (clears : C -> M -> bool)
    (set_with : V -> list withq -> V) (g : growth).

  Notation reg := (mreg (V := V) (M := M)).
  Definition sl_of (r : reg) : slice := match r with MBuilt b => br_withs b | MSlice s => s | _ => nil_slice end.

  Definition held_rel (h : list (list withq)) (r : reg) (s : shown V) : Prop :=
    match r, s with
    | MHeld (VWiths _), _ => False
    | MHeld v, Held v' => v = v'
    | MSlice x, Held (VWiths l) => view h x = l
    | MBuilt _, Built _ | MBuilt _, Nothing | MNothing, Built _ | MNothing, Nothing => True
    | _, _ => False
    end.

  Record held (h : list (list withq)) (regs : list reg) (vals : list (shown V)) : Prop := {
    he_rel : Forall2 (held_rel h) regs vals;
    he_valid : forall r, valid h (sl_of (nth r regs MNothing));
    he_front : forall k s r, nth k regs MNothing = MSlice s -> sl_cap s > 0 -> r <> k ->
      sl_cap (sl_of (nth r regs MNothing)) > 0 -> sl_ptr (sl_of (nth r regs MNothing)) = sl_ptr s ->
      exists b, nth r regs MNothing = MBuilt b /\ sl_len s <= sl_len (br_withs b) }.

  Lemma held_nth : forall h regs vals i, held h regs vals -> held_rel h (nth i regs MNothing) (nth i vals Nothing).
  Proof.
    intros h regs vals i [R _ _]. revert i. induction R as [|x y l l' H _ IH]; intros [|i]; cbn [nth]; [exact I|exact I|exact H|apply IH].
  Qed.

  Lemma held_length : forall h regs vals, held h regs vals -> length regs = length vals.
  Proof. intros h regs vals [R _ _]. exact (Forall2_len _ _ _ R). Qed.

  (* One more register; the memory may change, not the slices that are held. *)
  Lemma held_more : forall h h' regs vals r s, held h regs vals ->
    (forall t, valid h (sl_of (nth t regs MNothing)) -> valid h' (sl_of (nth t regs MNothing))) ->
    (forall k x, nth k regs MNothing = MSlice x -> view h' x = view h x) ->
    held_rel h' r s -> valid h' (sl_of r) ->
    (forall k x, nth k regs MNothing = MSlice x -> sl_cap x > 0 -> sl_cap (sl_of r) > 0 -> sl_ptr (sl_of r) = sl_ptr x ->
       exists b, r = MBuilt b /\ sl_len x <= sl_len (br_withs b)) ->
    (forall x, r = MSlice x -> sl_cap x > 0 -> forall t, sl_cap (sl_of (nth t regs MNothing)) > 0 ->
       sl_ptr (sl_of (nth t regs MNothing)) = sl_ptr x -> False) ->
    held h' (regs ++ [r]) (vals ++ [s]).
  Proof.
    intros h h' regs vals r s H Vd Vw R Vr A1 A2.
    pose proof (held_length _ _ _ H) as L.
    assert (Nl : forall t, nth t (regs ++ [r]) MNothing = nth t regs MNothing \/ t = length regs /\ nth t (regs ++ [r]) MNothing = r).
    { intro t. destruct (lt_eq_lt_dec t (length regs)) as [[Lt| ->]|Lt].
      - left. apply app_nth1. exact Lt.
      - right. split; [reflexivity|]. apply nth_snoc_eq. reflexivity.
      - left. rewrite !nth_overflow by (rewrite ?app_length; cbn; lia). reflexivity. }
    split.
    - apply Forall2_snoc; [|exact R].
      assert (G : forall i, held_rel h' (nth i regs MNothing) (nth i vals Nothing)).
      { intro i. pose proof (held_nth _ _ _ i H) as Hi. specialize (Vw i).
        destruct (nth i regs MNothing) as [|b|v|x]; destruct (nth i vals Nothing) as [|q|v']; try exact Hi.
        destruct v'; try exact Hi. cbn in Hi |- *. rewrite (Vw x eq_refl). exact Hi. }
      clear - G L. revert vals L G. induction regs as [|a regs IH]; intros [|c vals] L G; cbn in L; try discriminate L; constructor.
      + exact (G 0).
      + apply IH; [congruence|]. intro i. exact (G (S i)).
    - intro t. destruct (Nl t) as [-> | [_ ->]]; [apply Vd, (he_valid _ _ _ H)|exact Vr].
    - intros k x t Ek Cx Nt Ct Ep.
      destruct (Nl k) as [Ekk | [Ekk Er]].
      + rewrite Ekk in Ek. destruct (Nl t) as [Et | [Et Er]].
        * rewrite Et in *. exact (he_front _ _ _ H k x t Ek Cx Nt Ct Ep).
        * rewrite Er in *. exact (A1 k x Ek Cx Ct Ep).
      + rewrite Er in Ek. destruct (Nl t) as [Et | [Et _]]; [|congruence].
        rewrite Et in *. exfalso. exact (A2 x Ek Cx t Ct Ep).
  Qed.

  Lemma held_dead : forall h regs vals r s, held h regs vals -> held_rel h r s -> sl_cap (sl_of r) = 0 -> sl_len (sl_of r) = 0 ->
    held h (regs ++ [r]) (vals ++ [s]).
  Proof.
    intros h regs vals r s H R C0 L0. eapply held_more; [exact H|auto|auto|exact R|left; split; assumption|lia|].
    intros x -> Cx. cbn in C0. lia.
  Qed.

  (* A builder with the slice of another builder. *)
  Lemma held_copy : forall h regs vals i b b' s, held h regs vals -> nth i regs MNothing = MBuilt b -> br_withs b' = br_withs b ->
    match s with Held _ => False | _ => True end ->
    held h (regs ++ [MBuilt b']) (vals ++ [s]).
  Proof.
    intros h regs vals i b b' s H Eb Es Ns. eapply held_more; [exact H|auto|auto| | | |discriminate].
    - destruct s; [exact I|exact I|contradiction Ns].
    - cbn [sl_of]. rewrite Es. pose proof (he_valid _ _ _ H i) as Vi. rewrite Eb in Vi. exact Vi.
    - cbn [sl_of]. rewrite Es. intros k x Ek Cx Cb Ep.
      assert (Nk : i <> k) by (intros ->; congruence).
      pose proof (he_front _ _ _ H k x i Ek Cx Nk) as Fr. rewrite Eb in Fr. cbn [sl_of] in Fr.
      destruct (Fr Cb Ep) as (b0 & E0 & Le). injection E0 as <-. exists b'. split; [reflexivity|]. rewrite Es. exact Le.
  Qed.

  (* Appending to the slice of a builder. *)
  Lemma held_append : forall h regs vals i b xs s, held h regs vals -> nth i regs MNothing = MBuilt b ->
    match s with Held _ => False | _ => True end ->
    held (fst (extend g h (br_withs b) xs)) (regs ++ [set_slice b (snd (extend g h (br_withs b) xs))]) (vals ++ [s]).
  Proof.
    intros h regs vals i b xs s H Eb Ns. unfold extend.
    pose proof (he_valid _ _ _ H i) as Vi. rewrite Eb in Vi. cbn [sl_of] in Vi.
    destruct (append_view zero_withq (g_withs g) h _ xs Vi) as (Wv & Vn & Ln). cbv zeta in *.
    assert (Nk : forall k x, nth k regs MNothing = MSlice x -> i <> k) by (intros k x Ek ->; congruence).
    eapply held_more; [exact H| | | |exact Vn| |discriminate].
    - intros t Vt. apply append_valid; assumption.
    - intros k x Ek. pose proof (he_valid _ _ _ H k) as Vk. rewrite Ek in Vk. cbn [sl_of] in Vk.
      destruct (Nat.eq_dec (sl_cap (br_withs b)) 0) as [Zb|NZb].
      + destruct xs as [|y xs]; [rewrite append_nothing by exact Vi; reflexivity|].
        unfold append. rewrite Zb. cbn [length].
        replace (sl_len (br_withs b) + S (length xs) <=? 0) with false by (symmetry; apply Nat.leb_gt; lia).
        apply (make_others h _ x Vk).
      + apply append_others; [exact Vi|exact Vk|].
        destruct (Nat.eq_dec (sl_cap x) 0) as [Z|NZ]; [left; exact Z|]. right.
        destruct (Nat.eq_dec (sl_ptr x) (sl_ptr (br_withs b))) as [Ep|Np]; [right|left; exact Np].
        pose proof (he_front _ _ _ H k x i Ek ltac:(lia) (Nk k x Ek)) as Fr. rewrite Eb in Fr. cbn [sl_of] in Fr.
        destruct (Fr ltac:(lia) (eq_sym Ep)) as (b0 & E0 & Le). injection E0 as <-. exact Le.
    - destruct s; [exact I|exact I|contradiction Ns].
    - cbn [sl_of set_slice br_withs]. intros k x Ek Cx Cb Ep. eexists. split; [reflexivity|]. cbn [br_withs]. rewrite Ln.
      unfold append in Ep, Cb. destruct (sl_len (br_withs b) + length xs <=? sl_cap (br_withs b)) eqn:E; cbn [snd sl_ptr sl_cap] in Ep, Cb.
      + pose proof (he_front _ _ _ H k x i Ek Cx (Nk k x Ek)) as Fr. rewrite Eb in Fr. cbn [sl_of] in Fr.
        destruct (Fr Cb Ep) as (b0 & E0 & Le). injection E0 as <-. lia.
      + pose proof (he_valid _ _ _ H k) as Vk. rewrite Ek in Vk. cbn [sl_of] in Vk. destruct Vk as [[Z _] | (P & _)]; lia.
  Qed.

  (* A new array, reached by nothing else. *)
  Lemma held_fresh : forall h regs vals a r s, held h regs vals -> held_rel (h ++ [a]) r s -> valid (h ++ [a]) (sl_of r) ->
    sl_ptr (sl_of r) = length h -> held (h ++ [a]) (regs ++ [r]) (vals ++ [s]).
  Proof.
    intros h regs vals a r s H R Vr Pr.
    assert (Old : forall t, sl_cap (sl_of (nth t regs MNothing)) > 0 -> sl_ptr (sl_of (nth t regs MNothing)) < length h).
    { intros t Ct. destruct (he_valid _ _ _ H t) as [[Z _] | (P & _)]; lia. }
    eapply held_more; [exact H| | |exact R|exact Vr| |].
    - intros t Vt. apply (make_others h a). exact Vt.
    - intros k x Ek. apply (make_others h a). pose proof (he_valid _ _ _ H k) as Vk. rewrite Ek in Vk. exact Vk.
    - intros k x Ek Cx Cr Ep. exfalso. specialize (Old k). rewrite Ek in Old. cbn [sl_of] in Old. specialize (Old Cx). lia.
    - intros x -> Cx t Ct Ep. cbn [sl_of] in Pr. specialize (Old t Ct). lia.
  Qed.

  (* The slice of a variable becomes the slice of a builder. *)
  Lemma held_keep : forall h regs vals k x b s, held h regs vals -> nth k regs MNothing = MSlice x -> br_withs b = x ->
    match s with Held _ => False | _ => True end ->
    held h (regs ++ [MBuilt b]) (vals ++ [s]).
  Proof.
    intros h regs vals k x b s H Ek Eb Ns. eapply held_more; [exact H|auto|auto| | | |discriminate].
    - destruct s; [exact I|exact I|contradiction Ns].
    - cbn [sl_of]. rewrite Eb. pose proof (he_valid _ _ _ H k) as Vk. rewrite Ek in Vk. exact Vk.
    - cbn [sl_of]. rewrite Eb. intros k' x' Ek' Cx' Cx Ep. exists b. split; [reflexivity|]. rewrite Eb.
      destruct (Nat.eq_dec k k') as [<-|Nk]; [rewrite Ek in Ek'; injection Ek' as <-; lia|].
      pose proof (he_front _ _ _ H k' x' k Ek' Cx' Nk) as Fr. rewrite Ek in Fr. cbn [sl_of] in Fr.
      destruct (Fr Cx Ep) as (b0 & E0 & _). discriminate E0.
  Qed.

  Lemma held_put_held : forall h regs vals k v v', held h regs vals -> nth k regs MNothing = MHeld v ->
    match v' with VWiths _ => False | _ => True end ->
    held h (store regs k (MHeld v')) (store vals k (Held v')).
  Proof.
    intros h regs vals k v v' H Ek Nv.
    assert (Nl : forall t, sl_of (nth t (store regs k (MHeld v')) MNothing) = sl_of (nth t regs MNothing)).
    { intro t. rewrite nth_store_any. destruct (t =? k) eqn:E; [|reflexivity]. apply Nat.eqb_eq in E. subst t.
      destruct (k <? length regs); [rewrite Ek|]; reflexivity. }
    assert (Nm : forall t x, nth t (store regs k (MHeld v')) MNothing = MSlice x -> nth t regs MNothing = MSlice x).
    { intros t x. rewrite nth_store_any. destruct ((t =? k) && (k <? length regs)); [discriminate|auto]. }
    assert (Nb : forall t b, nth t regs MNothing = MBuilt b -> nth t (store regs k (MHeld v')) MNothing = MBuilt b).
    { intros t b Et. rewrite nth_store_any. destruct (t =? k) eqn:E; [|exact Et]. apply Nat.eqb_eq in E. subst t. congruence. }
    split.
    - apply Forall2_store; [exact (he_rel _ _ _ H)|]. destruct v'; try reflexivity. contradiction Nv.
    - intro t. rewrite Nl. apply (he_valid _ _ _ H).
    - intros k0 x t Ek0 Cx Nt Ct Ep. rewrite Nl in *. apply Nm in Ek0.
      destruct (he_front _ _ _ H k0 x t Ek0 Cx Nt Ct Ep) as (b & Eb & Le). exists b. split; [apply Nb; exact Eb|exact Le].
  Qed.

  Lemma held_put_slice : forall h regs vals k x j w l, held h regs vals -> nth k regs MNothing = MSlice x -> j < sl_len x ->
    nth k vals Nothing = Held (VWiths l) ->
    held (store h (sl_ptr x) (store (nth (sl_ptr x) h []) j w)) regs (store vals k (Held (VWiths (store l j w)))).
  Proof.
    intros h regs vals k x j w l H Ek Lj El.
    pose proof (held_nth _ _ _ k H) as Rk. rewrite Ek, El in Rk. cbn in Rk.
    pose proof (he_valid _ _ _ H k) as Vk. rewrite Ek in Vk. cbn [sl_of] in Vk.
    destruct Vk as [[_ Z] | (P & Ln & Lc)]; [lia|].
    set (h' := store h (sl_ptr x) (store (nth (sl_ptr x) h []) j w)).
    assert (Vd : forall s, valid h s -> valid h' s).
    { intros s [D | (Ps & Ls & Cs)]; [left; exact D|right]. unfold h'. rewrite store_length. split; [exact Ps|]. split; [|exact Cs].
      rewrite nth_store_any. destruct ((sl_ptr s =? sl_ptr x) && (sl_ptr x <? length h)) eqn:E; [|exact Ls].
      apply andb_prop in E. destruct E as [E _]. apply Nat.eqb_eq in E. rewrite store_length, <- E. exact Ls. }
    split.
    - assert (G : forall i, held_rel h' (nth i regs MNothing) (nth i (store vals k (Held (VWiths (store l j w)))) Nothing)).
      { intro i. pose proof (held_nth _ _ _ i H) as Hi. rewrite nth_store_any.
        assert (Lk : k < length vals).
        { destruct (Nat.lt_ge_cases k (length vals)) as [L|L]; [exact L|]. rewrite nth_overflow in El by exact L. discriminate El. }
        apply Nat.ltb_lt in Lk. rewrite Lk, andb_true_r.
        destruct (i =? k) eqn:E.
        - apply Nat.eqb_eq in E. subst i. rewrite Ek. cbn. unfold view, h'. rewrite nth_store_eq by exact P.
          rewrite firstn_store by exact Lj. unfold view in Rk. rewrite Rk. reflexivity.
        - apply Nat.eqb_neq in E. destruct (nth i regs MNothing) as [|b|v|y] eqn:Ei; try exact Hi.
          destruct (nth i vals Nothing) as [|q|v]; try exact Hi. destruct v; try exact Hi. cbn in Hi |- *. rewrite <- Hi.
          pose proof (he_valid _ _ _ H i) as Vy. rewrite Ei in Vy. cbn [sl_of] in Vy.
          destruct Vy as [[_ Z] | (Py & Ly & Cy)]; [unfold view; rewrite Z; reflexivity|].
          destruct (Nat.eq_dec (sl_ptr y) (sl_ptr x)) as [Ep|Np].
          + destruct (Nat.eq_dec (sl_len y) 0) as [Zy|NZy]; [unfold view; rewrite Zy; reflexivity|].
            pose proof (he_front _ _ _ H k x i Ek ltac:(lia) E) as Fr. rewrite Ei in Fr. cbn [sl_of] in Fr.
            destruct (Fr ltac:(lia) Ep) as (b0 & E0 & _). discriminate E0.
          + unfold view, h'. rewrite nth_store_ne by congruence. reflexivity. }
      pose proof (held_length _ _ _ H) as L. rewrite <- (store_length vals k (Held (VWiths (store l j w)))) in L.
      revert G L. generalize (store vals k (Held (VWiths (store l j w)))). clear. 
      induction regs as [|a regs IH]; intros [|c vals] G L; cbn in L; try discriminate L; constructor.
      + exact (G 0).
      + apply IH; [|congruence]. intro i. exact (G (S i)).
    - intro t. apply Vd, (he_valid _ _ _ H).
    - exact (he_front _ _ _ H).
  Qed.

  Lemma built_not_held : forall r : res V, match built r with Held _ => False | _ => True end.
  Proof. intros [q|e]; exact I. Qed.

  Theorem held_memory : forall p h regs vals, no_extend p -> held h regs vals ->
    Forall2 same_held
      (arg_memory new step given given_withs as_with keeps put clears set_with g h regs p)
      (arg_values new step given given_withs vals p).
  Proof.
    induction p as [|c p IH]; intros h regs vals NE H; [constructor|].
    assert (NE' : no_extend p) by (intros c' I'; apply NE; right; exact I').
    pose proof (fun i => held_nth _ _ _ i H) as Rl.
    (* a builder or nothing, with the slice of the builder i or none *)
    assert (Dead : forall s, match s with Held _ => False | _ => True end -> held h (regs ++ [MNothing]) (vals ++ [s])).
    { intros s Ns. apply held_dead; [exact H| |reflexivity|reflexivity]. destruct s; [exact I|exact I|contradiction Ns]. }
    assert (Call : forall i b c' ex s, nth i regs MNothing = MBuilt b -> match s with Held _ => False | _ => True end ->
      held h (regs ++ [ref_call step put clears set_with h regs b c' ex]) (vals ++ [s])).
    { intros i b c' ex s Eb Ns. unfold ref_call. destruct (step _ c') as [q|e]; [|apply Dead; exact Ns].
      eapply held_copy; [exact H|exact Eb|reflexivity|exact Ns]. }
    destruct c as [a|i c|i m k|i k|v spare|k ws|k j x|i]; cbn [arg_memory arg_values].
    - apply IH; [exact NE'|]. pose proof (built_not_held (new a)) as Nb. destruct (new a) as [q|e]; [|apply Dead; exact Nb].
      apply held_dead; [exact H|exact I|reflexivity|reflexivity].
    - assert (Ns : match match nth i vals Nothing with Built q => built (step q c) | _ => Nothing end with Held _ => False | _ => True end).
      { destruct (nth i vals Nothing); [exact I|apply built_not_held|exact I]. }
      destruct (nth i regs MNothing) as [|b|v|x] eqn:Ei; try (apply IH; [exact NE'|apply Dead; exact Ns]).
      destruct (as_with c) as [ws|] eqn:Ew; [|apply IH; [exact NE'|eapply Call; [exact Ei|exact Ns]]].
      apply IH; [exact NE'|]. destruct (sl_len (br_withs b) =? 0).
      + destruct (make_view h ws) as (_ & Vm & _). unfold make_slice in *. cbn [fst snd] in *.
        apply held_fresh; [exact H| |exact Vm|reflexivity]. unfold set_slice.
        destruct (match nth i vals Nothing with Built q => built (step q c) | _ => Nothing end); [exact I|exact I|contradiction Ns].
      + eapply held_append; [exact H|exact Ei|exact Ns].
    - apply IH; [exact NE'|].
      set (s := match nth i vals Nothing with Built q => _ | _ => Nothing end).
      assert (Ns : match s with Held _ => False | _ => True end).
      { unfold s. destruct (nth i vals Nothing); [exact I| |exact I]. destruct (nth k vals Nothing) as [| |v]; [exact I|exact I|].
        destruct (given m v); [apply built_not_held|exact I]. }
      clearbody s. destruct (nth i regs MNothing) as [|b|v|x] eqn:Ei; try (apply Dead; exact Ns).
      destruct (content h (nth k regs MNothing)) as [v|]; [|apply Dead; exact Ns].
      destruct (given m v) as [c|]; [|apply Dead; exact Ns]. eapply Call; [exact Ei|exact Ns].
    - set (s := match nth i vals Nothing with Built q => _ | _ => Nothing end).
      assert (Ns : match s with Held _ => False | _ => True end).
      { unfold s. destruct (nth i vals Nothing); [exact I| |exact I]. destruct (nth k vals Nothing) as [| |[]]; try exact I.
        destruct (given_withs l); [apply built_not_held|exact I]. }
      clearbody s. destruct (nth i regs MNothing) as [|b|v|x] eqn:Ei; try (apply IH; [exact NE'|apply Dead; exact Ns]).
      destruct (nth k regs MNothing) as [|b'|v|x] eqn:Ek; try (apply IH; [exact NE'|apply Dead; exact Ns]).
      destruct (given_withs []) as [c|]; [|apply IH; [exact NE'|apply Dead; exact Ns]].
      apply IH; [exact NE'|]. destruct (sl_len (br_withs b) =? 0).
      + cbn [fst snd]. eapply held_keep; [exact H|exact Ek|reflexivity|exact Ns].
      + eapply held_append; [exact H|exact Ei|exact Ns].
    - destruct v as [l|l|l|l|l|l]; try (apply IH; [exact NE'|]; apply held_dead; [exact H|reflexivity|reflexivity|reflexivity]).
      apply IH; [exact NE'|]. destruct l as [|w l]; [apply held_dead; [exact H|reflexivity|reflexivity|reflexivity]|].
      unfold alloc. cbn [fst snd]. apply held_fresh; [exact H| | |reflexivity].
      + cbn [held_rel]. unfold view. cbn [sl_len sl_ptr]. rewrite app_nth2 by lia. rewrite Nat.sub_diag. cbn [nth].
        rewrite firstn_app, Nat.sub_diag, firstn_all. cbn [firstn]. apply app_nil_r.
      + right. cbn [sl_of sl_len sl_cap sl_ptr]. rewrite app_length, app_nth2 by lia. rewrite Nat.sub_diag. cbn [nth].
        rewrite app_length, repeat_length. cbn [length]. lia.
    - exfalso. exact (NE (AExtend k ws) (or_introl eq_refl)).
    - specialize (Rl k).
      destruct (nth k regs MNothing) as [|b|v|s] eqn:Ek; destruct (nth k vals Nothing) as [|q|v'] eqn:Ev; cbn in Rl; try contradiction Rl;
        try (destruct v; contradiction Rl).
      + apply IH; assumption.
      + apply IH; assumption.
      + apply IH; assumption.
      + apply IH; assumption.
      + assert (v = v') by (destruct v; [exact Rl..|contradiction Rl]). subst v'.
        assert (G : held h (store regs k (MHeld (poke v j x))) (store vals k (Held (poke v j x)))).
        { eapply held_put_held; [exact H|exact Ek|]. destruct v; [| | | | |contradiction Rl]; destruct x; exact I. }
        apply IH; assumption.
      + destruct v' as [l|l|l|l|l|l]; try contradiction Rl.
        assert (Same : held h regs (store vals k (Held (VWiths l)))).
        { rewrite <- Ev, store_same. exact H. }
        destruct x; try (apply IH; [exact NE'|exact Same]). cbn [poke].
        destruct (j <? sl_len s) eqn:E.
        * apply Nat.ltb_lt in E. apply IH; [exact NE'|]. apply held_put_slice; assumption.
        * apply Nat.ltb_ge in E. rewrite (store_out l j); [apply IH; [exact NE'|exact Same]|].
          pose proof (he_valid _ _ _ H k) as Vk. rewrite Ek in Vk. rewrite <- Rl, view_length by exact Vk. exact E.
    - constructor; [|apply IH; assumption].
      specialize (Rl i). destruct (nth i regs MNothing) as [|b|v|s]; destruct (nth i vals Nothing) as [|q|v']; cbn in Rl |- *; try exact I;
        try contradiction Rl; try (destruct v; contradiction Rl).
      + destruct v; [exact Rl..|contradiction Rl].
      + destruct v'; try contradiction Rl. rewrite Rl. reflexivity.
  Qed.

  Lemma held_start : held [] [] [].
  Proof.
    split; [constructor| |].
    - intro t. destruct t; left; split; reflexivity.
    - intros k s r Ek. destruct k; discriminate Ek.
  Qed.
End Held.

Theorem select_held : forall g p, no_extend p -> Forall2 same_held (sel_arg_memory g p) (sel_arg_values p).
Proof. intros g p NE. apply held_memory; [exact NE|apply held_start]. Qed.
Theorem insert_held {O : Oracle} : forall g p, no_extend p -> Forall2 same_held (ins_arg_memory g p) (ins_arg_values p).
Proof. intros g p NE. apply held_memory; [exact NE|apply held_start]. Qed.
Theorem update_held : forall g p, no_extend p -> Forall2 same_held (upd_arg_memory g p) (upd_arg_values p).
Proof. intros g p NE. apply held_memory; [exact NE|apply held_start]. Qed.
Theorem delete_held : forall g p, no_extend p -> Forall2 same_held (del_arg_memory g p) (del_arg_values p).
Proof. intros g p NE. apply held_memory; [exact NE|apply held_start]. Qed.
