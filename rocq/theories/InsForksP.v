(* Programs with several Insert builders print what they would print if builders were values. *)
From Coq Require Import String List Arith ZArith Lia Permutation.
From Verif Require Import Ast Write Api Parser Build Sort Mem Forks MemP ForksP ArgsP InsForks.
Import ListNotations.
Local Open Scope list_scope.
Local Open Scope nat_scope.

(* ------------------------------------------------------------------------- *)
(* The loop of OnConflict                                                      *)
(* ------------------------------------------------------------------------- *)

(* Extending s leaves what is read through t. *)
Definition apart (t s : slice) : Prop :=
  sl_cap t = 0 \/ sl_cap s = 0 \/ sl_ptr t <> sl_ptr s \/ sl_len t <= sl_len s.

Lemma append_keeps {A} (zero : A) grow : forall h s x t, valid h s -> valid h t -> apart t s ->
  let r := append zero grow h s [x] in
  view (fst r) t = view h t /\ valid (fst r) t /\ apart t (snd r).
Proof.
  intros h s x t Vs Vt D r. subst r. unfold append.
  destruct (sl_len s + length [x] <=? sl_cap s) eqn:E.
  - apply Nat.leb_le in E. cbn [length] in E.
    assert (D' : sl_cap t = 0 \/ sl_ptr t <> sl_ptr s \/ sl_len t <= sl_len s).
    { destruct D as [D|[D|[D|D]]]; [left; exact D|lia|right; left; exact D|right; right; exact D]. }
    pose proof (append_others zero grow h s [x] t Vs Vt D') as V1. pose proof (append_valid zero grow h s [x] t Vs Vt) as V2.
    unfold append in V1, V2. cbn [length] in V1, V2.
    replace (sl_len s + 1 <=? sl_cap s) with true in V1, V2 by (symmetry; apply Nat.leb_le; exact E).
    split; [exact V1|]. split; [exact V2|]. cbn [snd]. unfold apart. cbn [sl_cap sl_ptr sl_len length].
    destruct D' as [D'|[D'|D']]; [left; exact D'|right; right; left; exact D'|right; right; right; lia].
  - cbn [fst snd]. destruct (make_others h (view h s ++ [x] ++ repeat zero (Nat.max (sl_len s + length [x]) (grow (sl_cap s) (sl_len s + length [x])) - (sl_len s + length [x]))) t Vt) as [V1 V2].
    split; [exact V1|]. split; [exact V2|]. unfold apart. cbn [sl_cap sl_ptr sl_len].
    destruct Vt as [[C _] | (P & _)]; [left; exact C|right; right; left; lia].
Qed.

(* Where the slice of a builder is after an append: in the same array, or in a new one. *)
Definition moved_on (n : nat) (s s' : slice) : Prop :=
  s' = s \/ (sl_ptr s' = sl_ptr s /\ sl_cap s' = sl_cap s /\ sl_cap s > 0 /\ sl_len s <= sl_len s') \/ n <= sl_ptr s'.

Definition at_set (acts orig : list pairs) (k : option nat) (a : conflict_action) : Prop :=
  match a with ActUpdate p => exists j, k = Some j /\ nth_error orig j = Some p | _ => k = None end.

Lemma ref_conflict_spec : forall g acts args h s,
  valid (ih_targets h) s ->
  let r := ref_conflict g acts h s args in
  match snd r, on_conflict_loop (map (arg_value acts) args) (view (ih_targets h) s) with
  | Ok (s', a, k), Ok (t, a') =>
    a = a' /\ view (ih_targets (fst r)) s' = t /\ valid (ih_targets (fst r)) s' /\ moved_on (length (ih_targets h)) s s'
    /\ ((ih_sets (fst r) = ih_sets h /\ at_set acts acts k a)
        \/ (exists p, a = ActUpdate p /\ k = Some (length (ih_sets h)) /\ ih_sets (fst r) = ih_sets h ++ [p_cols p]))
  | Panic _, Panic _ => ih_sets (fst r) = ih_sets h
  | _, _ => False
  end
  /\ (forall t, valid (ih_targets h) t -> apart t s ->
      view (ih_targets (fst r)) t = view (ih_targets h) t /\ valid (ih_targets (fst r)) t)
  /\ length (ih_targets h) <= length (ih_targets (fst r)).
Proof.
  intros g acts. induction args as [|a args IH]; intros h s Vs; cbv zeta.
  { cbn. split; [reflexivity|]. split; [intros t Vt _; split; [reflexivity|exact Vt]|lia]. }
  assert (Ne : nonempty (view (ih_targets h) s) = negb (sl_len s =? 0)).
  { pose proof (view_length _ _ Vs) as L. destruct (view (ih_targets h) s); cbn in L |- *; rewrite <- L; reflexivity. }
  assert (Same : (forall t, valid (ih_targets h) t -> apart t s -> view (ih_targets h) t = view (ih_targets h) t /\ valid (ih_targets h) t)
    /\ length (ih_targets h) <= length (ih_targets h)).
  { split; [intros t Vt _; split; [reflexivity|exact Vt]|lia]. }
  destruct a as [v|k].
  - cbn [ref_conflict map arg_value on_conflict_loop].
    destruct v; try (cbn [fst snd]; split; [reflexivity|exact Same]).
    (* a string, a column *)
    1, 2: match goal with |- context [to_column ?v] => destruct (to_column v) as [x|e] end; cbn [bind];
      [|cbn [fst snd]; split; [reflexivity|exact Same]];
      destruct (append_view zero_column (g_cols g) (ih_targets h) s [x] Vs) as (Wv & Wd & Wl); cbv zeta in *;
      pose proof (append_keeps zero_column (g_cols g) (ih_targets h) s x) as Kp; cbv zeta in Kp;
      assert (Ml : moved_on (length (ih_targets h)) s (snd (append zero_column (g_cols g) (ih_targets h) s [x]))
                   /\ length (ih_targets h) <= length (fst (append zero_column (g_cols g) (ih_targets h) s [x])));
      [unfold append, moved_on; destruct (sl_len s + length [x] <=? sl_cap s) eqn:E; cbn [fst snd sl_ptr sl_len sl_cap];
       [apply Nat.leb_le in E; cbn [length] in E; split; [right; left; repeat split; lia|rewrite store_length; lia]
       |split; [right; right; lia|rewrite app_length; lia]]|];
      set (r0 := append zero_column (g_cols g) (ih_targets h) s [x]) in *; clearbody r0; destruct r0 as [T1 s1]; cbn [fst snd] in *;
      specialize (IH {| ih_targets := T1; ih_sets := ih_sets h |} s1 Wd); cbv zeta in IH; cbn [ih_targets ih_sets] in IH;
      rewrite Wv in IH; destruct IH as (I1 & I2 & I3); destruct Ml as [Ml Ll]; split; [|split; [|lia]];
      [destruct (snd (ref_conflict g acts {| ih_targets := T1; ih_sets := ih_sets h |} s1 args)) as [[[s' a] k]|e];
         destruct (on_conflict_loop _ _) as [[t a']|e']; try exact I1;
       destruct I1 as (J1 & J2 & J3 & J4 & J5); split; [exact J1|]; split; [exact J2|]; split; [exact J3|]; split; [|exact J5];
       unfold moved_on in *; destruct J4 as [->|[(P1 & C1 & C2 & L1)|P1]]; [exact Ml| |right; right; lia];
       destruct Ml as [->|[(P0 & C0 & C0' & L0)|P0]];
         [right; left; repeat split; lia|right; left; repeat split; lia|right; right; lia]
      |intros t Vt D; destruct (Kp t Vs Vt D) as (K1 & K2 & K3); destruct (I2 t K2 K3) as [K4 K5];
       split; [rewrite K4; exact K1|exact K5]].
    + (* DO NOTHING *)
      cbn [fst snd]. split; [|exact Same]. repeat split; [exact Vs|left; reflexivity|]. left. split; reflexivity.
    + (* DO UPDATE *)
      rewrite Ne. destruct (sl_len s =? 0); cbn [negb fst snd]; [split; [reflexivity|exact Same]|].
      split; [|exact Same]. repeat split; [exact Vs|left; reflexivity|]. right. eexists. repeat split.
  - cbn [ref_conflict map arg_value on_conflict_loop].
    destruct (nth_error acts k) as [p|] eqn:Ek; cbn [on_conflict_loop]; [|cbn [fst snd]; split; [reflexivity|exact Same]].
    rewrite Ne. destruct (sl_len s =? 0); cbn [negb fst snd]; [split; [reflexivity|exact Same]|].
    split; [|exact Same]. repeat split; [exact Vs|left; reflexivity|]. left. split; [reflexivity|].
    exists k. split; [reflexivity|exact Ek].
Qed.

(* ------------------------------------------------------------------------- *)
(* Builders and values                                                         *)
(* ------------------------------------------------------------------------- *)

(* The same action, with its columns in another order. *)
Definition same_action (a a' : option conflict_action) : Prop :=
  match a' with
  | Some (ActUpdate p) => exists l, a = Some (ActUpdate (with_cols p l)) /\ Permutation l (p_cols p)
                                    /\ (p_mode p <> PAssoc -> l = p_cols p)
  | _ => a = a'
  end.
Definition same_insert (v u : insert) : Prop :=
  v = ins_with_conflict u (i_conflict_target u) (i_conflict_action v) /\ same_action (i_conflict_action v) (i_conflict_action u).
Definition same_inserted (v u : option insert) : Prop :=
  match v, u with Some v, Some u => same_insert v u | None, None => True | _, _ => False end.

Definition irel (h : ins_heap) (orig : list pairs) (b : option ins_ref) (i : option insert) : Prop :=
  match b, i with
  | Some b, Some i =>
    ir_rest b = ins_with_conflict i [] (i_conflict_action i)
    /\ view (ih_targets h) (ir_target b) = i_conflict_target i
    /\ match i_conflict_action i with
       | Some a => at_set [] orig (ir_set b) a
       | None => ir_set b = None
       end
  | None, None => True
  | _, _ => False
  end.

Definition slice_of (b : option ins_ref) : slice := match b with Some b => ir_target b | None => nil_slice end.

Record core (h : ins_heap) (acts orig : list pairs) (regs : list (option ins_ref)) (vals : list (option insert)) : Prop := {
  co_rel : Forall2 (irel h orig) regs vals;
  co_sets : Forall2 (fun l p => Permutation l (p_cols p) /\ (p_mode p <> PAssoc -> l = p_cols p)) (ih_sets h) orig;
  co_acts : exists more, orig = acts ++ more;
  co_valid : forall r, valid (ih_targets h) (slice_of (nth r regs None)) }.

Lemma Forall2_nth_error {A B} (R : A -> B -> Prop) : forall l l' k y, Forall2 R l l' -> nth_error l' k = Some y ->
  exists x, nth_error l k = Some x /\ R x y.
Proof.
  intros l l' k y F. revert k. induction F as [|a b l l' H F IH]; intros [|k] E; try discriminate E; cbn in *.
  - injection E as <-. exists a. split; [reflexivity|exact H].
  - exact (IH k E).
Qed.

Lemma action_seen : forall h acts orig regs vals k a, core h acts orig regs vals ->
  match a with Some x => at_set [] orig k x | None => k = None end -> same_action (seen_action h k a) a.
Proof.
  intros h acts orig regs vals k a K H. destruct a as [[|p]|]; cbn [at_set] in H.
  - subst k. reflexivity.
  - destruct H as (j & -> & Ej). destruct (Forall2_nth_error _ _ _ _ _ (co_sets _ _ _ _ _ K) Ej) as (l & El & P & Q).
    cbn. exists l. rewrite (nth_error_nth _ _ [] El). split; [reflexivity|]. split; assumption.
  - subst k. reflexivity.
Qed.

Lemma core_view : forall h acts orig regs vals i b v, core h acts orig regs vals ->
  nth i regs None = Some b -> nth i vals None = Some v -> same_insert (ins_view h b) v.
Proof.
  intros h acts orig regs vals i b v K Eb Ev.
  pose proof (Forall2_nth (irel h orig) I _ _ i (co_rel _ _ _ _ _ K)) as R. rewrite Eb, Ev in R. destruct R as (R1 & R2 & R3).
  unfold same_insert, ins_view. rewrite R1, R2. cbn [ins_with_conflict i_conflict_action i_conflict_target].
  split; [reflexivity|]. eapply action_seen; [exact K|exact R3].
Qed.

Lemma core_none : forall h acts orig regs vals i, core h acts orig regs vals ->
  nth i regs None = None <-> nth i vals None = None.
Proof.
  intros h acts orig regs vals i K.
  pose proof (Forall2_nth (irel h orig) I _ _ i (co_rel _ _ _ _ _ K)) as R.
  destruct (nth i regs None), (nth i vals None); cbn in R; try contradiction R; split; intro; congruence.
Qed.

Lemma nth_snoc_cases {A} : forall (l : list A) x d t,
  nth t (l ++ [x]) d = nth t l d \/ (t = length l /\ nth t (l ++ [x]) d = x).
Proof.
  intros l x d t. destruct (lt_eq_lt_dec t (length l)) as [[Lt| ->]|Lt].
  - left. apply app_nth1. exact Lt.
  - right. split; [reflexivity|]. rewrite app_nth2 by lia. rewrite Nat.sub_diag. reflexivity.
  - left. rewrite !nth_overflow by (rewrite ?app_length; cbn; lia). reflexivity.
Qed.

(* One more register. *)
Lemma core_more : forall h h' acts orig more regs vals b v, core h acts orig regs vals ->
  (forall r, view (ih_targets h') (slice_of (nth r regs None)) = view (ih_targets h) (slice_of (nth r regs None))
             /\ valid (ih_targets h') (slice_of (nth r regs None))) ->
  Forall2 (fun l p => Permutation l (p_cols p) /\ (p_mode p <> PAssoc -> l = p_cols p)) (ih_sets h') (orig ++ more) ->
  irel h' (orig ++ more) b v -> valid (ih_targets h') (slice_of b) ->
  core h' acts (orig ++ more) (regs ++ [b]) (vals ++ [v]).
Proof.
  intros h h' acts orig more regs vals b v K Vw Se R Vb. split.
  - apply Forall2_snoc; [|exact R].
    assert (G : forall i, irel h' (orig ++ more) (nth i regs None) (nth i vals None)).
    { intro i. pose proof (Forall2_nth (irel h orig) I _ _ i (co_rel _ _ _ _ _ K)) as N. specialize (Vw i).
      destruct (nth i regs None) as [b0|], (nth i vals None) as [v0|]; try exact N.
      destruct N as (N1 & N2 & N3). cbn [slice_of] in Vw. split; [exact N1|]. split; [rewrite (proj1 Vw); exact N2|].
      destruct (i_conflict_action v0) as [[|p]|]; try exact N3. cbn [at_set] in *. destruct N3 as (j & E1 & E2).
      exists j. split; [exact E1|]. rewrite nth_error_app1; [exact E2|]. apply nth_error_Some. congruence. }
    pose proof (Forall2_len _ _ _ (co_rel _ _ _ _ _ K)) as L. clear -G L. revert vals L G.
    induction regs as [|a regs IH]; intros [|c vals] L G; cbn in L; try discriminate L; constructor.
    + exact (G 0).
    + apply IH; [congruence|]. intro i. exact (G (S i)).
  - exact Se.
  - destruct (co_acts _ _ _ _ _ K) as (m & ->). exists (m ++ more). symmetry. apply app_assoc.
  - intro r. destruct (nth_snoc_cases regs b None r) as [-> | [_ ->]]; [apply Vw|exact Vb].
Qed.

Lemma core_same : forall h acts orig regs vals b v, core h acts orig regs vals ->
  irel h orig b v -> valid (ih_targets h) (slice_of b) -> core h acts orig (regs ++ [b]) (vals ++ [v]).
Proof.
  intros h acts orig regs vals b v K R V. pose proof (core_more h h acts orig [] regs vals b v K) as M.
  rewrite app_nil_r in M. apply M; [|exact (co_sets _ _ _ _ _ K)|exact R|exact V].
  intro r. split; [reflexivity|apply (co_valid _ _ _ _ _ K)].
Qed.

Lemma conflict_empty_seen : forall a a', same_action a a' -> conflict_empty a = conflict_empty a'.
Proof.
  intros a [[|p]|]; cbn; try (intros ->; reflexivity). intros (l & -> & _). reflexivity.
Qed.

Lemma ins_step_other {O : Oracle} : forall c i t a, match c with InsOnConflict _ => False | _ => True end ->
  ins_step (ins_with_conflict i t a) c = map_ok (fun i' => ins_with_conflict i' t a) (ins_step i c)
  /\ match ins_step i c with
     | Ok i' => i_conflict_target i' = i_conflict_target i /\ i_conflict_action i' = i_conflict_action i
     | Panic _ => True
     end.
Proof.
  intros c i t a N. destruct c as [v|args|args|args|c|args|args]; try contradiction N; cbn [ins_step ins_with_conflict i_into i_columns i_values i_returning].
  - destruct (no_str _); [|split; [reflexivity|exact I]]. destruct (to_into v); cbn; split; try reflexivity; split; reflexivity.
  - destruct args; [split; [reflexivity|split; reflexivity]|]. cbn [ins_step i_columns]. destruct (nonempty (i_columns i)); [split; [reflexivity|exact I]|].
    destruct (to_columns _); cbn; split; try reflexivity; split; reflexivity.
  - destruct (cond_empty _) as [[|]|]; cbn [bind]; try (split; [reflexivity|exact I]).
    destruct (new_array_list _); cbn; split; try reflexivity; split; reflexivity.
  - destruct (nonempty _); [split; [reflexivity|exact I]|]. destruct (to_selexprs _); cbn; split; try reflexivity; split; reflexivity.
  - cbn; split; try reflexivity; split; reflexivity.
  - destruct (nonempty _); [split; [reflexivity|exact I]|]. destruct (cond_empty _) as [[|]|]; cbn [bind]; try (split; [reflexivity|exact I]).
    destruct (to_set args) as [p|]; cbn [bind]; [|split; [reflexivity|exact I]].
    destruct (pairs_values p) as [ce|]; cbn [bind]; [|split; [reflexivity|exact I]].
    destruct (new_array_list _); cbn; split; try reflexivity; split; reflexivity.
Qed.

Section Run.
  Context {O : Oracle} (g : growth) (acts : list pairs).

  Lemma core_new : forall h orig regs vals a, core h acts orig regs vals ->
    core h acts orig (regs ++ [ok (snd (ins_new h a))]) (vals ++ [ok (lk_insert a)]).
  Proof.
    intros h orig regs vals a K. unfold ins_new. cbn [snd]. destruct (lk_insert a) as [i|e] eqn:E; cbn [map_ok ok].
    - apply core_same; [exact K| |left; split; reflexivity]. unfold lk_insert in E. cbn in E.
      destruct (to_into a) as [t|]; cbn in E; [|discriminate E]. injection E as <-. cbn. repeat split.
    - apply core_same; [exact K|exact I|left; split; reflexivity].
  Qed.

  (* OnConflict, when extending the slice of the receiver leaves those of the others. *)
  Lemma core_conflict : forall h orig regs vals i b v args, core h acts orig regs vals ->
    nth i regs None = Some b -> nth i vals None = Some v ->
    (forall r, conflict_empty (i_conflict_action v) = true -> apart (slice_of (nth r regs None)) (ir_target b)) ->
    let r := ref_on_conflict g acts h b args in
    exists more, core (fst r) acts (orig ++ more) (regs ++ [ok (snd r)]) (vals ++ [ok (ins_step v (InsOnConflict (map (arg_value acts) args)))])
      /\ (ok (snd r) = None \/ moved_on (length (ih_targets h)) (ir_target b) (slice_of (ok (snd r)))).
  Proof.
    intros h orig regs vals i b v args K Eb Ev Ap. cbv zeta.
    pose proof (core_view h acts orig regs vals i b v K Eb Ev) as [_ Sa].
    pose proof (Forall2_nth (irel h orig) I _ _ i (co_rel _ _ _ _ _ K)) as R. rewrite Eb, Ev in R. destruct R as (R1 & R2 & R3).
    assert (D : core h acts orig (regs ++ [None]) (vals ++ [None])) by (apply core_same; [exact K|exact I|left; split; reflexivity]).
    unfold ref_on_conflict. cbn [ins_step]. rewrite (conflict_empty_seen _ _ Sa).
    destruct (conflict_empty (i_conflict_action v)); [|exists []; rewrite app_nil_r; split; [exact D|left; reflexivity]].
    destruct args as [|a args]; [exists []; rewrite app_nil_r; split; [exact D|left; reflexivity]|].
    cbn [map]. change (arg_value acts a :: map (arg_value acts) args) with (map (arg_value acts) (a :: args)).
    generalize (a :: args). clear a args. intro args.
    pose proof (co_valid _ _ _ _ _ K i) as Vb. rewrite Eb in Vb. cbn [slice_of] in Vb.
    destruct (ref_conflict_spec g acts args h (ir_target b) Vb) as (S1 & S2 & S3). cbv zeta in *. rewrite R2 in S1.
    assert (Vw : forall r, view (ih_targets (fst (ref_conflict g acts h (ir_target b) args))) (slice_of (nth r regs None))
                           = view (ih_targets h) (slice_of (nth r regs None))
             /\ valid (ih_targets (fst (ref_conflict g acts h (ir_target b) args))) (slice_of (nth r regs None))).
    { intro r. apply S2; [apply (co_valid _ _ _ _ _ K)|apply Ap; reflexivity]. }
    destruct (ref_conflict g acts h (ir_target b) args) as [h' [[[s' a] k]|e]]; cbn [fst snd map_ok ok] in *;
      destruct (on_conflict_loop (map (arg_value acts) args) (i_conflict_target v)) as [[t a']|e']; try contradiction S1; cbn [bind ok].
    - destruct S1 as (<- & J2 & J3 & J4 & J5).
      assert (Rs : forall more, at_set [] (orig ++ more) k a -> irel h' (orig ++ more)
        (Some {| ir_rest := ins_with_conflict (ir_rest b) [] (Some a); ir_target := s'; ir_set := k |})
        (Some (ins_with_conflict v t (Some a)))).
      { intros more At. cbn [irel ir_rest ir_target ir_set ins_with_conflict i_conflict_action i_conflict_target].
        split; [rewrite R1; reflexivity|]. split; [exact J2|exact At]. }
      destruct J5 as [[Es At] | (p & -> & -> & Es)].
      + exists []. split; [|right; exact J4]. eapply core_more; [exact K|exact Vw| |apply Rs|exact J3].
        * rewrite app_nil_r, Es. exact (co_sets _ _ _ _ _ K).
        * destruct a as [|p]; cbn [at_set] in *; [exact At|]. destruct At as (j & -> & Ej). exists j. split; [reflexivity|].
          destruct (co_acts _ _ _ _ _ K) as (m & ->). rewrite app_nil_r, nth_error_app1; [exact Ej|]. apply nth_error_Some. congruence.
      + exists [p]. split; [|right; exact J4]. eapply core_more; [exact K|exact Vw| |apply Rs|exact J3].
        * rewrite Es. apply Forall2_app; [exact (co_sets _ _ _ _ _ K)|]. constructor; [|constructor]. split; [apply Permutation_refl|reflexivity].
        * exists (length (ih_sets h)). split; [reflexivity|]. rewrite (Forall2_len _ _ _ (co_sets _ _ _ _ _ K)).
          rewrite nth_error_app2 by lia. rewrite Nat.sub_diag. reflexivity.
    - exists []. split; [|left; reflexivity]. eapply core_more; [exact K|exact Vw| |exact I|left; split; reflexivity].
      rewrite app_nil_r, S1. exact (co_sets _ _ _ _ _ K).
  Qed.

  Lemma core_other : forall h orig regs vals i b v c, core h acts orig regs vals ->
    nth i regs None = Some b -> nth i vals None = Some v -> match c with InsOnConflict _ => False | _ => True end ->
    core h acts orig (regs ++ [ok (map_ok (fun i => {| ir_rest := i; ir_target := ir_target b; ir_set := ir_set b |}) (ins_step (ir_rest b) c))])
      (vals ++ [ok (ins_step v c)]).
  Proof.
    intros h orig regs vals i b v c K Eb Ev N.
    pose proof (Forall2_nth (irel h orig) I _ _ i (co_rel _ _ _ _ _ K)) as R. rewrite Eb, Ev in R. destruct R as (R1 & R2 & R3).
    destruct (ins_step_other c v [] (i_conflict_action v) N) as [S1 S2]. rewrite R1, S1.
    destruct (ins_step v c) as [v'|e]; cbn [map_ok ok]; apply core_same; try exact K.
    - destruct S2 as [S2 S3]. cbn [irel ir_rest ir_target ir_set]. rewrite S2, S3. split; [reflexivity|]. split; [exact R2|exact R3].
    - pose proof (co_valid _ _ _ _ _ K i) as Vb. rewrite Eb in Vb. exact Vb.
    - exact I.
    - left. split; reflexivity.
  Qed.

  Lemma core_show : forall h orig regs vals b, (forall l, Permutation l (o_sort l)) -> core h acts orig regs vals ->
    (exists i v, nth i regs None = Some b /\ nth i vals None = Some v) ->
    core (fst (ins_show h b)) acts orig regs vals.
  Proof.
    intros h orig regs vals b P K (i & v & Eb & Ev).
    pose proof (Forall2_nth (irel h orig) I _ _ i (co_rel _ _ _ _ _ K)) as R. rewrite Eb, Ev in R. destruct R as (R1 & R2 & R3).
    unfold ins_show. cbn [fst]. rewrite R1. cbn [ins_with_conflict i_conflict_action].
    destruct (i_conflict_action v) as [[|p]|]; [rewrite R3; exact K| |rewrite R3; exact K].
    cbn [at_set] in R3. destruct R3 as (k & -> & Ek). destruct (p_mode p) eqn:M; try exact K.
    destruct K as [K1 K2 K3 K4]. split; [|clear K1|exact K3|exact K4].
    - clear -K1. induction K1 as [|a c l l' H F IH]; constructor; [|exact IH].
      destruct a as [a|], c as [c|]; exact H.
    - cbn [ih_sets]. clear K3 K4 Eb Ev R1 R2. revert k Ek. induction K2 as [|l q ls qs H F IH]; intros k Ek; [destruct k; discriminate Ek|].
      destruct k as [|k]; cbn [store nth]; cbn in Ek.
      + injection Ek as ->. constructor; [|exact F]. split; [|intro X; contradiction].
        rewrite <- P. apply H.
      + constructor; [exact H|]. apply IH. exact Ek.
  Qed.

  (* A step, whatever the call. *)
  Definition is_conflict (c : icall) : bool := match c with IConflict _ | IOther (InsOnConflict _) => true | _ => false end.

  Lemma core_step : forall h orig regs vals i b v c, core h acts orig regs vals ->
    nth i regs None = Some b -> nth i vals None = Some v ->
    (is_conflict c = true -> conflict_empty (i_conflict_action v) = true -> forall r, apart (slice_of (nth r regs None)) (ir_target b)) ->
    exists more, core (fst (ins_do g acts h b c)) acts (orig ++ more) (regs ++ [ok (snd (ins_do g acts h b c))])
                   (vals ++ [ok (ins_step v (call_value acts c))])
      /\ (ok (snd (ins_do g acts h b c)) = None
          \/ moved_on (length (ih_targets h)) (ir_target b) (slice_of (ok (snd (ins_do g acts h b c))))).
  Proof.
    intros h orig regs vals i b v c K Eb Ev Ap.
    assert (Other : forall d, match d with InsOnConflict _ => False | _ => True end -> c = IOther d ->
      exists more, core (fst (ins_do g acts h b c)) acts (orig ++ more) (regs ++ [ok (snd (ins_do g acts h b c))])
                   (vals ++ [ok (ins_step v (call_value acts c))])
      /\ (ok (snd (ins_do g acts h b c)) = None
          \/ moved_on (length (ih_targets h)) (ir_target b) (slice_of (ok (snd (ins_do g acts h b c)))))).
    { intros d N ->. exists []. rewrite app_nil_r.
      assert (E : ins_do g acts h b (IOther d)
        = (h, map_ok (fun i => {| ir_rest := i; ir_target := ir_target b; ir_set := ir_set b |}) (ins_step (ir_rest b) d))).
      { destruct d; try contradiction N; reflexivity. }
      rewrite E. cbn [fst snd call_value]. split; [eapply core_other; eassumption|].
      destruct (ins_step (ir_rest b) d); cbn; [right; left; reflexivity|left; reflexivity]. }
    destruct c as [args|d].
    - cbn [ins_do call_value]. eapply core_conflict; try eassumption. intros r Ce. apply Ap; [reflexivity|exact Ce].
    - destruct d as [x|x|x|x|x|args|x]; try (eapply Other; [|reflexivity]; exact I).
      cbn [ins_do call_value].
      pose proof (core_conflict h orig regs vals i b v (map Plain args) K Eb Ev) as Cc. cbv zeta in Cc.
      rewrite (map_map Plain (arg_value acts)) in Cc. cbn [arg_value] in Cc. rewrite map_id in Cc.
      apply Cc. intros r Ce. apply Ap; [reflexivity|exact Ce].
  Qed.

  (* ----------------------------------------------------------------------- *)
  (* Actions that assign something                                             *)
  (* ----------------------------------------------------------------------- *)

  Definition assigns (v : gval) : Prop := match v with GConflictUpdate p => pairs_empty p = false | _ => True end.
  Definition assigning_call (c : icall) : Prop :=
    match call_value acts c with InsOnConflict args => Forall assigns args | _ => True end.
  Definition assigning (p : list ins_cmd) : Prop := forall i c, In (Call i c) p -> assigning_call c.

  Definition unextended (regs : list (option ins_ref)) (vals : list (option insert)) : Prop :=
    forall i b v, nth i regs None = Some b -> nth i vals None = Some v ->
      conflict_empty (i_conflict_action v) = true -> sl_cap (ir_target b) = 0.

  Lemma loop_assigns : forall args t t' a, Forall assigns args -> on_conflict_loop args t = Ok (t', a) -> action_empty a = false.
  Proof.
    induction args as [|v args IH]; intros t t' a F E; [discriminate E|]. inversion F as [|? ? Fv Fr]; subst.
    destruct v; try discriminate E; cbn [on_conflict_loop] in E.
    1, 2: match type of E with context [to_column ?x] => destruct (to_column x) end; [|discriminate E]; cbn [bind] in E; eapply IH; eassumption.
    - injection E as <- <-. reflexivity.
    - destruct (nonempty t); [|discriminate E]. injection E as <- <-. exact Fv.
  Qed.

  Lemma unextended_more : forall regs vals b v, List.length regs = List.length vals -> unextended regs vals ->
    (forall b' v', b = Some b' -> v = Some v' -> conflict_empty (i_conflict_action v') = true -> sl_cap (ir_target b') = 0) ->
    unextended (regs ++ [b]) (vals ++ [v]).
  Proof.
    intros regs vals b v L U N i b' v' Eb Ev Ce.
    destruct (lt_eq_lt_dec i (List.length regs)) as [[Lt| ->]|Lt].
    - rewrite app_nth1 in Eb by exact Lt. rewrite app_nth1 in Ev by lia. eapply U; eassumption.
    - rewrite app_nth2, Nat.sub_diag in Eb by lia. rewrite L, app_nth2, Nat.sub_diag in Ev by lia. apply (N b' v'); assumption.
    - rewrite nth_overflow in Eb by (rewrite app_length; cbn; lia). discriminate Eb.
  Qed.

  Lemma free_run : (forall l, Permutation l (o_sort l)) -> forall p h orig regs vals, assigning p -> core h acts orig regs vals -> unextended regs vals ->
    Forall2 same_inserted (memory_run ins_new (ins_do g acts) ins_show h regs p)
                          (value_run lk_insert (fun i c => ins_step i (call_value acts c)) vals p).
  Proof.
    intro Pm. induction p as [|x p IH]; intros h orig regs vals As K U; [constructor|].
    assert (As' : assigning p) by (intros i c Hi; apply (As i c); right; exact Hi).
    pose proof (Forall2_len _ _ _ (co_rel _ _ _ _ _ K)) as L.
    destruct x as [a|i c|i].
    - cbn [memory_run value_run]. cbv zeta. eapply IH; [exact As'|apply core_new; exact K|].
      apply unextended_more; [exact L|exact U|]. intros b v Eb _ _. unfold ins_new in Eb. cbn [snd] in Eb.
      destruct (lk_insert a); cbn in Eb; [|discriminate Eb]. injection Eb as <-. reflexivity.
    - cbn [memory_run value_run]. pose proof (core_none h acts orig regs vals i K) as Nn.
      destruct (nth i regs None) as [b|] eqn:Eb.
      2:{ rewrite (proj1 Nn eq_refl). eapply IH; [exact As'| |].
          - apply core_same; [exact K|exact I|left; split; reflexivity].
          - apply unextended_more; [exact L|exact U|]. intros b v E. discriminate E. }
      destruct (nth i vals None) as [v|] eqn:Ev; [|discriminate (proj2 Nn eq_refl)]. cbv zeta.
      destruct (core_step h orig regs vals i b v c K Eb Ev) as (more & K' & Mv).
      { intros _ Ce r. right. left. apply (U i b v); assumption. }
      eapply IH; [exact As'|exact K'|]. apply unextended_more; [exact L|exact U|].
      intros b' v' Eb' Ev' Ce. specialize (As i c (or_introl eq_refl)). unfold assigning_call in As.
      destruct (call_value acts c) as [x|x|x|x|x|args|x] eqn:Ec.
      6:{ exfalso. cbn [ins_step] in Ev'. destruct (conflict_empty (i_conflict_action v)); [|discriminate Ev'].
          destruct args as [|a args]; [discriminate Ev'|].
          destruct (on_conflict_loop (a :: args) (i_conflict_target v)) as [[t act]|] eqn:El; cbn [bind ok] in Ev'; [|discriminate Ev'].
          injection Ev' as <-. cbn [ins_with_conflict i_conflict_action conflict_empty] in Ce.
          rewrite (loop_assigns _ _ _ _ As El) in Ce. discriminate Ce. }
      all: assert (Oc : match call_value acts c with InsOnConflict _ => False | _ => True end) by (rewrite Ec; exact I);
        rewrite <- Ec in Ev'; destruct (ins_step_other (call_value acts c) v [] None Oc) as [_ S2];
        destruct (ins_step v (call_value acts c)) as [v2|]; [|discriminate Ev']; injection Ev' as <-; destruct S2 as [_ S3];
        rewrite S3 in Ce;
        destruct c as [args'|d]; [discriminate Ec|]; cbn in Ec; subst d; cbn [ins_do snd] in Eb';
        destruct (ins_step (ir_rest b) _); [|discriminate Eb']; injection Eb' as <-; cbn [ir_target]; apply (U i b v); assumption.
    - cbn [memory_run value_run]. pose proof (core_none h acts orig regs vals i K) as Nn.
      destruct (nth i regs None) as [b|] eqn:Eb.
      2:{ rewrite (proj1 Nn eq_refl). constructor; [exact I|]. eapply IH; eassumption. }
      destruct (nth i vals None) as [v|] eqn:Ev; [|discriminate (proj2 Nn eq_refl)]. cbv zeta.
      constructor.
      + cbn [ins_show snd same_inserted]. eapply core_view; eassumption.
      + eapply IH; [exact As'| |exact U]. apply core_show; [exact Pm|exact K|]. exists i, v. split; assumption.
  Qed.

  (* ----------------------------------------------------------------------- *)
  (* Programs that use a builder at most once                                  *)
  (* ----------------------------------------------------------------------- *)

  Definition front (done : list nat) (regs : list (option ins_ref)) : Prop :=
    forall i r, ~ In i done -> i <> r ->
      let s := slice_of (nth i regs None) in let t := slice_of (nth r regs None) in
      sl_cap s > 0 -> sl_cap t > 0 -> sl_ptr t = sl_ptr s -> sl_len t <= sl_len s /\ In r done.

  Lemma front_flat : forall done regs b, front done regs -> sl_cap (slice_of b) = 0 -> front done (regs ++ [b]).
  Proof.
    intros done regs b F Z i r Ni Ne. cbv zeta.
    destruct (nth_snoc_cases regs b None i) as [-> | [_ ->]]; [|intros; lia].
    destruct (nth_snoc_cases regs b None r) as [-> | [_ ->]]; [|intros; lia]. apply F; assumption.
  Qed.

  Lemma front_moved : forall done regs i b n b', front done regs -> ~ In i done -> nth i regs None = Some b ->
    (forall r, sl_cap (slice_of (nth r regs None)) > 0 -> sl_ptr (slice_of (nth r regs None)) < n) ->
    moved_on n (ir_target b) (slice_of b') -> front (i :: done) (regs ++ [b']).
  Proof.
    intros done regs i b n b' F Ni Eb Old Mv j r Nj Ne. cbv zeta.
    assert (Di : forall j, ~ In j (i :: done) -> ~ In j done /\ j <> i).
    { intros j0 N0. split; [intro; apply N0; right; assumption|intros ->; apply N0; left; reflexivity]. }
    destruct (nth_snoc_cases regs b' None j) as [-> | [-> ->]].
    - destruct (nth_snoc_cases regs b' None r) as [-> | [-> ->]].
      + intros C1 C2 P. destruct (Di j Nj) as [N1 N2]. destruct (F j r N1 Ne C1 C2 P) as [F1 F2]. split; [exact F1|right; exact F2].
      + intros C1 C2 P. destruct (Di j Nj) as [N1 N2]. exfalso. pose proof (Old j C1) as Oj.
        destruct Mv as [Mv|[(M1 & M2 & M3 & M4)|Mv]].
        * rewrite Mv in *. pose proof (F j i N1 N2) as Fj. cbv zeta in Fj. rewrite Eb in Fj. cbn [slice_of] in Fj.
          destruct (Fj C1 C2 P) as [_ Z]. exact (Ni Z).
        * pose proof (F j i N1 N2) as Fj. cbv zeta in Fj. rewrite Eb in Fj. cbn [slice_of] in Fj.
          destruct (Fj C1 M3) as [_ Z]; [congruence|]. exact (Ni Z).
        * lia.
    - destruct (nth_snoc_cases regs b' None r) as [-> | [-> _]]; [|congruence].
      intros C1 C2 P. pose proof (Old r C2) as Or.
      destruct (Nat.eq_dec r i) as [-> | Nr].
      + rewrite Eb in *. cbn [slice_of] in *. split; [|left; reflexivity].
        destruct Mv as [Mv|[(M1 & M2 & M3 & M4)|Mv]]; [rewrite Mv; lia|lia|lia].
      + assert (Nr' : i <> r) by congruence. pose proof (F i r Ni Nr') as Fi. cbv zeta in Fi. rewrite Eb in Fi. cbn [slice_of] in Fi.
        destruct Mv as [Mv|[(M1 & M2 & M3 & M4)|Mv]].
        * rewrite Mv in *. destruct (Fi C1 C2 P) as [F1 F2]. split; [exact F1|right; exact F2].
        * destruct (Fi M3 C2) as [F1 F2]; [congruence|]. split; [lia|right; exact F2].
        * lia.
  Qed.

  Lemma linear_run : (forall l, Permutation l (o_sort l)) -> forall p h orig regs vals done, NoDup (receivers p) ->
    (forall i, In i (receivers p) -> ~ In i done) -> core h acts orig regs vals -> front done regs ->
    Forall2 same_inserted (memory_run ins_new (ins_do g acts) ins_show h regs p)
                          (value_run lk_insert (fun i c => ins_step i (call_value acts c)) vals p).
  Proof.
    intro Pm. induction p as [|x p IH]; intros h orig regs vals done Nd Di K F; [constructor|].
    destruct x as [a|i c|i].
    - cbn [memory_run value_run receivers] in *. cbv zeta. eapply IH; [exact Nd|exact Di|apply core_new; exact K|].
      apply front_flat; [exact F|]. unfold ins_new. cbn [snd]. destruct (lk_insert a); reflexivity.
    - cbn [memory_run value_run receivers] in *. inversion Nd as [|? ? Ni Nd']; subst.
      assert (Di' : forall j, In j (receivers p) -> ~ In j (i :: done)).
      { intros j Hj [-> |Z]; [exact (Ni Hj)|]. exact (Di j (or_intror Hj) Z). }
      pose proof (core_none h acts orig regs vals i K) as Nn.
      assert (Fm : front (i :: done) (regs ++ [None])).
      { apply front_flat; [|reflexivity]. intros j r Nj Ne. cbv zeta. intros C1 C2 P.
        destruct (F j r (fun z => Nj (or_intror z)) Ne C1 C2 P) as [F1 F2]. split; [exact F1|right; exact F2]. }
      destruct (nth i regs None) as [b|] eqn:Eb.
      2:{ rewrite (proj1 Nn eq_refl). eapply IH; [exact Nd'|exact Di'| |exact Fm].
          apply core_same; [exact K|exact I|left; split; reflexivity]. }
      destruct (nth i vals None) as [v|] eqn:Ev; [|discriminate (proj2 Nn eq_refl)]. cbv zeta.
      assert (Li : ~ In i done) by (apply Di; left; reflexivity).
      destruct (core_step h orig regs vals i b v c K Eb Ev) as (more & K' & Mv).
      { intros _ _ r. unfold apart. destruct (Nat.eq_dec r i) as [-> |Nr]; [rewrite Eb; right; right; right; cbn; lia|].
        destruct (Nat.eq_dec (sl_cap (slice_of (nth r regs None))) 0) as [Z|Z]; [left; exact Z|].
        destruct (Nat.eq_dec (sl_cap (ir_target b)) 0) as [Z'|Z']; [right; left; exact Z'|].
        destruct (Nat.eq_dec (sl_ptr (slice_of (nth r regs None))) (sl_ptr (ir_target b))) as [E|E]; [|right; right; left; exact E].
        right. right. right. assert (Nr' : i <> r) by congruence. pose proof (F i r Li Nr') as Fi. cbv zeta in Fi. rewrite Eb in Fi. cbn [slice_of] in Fi.
        apply Fi; [lia|lia|exact E]. }
      eapply IH; [exact Nd'|exact Di'|exact K'|].
      destruct Mv as [-> |Mv]; [exact Fm|]. eapply front_moved; [exact F|exact Li|exact Eb| |exact Mv].
      intros r C. destruct (co_valid _ _ _ _ _ K r) as [[Z _] | (P & _)]; [lia|exact P].
    - cbn [memory_run value_run receivers] in *. pose proof (core_none h acts orig regs vals i K) as Nn.
      destruct (nth i regs None) as [b|] eqn:Eb.
      2:{ rewrite (proj1 Nn eq_refl). constructor; [exact I|]. eapply IH; eassumption. }
      destruct (nth i vals None) as [v|] eqn:Ev; [|discriminate (proj2 Nn eq_refl)]. cbv zeta.
      constructor.
      + cbn [ins_show snd same_inserted]. eapply core_view; eassumption.
      + eapply IH; [exact Nd|exact Di| |exact F]. apply core_show; [exact Pm|exact K|]. exists i, v. split; assumption.
  Qed.

  Lemma core_start : core {| ih_targets := []; ih_sets := map p_cols acts |} acts acts [] [].
  Proof.
    split.
    - constructor.
    - cbn [ih_sets]. induction acts as [|p l IH]; constructor; [split; [apply Permutation_refl|reflexivity]|exact IH].
    - exists []. symmetry. apply app_nil_r.
    - intro r. destruct r; left; split; reflexivity.
  Qed.

  Lemma insert_free : forall p, (forall l, Permutation l (o_sort l)) -> assigning p ->
    Forall2 same_inserted (ins_memory g acts p) (ins_values acts p).
  Proof.
    intros p Pm As. unfold ins_memory, ins_values. eapply free_run; [exact Pm|exact As|exact core_start|].
    intros i b v Eb. destruct i; discriminate Eb.
  Qed.

  Lemma insert_linear : forall p, (forall l, Permutation l (o_sort l)) -> NoDup (receivers p) ->
    Forall2 same_inserted (ins_memory g acts p) (ins_values acts p).
  Proof.
    intros p Pm Nd. unfold ins_memory, ins_values. apply (linear_run Pm p _ acts [] [] []); [exact Nd|intros i _ []|exact core_start|].
    intros i r _ _. cbv zeta. intro C. destruct i; cbn in C; lia.
  Qed.
End Run.
