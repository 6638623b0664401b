(* Programs with several Update builders. *)
From Coq Require Import String List Arith ZArith Lia Permutation.
From Verif Require Import Ast Write Api Parser Build Sort Mem Forks MemP ForksP.
Import ListNotations.
Local Open Scope list_scope.
Local Open Scope nat_scope.

(* ------------------------------------------------------------------------- *)
(* Slices over distinct arrays                                                 *)
(* ------------------------------------------------------------------------- *)

Definition apart_sl (s t : slice) : Prop := sl_cap s = 0 \/ sl_cap t = 0 \/ sl_ptr s <> sl_ptr t.

Lemma apart_sl_sym : forall s t, apart_sl s t -> apart_sl t s.
Proof. intros s t [H|[H|H]]; [right; left; exact H|left; exact H|right; right; congruence]. Qed.

Lemma append_frame {A} (zero : A) grow : forall h s xs t, valid h s -> valid h t -> apart_sl s t ->
  let r := append zero grow h s xs in
  view (fst r) t = view h t /\ valid (fst r) t /\ apart_sl (snd r) t.
Proof.
  intros h s xs t Vs Vt D r. subst r. split; [|split].
  - unfold apart_sl in D. destruct D as [D|[D|D]].
    + unfold append. destruct Vs as [[C L] | (P & Ln & L)].
      * rewrite C, L. destruct xs as [|x xs].
        -- cbn [length Nat.add Nat.leb fst]. cbn [firstn app skipn]. rewrite store_same. reflexivity.
        -- cbn [length Nat.add Nat.leb fst]. destruct Vt as [[Ct Lt] | (P & Ln & Lt)]; [unfold view; rewrite Lt; reflexivity|].
           unfold view at 1. rewrite app_nth1 by exact P. reflexivity.
      * rewrite D in *. assert (sl_len s = 0) as L0 by lia. rewrite L0. destruct xs as [|x xs].
        -- cbn [length Nat.add Nat.leb fst]. cbn [firstn app skipn]. rewrite store_same. reflexivity.
        -- cbn [length Nat.add Nat.leb fst]. destruct Vt as [[Ct Lt] | (P' & Ln' & Lt)]; [unfold view; rewrite Lt; reflexivity|].
           unfold view at 1. rewrite app_nth1 by exact P'. reflexivity.
    + apply append_others; [exact Vs|exact Vt|]. left. exact D.
    + apply append_others; [exact Vs|exact Vt|]. right. left. congruence.
  - apply append_valid; assumption.
  - unfold append. destruct (sl_len s + length xs <=? sl_cap s); cbn [snd]; unfold apart_sl in *; cbn [sl_cap sl_ptr].
    + exact D.
    + destruct Vt as [[C L] | (P & _)]; [right; left; exact C|]. right. right. lia.
Qed.

Lemma make_frame {A} : forall (h : list (list A)) xs t, valid h t ->
  view (fst (make_slice h xs)) t = view h t /\ valid (fst (make_slice h xs)) t /\ apart_sl (snd (make_slice h xs)) t.
Proof.
  intros h xs t V. destruct (make_others h xs t V) as [W V']. split; [exact W|]. split; [exact V'|].
  unfold make_slice, apart_sl. cbn [snd sl_cap sl_ptr]. destruct V as [[C L] | (P & _)]; [right; left; exact C|]. right. right. lia.
Qed.

(* ------------------------------------------------------------------------- *)
(* Pairs                                                                       *)
(* ------------------------------------------------------------------------- *)

Record owned (h : upd_heap) (p : pairs_ref) : Prop := {
  ow_map : pr_map p < length (uh_maps h);
  ow_cols : valid (uh_cols h) (pr_cols p);
  ow_exprs : valid (uh_exprs h) (pr_exprs p) }.

Record apart (p q : pairs_ref) : Prop := {
  ap_map : pr_map p <> pr_map q;
  ap_cols : apart_sl (pr_cols p) (pr_cols q);
  ap_exprs : apart_sl (pr_exprs p) (pr_exprs q) }.

(* The same pairs, up to the order of the columns in the key-value syntax. *)
Record same_pairs (p q : pairs) : Prop := {
  sp_mode : p_mode p = p_mode q;
  sp_map : p_map p = p_map q;
  sp_exprs : p_exprs p = p_exprs q;
  sp_perm : Permutation (p_cols p) (p_cols q);
  sp_cols : p_mode q <> PAssoc -> p_cols p = p_cols q }.

Lemma same_pairs_refl : forall p, same_pairs p p.
Proof. intro p. split; reflexivity. Qed.

(* The memory behind pairs that are apart from [p] is not touched. *)
Definition frame (h : upd_heap) (p : pairs_ref) (h' : upd_heap) : Prop :=
  uh_withs h' = uh_withs h /\
  forall q, owned h q -> apart p q -> pairs_view h' q = pairs_view h q /\ owned h' q.

Definition simulates (h : upd_heap) (p : pairs_ref) (hr : upd_heap * res pairs_ref) (r : res pairs) : Prop :=
  frame h p (fst hr)
  /\ match snd hr, r with
     | Ok p', Ok u' => owned (fst hr) p' /\ same_pairs (pairs_view (fst hr) p') u'
                       /\ forall q, owned h q -> apart p q -> apart p' q
     | Panic e, Panic e' => e = e'
     | _, _ => False
     end.

Lemma frame_refl : forall h p, frame h p h.
Proof. intros h p. split; [reflexivity|]. intros q O _. split; [reflexivity|exact O]. Qed.

Section Steps.
  Context (g : growth).

  Lemma add_simulates : forall h p u c e, owned h p -> same_pairs (pairs_view h p) u ->
    simulates h p (ref_add g h p c e) (pairs_add u c e).
  Proof.
    intros h p u c e [Om Oc Oe] [Sm Sp Sx Sc Sd]. unfold ref_add, pairs_add.
    cbn [pairs_view p_mode p_map p_exprs p_cols] in *. rewrite <- Sm, <- Sp.
    assert (Bad : simulates h p (h, Panic mix_panic) (Panic mix_panic)).
    { split; [apply frame_refl|reflexivity]. }
    assert (Good : forall a, a = match pm_get c (nth (pr_map p) (uh_maps h) []) with
                             | Some _ => (uh_cols h, pr_cols p)
                             | None => append zero_column (g_cols g) (uh_cols h) (pr_cols p) [c]
                             end -> p_mode u <> PArray ->
      simulates h p
        (set_maps (set_cols h (fst a)) (store (uh_maps h) (pr_map p) (pm_set c e (nth (pr_map p) (uh_maps h) []))),
         Ok {| pr_mode := PAssoc; pr_map := pr_map p; pr_cols := snd a; pr_exprs := pr_exprs p |})
        (Ok {| p_mode := PAssoc; p_map := pm_set c e (nth (pr_map p) (uh_maps h) []);
               p_cols := match pm_get c (nth (pr_map p) (uh_maps h) []) with Some _ => p_cols u | None => p_cols u ++ [c] end;
               p_exprs := p_exprs u |})).
    { intros a Ea Na. split; [split; [reflexivity|]|]; cbn [fst snd].
      - intros q [Qm Qc Qe] [Am Ac Ae].
        assert (F : view (fst a) (pr_cols q) = view (uh_cols h) (pr_cols q) /\ valid (fst a) (pr_cols q)).
        { rewrite Ea. destruct (pm_get c _); cbn [fst]; [split; [reflexivity|exact Qc]|].
          destruct (append_frame zero_column (g_cols g) (uh_cols h) (pr_cols p) [c] (pr_cols q) Oc Qc Ac) as (F1 & F2 & _).
          split; assumption. }
        destruct F as [F1 F2]. split.
        + unfold pairs_view. cbn [set_maps set_cols uh_maps uh_cols uh_exprs]. rewrite F1, nth_store_ne by exact Am. reflexivity.
        + split; cbn [set_maps set_cols uh_maps uh_cols uh_exprs]; [rewrite store_length; exact Qm|exact F2|exact Qe].
      - assert (V : valid (fst a) (snd a) /\ view (fst a) (snd a)
                    = match pm_get c (nth (pr_map p) (uh_maps h) []) with
                      | Some _ => view (uh_cols h) (pr_cols p)
                      | None => view (uh_cols h) (pr_cols p) ++ [c] end).
        { rewrite Ea. destruct (pm_get c _); cbn [fst snd]; [split; [exact Oc|reflexivity]|].
          destruct (append_view zero_column (g_cols g) (uh_cols h) (pr_cols p) [c] Oc) as (W & V & _). split; assumption. }
        destruct V as [V W]. split; [|split].
        + split; cbn [set_maps set_cols uh_maps uh_cols uh_exprs pr_map pr_cols pr_exprs]; [rewrite store_length; exact Om|exact V|exact Oe].
        + split; cbn [pairs_view set_maps set_cols uh_maps uh_cols uh_exprs pr_mode pr_map pr_cols pr_exprs p_mode p_map p_cols p_exprs].
          * reflexivity.
          * apply nth_store_eq. exact Om.
          * exact Sx.
          * rewrite W. destruct (pm_get c _); [exact Sc|]. apply Permutation_app_tail. exact Sc.
          * intro Z. exfalso. apply Z. reflexivity.
        + intros q [Qm Qc Qe] [Am Ac Ae]. split; cbn [pr_map pr_cols pr_exprs]; [exact Am| |exact Ae].
          rewrite Ea. destruct (pm_get c _); cbn [snd]; [exact Ac|].
          apply (append_frame zero_column (g_cols g) (uh_cols h) (pr_cols p) [c] (pr_cols q) Oc Qc Ac). }
    destruct (pr_mode p) eqn:M; [apply Good; [reflexivity|rewrite <- Sm; discriminate]..|exact Bad].
  Qed.

  Lemma set_simulates : forall h p u c, owned h p -> same_pairs (pairs_view h p) u ->
    simulates h p (ref_set g h p c) (pairs_set u c).
  Proof.
    intros h p u c [Om Oc Oe] [Sm Sp Sx Sc Sd]. unfold ref_set, pairs_set.
    cbn [pairs_view p_mode p_map p_exprs p_cols] in *. rewrite <- Sm.
    destruct (append_view zero_column (g_cols g) (uh_cols h) (pr_cols p) [c] Oc) as (W & V & _).
    assert (Good : pr_mode p <> PAssoc ->
      simulates h p
        (set_cols h (fst (append zero_column (g_cols g) (uh_cols h) (pr_cols p) [c])),
         Ok {| pr_mode := PArray; pr_map := pr_map p; pr_cols := snd (append zero_column (g_cols g) (uh_cols h) (pr_cols p) [c]); pr_exprs := pr_exprs p |})
        (Ok {| p_mode := PArray; p_map := p_map u; p_cols := p_cols u ++ [c]; p_exprs := p_exprs u |})).
    { intro Na. split; [split; [reflexivity|]|]; cbn [fst snd].
      - intros q [Qm Qc Qe] [Am Ac Ae].
        destruct (append_frame zero_column (g_cols g) (uh_cols h) (pr_cols p) [c] (pr_cols q) Oc Qc Ac) as (F1 & F2 & _).
        split.
        + unfold pairs_view. cbn [set_cols uh_maps uh_cols uh_exprs]. rewrite F1. reflexivity.
        + split; cbn [set_cols uh_maps uh_cols uh_exprs]; assumption.
      - split; [|split].
        + split; cbn [set_cols uh_maps uh_cols uh_exprs pr_map pr_cols pr_exprs]; assumption.
        + split; cbn [pairs_view set_cols uh_maps uh_cols uh_exprs pr_mode pr_map pr_cols pr_exprs p_mode p_map p_cols p_exprs].
          * reflexivity.
          * exact Sp.
          * exact Sx.
          * rewrite W. apply Permutation_app_tail. exact Sc.
          * intros _. rewrite W. rewrite Sd by congruence. reflexivity.
        + intros q [Qm Qc Qe] [Am Ac Ae]. split; cbn [pr_map pr_cols pr_exprs]; [exact Am| |exact Ae].
          apply (append_frame zero_column (g_cols g) (uh_cols h) (pr_cols p) [c] (pr_cols q) Oc Qc Ac). }
    destruct (pr_mode p) eqn:M; [apply Good; discriminate| |apply Good; discriminate].
    split; [apply frame_refl|reflexivity].
  Qed.

  Lemma use_simulates : forall h p u e, owned h p -> same_pairs (pairs_view h p) u ->
    simulates h p (ref_use g h p e) (pairs_use u e).
  Proof.
    intros h p u e [Om Oc Oe] [Sm Sp Sx Sc Sd]. unfold ref_use, pairs_use.
    cbn [pairs_view p_mode p_map p_exprs p_cols] in *. rewrite <- Sm.
    destruct (pr_mode p) eqn:M; [split; [apply frame_refl|reflexivity]..|].
    destruct (append_view ENil (g_exprs g) (uh_exprs h) (pr_exprs p) [e] Oe) as (W & V & _).
    split; [split; [reflexivity|]|]; cbn [fst snd].
    - intros q [Qm Qc Qe] [Am Ac Ae].
      destruct (append_frame ENil (g_exprs g) (uh_exprs h) (pr_exprs p) [e] (pr_exprs q) Oe Qe Ae) as (F1 & F2 & _).
      split.
      + unfold pairs_view. cbn [set_exprs uh_maps uh_cols uh_exprs]. rewrite F1. reflexivity.
      + split; cbn [set_exprs uh_maps uh_cols uh_exprs]; assumption.
    - split; [|split].
      + split; cbn [set_exprs uh_maps uh_cols uh_exprs pr_map pr_cols pr_exprs]; assumption.
      + split; cbn [pairs_view set_exprs uh_maps uh_cols uh_exprs pr_mode pr_map pr_cols pr_exprs p_mode p_map p_cols p_exprs].
        * reflexivity.
        * exact Sp.
        * rewrite W, Sx. reflexivity.
        * exact Sc.
        * rewrite <- Sm in Sd. exact Sd.
      + intros q [Qm Qc Qe] [Am Ac Ae]. split; cbn [pr_map pr_cols pr_exprs]; [exact Am|exact Ac|].
        apply (append_frame ENil (g_exprs g) (uh_exprs h) (pr_exprs p) [e] (pr_exprs q) Oe Qe Ae).
  Qed.

  Lemma loop_simulates {B} (f : upd_heap -> pairs_ref -> B -> upd_heap * res pairs_ref) (f' : pairs -> B -> res pairs) :
    (forall h p u x, owned h p -> same_pairs (pairs_view h p) u -> simulates h p (f h p x) (f' u x)) ->
    forall l h p u, owned h p -> same_pairs (pairs_view h p) u ->
    simulates h p (ref_loop f l h p) (fold_res f' l u).
  Proof.
    intros Hf. induction l as [|x l IH]; intros h p u O S; cbn [ref_loop fold_res].
    - split; [apply frame_refl|]. cbn [fst snd]. split; [exact O|]. split; [exact S|]. intros q _ A. exact A.
    - destruct (Hf h p u x O S) as [[Fw F] R]. destruct (f h p x) as [h1 [p1|e]]; cbn [fst snd] in *;
        destruct (f' u x) as [u1|e']; try contradiction R; cbn [bind].
      + destruct R as (O1 & S1 & A1). destruct (IH h1 p1 u1 O1 S1) as [[Fw2 F2] R2].
        split; [split|].
        * congruence.
        * intros q Oq Aq. destruct (F q Oq Aq) as [V1 Oq1]. destruct (F2 q Oq1 (A1 q Oq Aq)) as [V2 Oq2].
          split; [congruence|exact Oq2].
        * destruct (snd (ref_loop f l h1 p1)), (fold_res f' l u1); try exact R2.
          destruct R2 as (O2 & S2 & A2). split; [exact O2|]. split; [exact S2|].
          intros q Oq Aq. destruct (F q Oq Aq) as [_ Oq1]. apply A2; [exact Oq1|apply A1; assumption].
      + split; [split; assumption|exact R].
  Qed.

  Lemma panic_simulates : forall h p e, simulates h p (h, Panic e) (Panic e).
  Proof. intros h p e. split; [apply frame_refl|reflexivity]. Qed.

  Lemma pair_simulates : forall h p u kv, owned h p -> same_pairs (pairs_view h p) u ->
    simulates h p (ref_pair g h p kv) (merge_pair u kv).
  Proof.
    intros h p u kv O S. unfold ref_pair, merge_pair.
    destruct (to_column (fst kv)); cbn [bind]; [|apply panic_simulates].
    destruct (new_expression (snd kv)); cbn [bind]; [|apply panic_simulates].
    apply add_simulates; assumption.
  Qed.

  Lemma arg_simulates : forall h p u a, owned h p -> same_pairs (pairs_view h p) u ->
    simulates h p (ref_arg g h p a) (merge_arg u a).
  Proof.
    intros h p u a O S. destruct a; cbn [ref_arg merge_arg]; try apply panic_simulates.
    all: try (apply (loop_simulates _ _ pair_simulates); assumption).
    all: try (apply pair_simulates; assumption).
    all: destruct (to_columns [_]); cbn [bind]; [|apply panic_simulates]; apply (loop_simulates _ _ set_simulates); assumption.
  Qed.

  Lemma using_simulates : forall h p u a, owned h p -> same_pairs (pairs_view h p) u ->
    simulates h p (ref_using g h p a) (do e <- new_expression a; pairs_use u e).
  Proof.
    intros h p u a O S. unfold ref_using. destruct (new_expression a); cbn [bind]; [|apply panic_simulates].
    apply use_simulates; assumption.
  Qed.
End Steps.

(* ------------------------------------------------------------------------- *)
(* Builders                                                                    *)
(* ------------------------------------------------------------------------- *)

(* The same statement, up to the order of the columns in the key-value syntax. *)
Definition same_update (v u : update) : Prop := v = upd_with_set u (u_set v) /\ same_pairs (u_set v) (u_set u).

Definition same_output (v u : option update) : Prop :=
  match v, u with
  | Some v, Some u => same_update v u
  | None, None => True
  | _, _ => False
  end.

Lemma upd_step_shared : forall u s ws c, writes_shared c = false ->
  upd_step (upd_with_with (upd_with_set u s) ws) c
  = map_ok (fun u' => upd_with_with (upd_with_set u' s) ws) (upd_step u c).
Proof.
  intros u s ws c W. destruct c; cbn [writes_shared] in W; try discriminate W; cbn [upd_step];
    cbn [upd_with_with upd_with_set u_where u_from u_returning];
    repeat match goal with
           | |- context [if ?x then _ else _] => destruct x
           | |- context [bind ?x _] => destruct x; cbn [bind]
           end; reflexivity.
Qed.

(* What one builder sees. *)
Record sees (h : upd_heap) (b : upd_ref) (u : update) : Prop := {
  se_owned : owned h (ur_set b);
  se_withs : valid (uh_withs h) (ur_withs b);
  se_pairs : same_pairs (pairs_view h (ur_set b)) (u_set u);
  se_with : view (uh_withs h) (ur_withs b) = u_with u;
  se_rest : u = upd_with_with (upd_with_set (ur_rest b) (u_set u)) (u_with u) }.

Lemma sees_view : forall h b u, sees h b u -> same_update (upd_view h b) u.
Proof.
  intros h b u [_ _ P W R]. split.
  - unfold upd_view. rewrite W. rewrite R at 2. reflexivity.
  - exact P.
Qed.

Definition reg_ok (h : upd_heap) (r : option upd_ref) (v : option update) : Prop :=
  match r, v with
  | Some b, Some u => sees h b u
  | None, None => True
  | _, _ => False
  end.

(* Two builders of the same group have the same slices and map; of two groups, different ones. *)
Definition pair_ok (same : Prop) (r1 r2 : option upd_ref) : Prop :=
  match r1, r2 with
  | Some b1, Some b2 =>
    (same -> ur_set b1 = ur_set b2 /\ ur_withs b1 = ur_withs b2)
    /\ (~ same -> apart (ur_set b1) (ur_set b2) /\ apart_sl (ur_withs b1) (ur_withs b2))
  | _, _ => True
  end.

Record uinv (h : upd_heap) (regs : list (option upd_ref)) (vals : list (option update)) (vers dead : list nat) : Prop := {
  ui_regs : length regs = length vers;
  ui_vals : length vals = length vers;
  ui_vers : forall r v, nth_error vers r = Some v -> v < length vers;
  ui_dead : forall v, In v dead -> v < length vers;
  ui_ok : forall r v, nth_error vers r = Some v -> ~ In v dead -> reg_ok h (nth r regs None) (nth r vals None);
  ui_pair : forall r1 r2 v1 v2, nth_error vers r1 = Some v1 -> nth_error vers r2 = Some v2 ->
    ~ In v1 dead -> ~ In v2 dead -> pair_ok (v1 = v2) (nth r1 regs None) (nth r2 regs None) }.

Lemma nth_error_snoc {A} : forall (l : list A) x r y, nth_error (l ++ [x]) r = Some y ->
  (r < length l /\ nth_error l r = Some y) \/ (r = length l /\ y = x).
Proof.
  intros l x r y E. destruct (lt_eq_lt_dec r (length l)) as [[L| ->]|L].
  - left. split; [exact L|]. rewrite nth_error_app1 in E by exact L. exact E.
  - right. split; [reflexivity|]. rewrite nth_error_app2 in E by lia. rewrite Nat.sub_diag in E. cbn in E. congruence.
  - exfalso. assert (nth_error (l ++ [x]) r <> None) by congruence. apply nth_error_Some in H. rewrite app_length in H. cbn in H. lia.
Qed.

(* One more register, after a change of the memory. *)
Lemma uinv_push : forall h regs vals vers dead h' r u v' dead',
  uinv h regs vals vers dead -> incl dead dead' ->
  (forall v, In v dead' -> v < length vers) ->
  v' <= length vers ->
  (forall r0 v0, nth_error vers r0 = Some v0 -> ~ In v0 dead' -> reg_ok h' (nth r0 regs None) (nth r0 vals None)) ->
  (~ In v' dead' -> reg_ok h' r u) ->
  (forall r0 v0, nth_error vers r0 = Some v0 -> ~ In v0 dead' -> ~ In v' dead' -> pair_ok (v' = v0) r (nth r0 regs None)) ->
  uinv h' (regs ++ [r]) (vals ++ [u]) (vers ++ [v']) dead'.
Proof.
  intros h regs vals vers dead h' r u v' dead' [Ir Il Iv Id Io Ip] Inc Dl Lv Ok Okn Pr.
  split.
  - rewrite !app_length; cbn; lia.
  - rewrite !app_length; cbn; lia.
  - intros r0 v0 E. rewrite app_length. cbn. destruct (nth_error_snoc _ _ _ _ E) as [[_ E']|[_ ->]]; [specialize (Iv _ _ E'); lia|lia].
  - intros v0 H. rewrite app_length. specialize (Dl v0 H). lia.
  - intros r0 v0 E N. destruct (nth_error_snoc _ _ _ _ E) as [[L E']|[-> ->]].
    + rewrite !app_nth1 by lia. apply (Ok r0 v0); assumption.
    + rewrite !nth_snoc_eq by congruence. apply Okn. exact N.
  - intros r1 r2 v1 v2 E1 E2 N1 N2.
    assert (Sym : forall (P Q : Prop) a b, (P <-> Q) -> pair_ok P a b -> pair_ok Q b a).
    { intros P Q [a|] [b|] PQ H; try exact I. destruct H as [H1 H2]. split.
      - intro q. destruct (H1 (proj2 PQ q)). split; congruence.
      - intro q. destruct H2 as [[A1 A2 A3] A4]; [intro; apply q; apply PQ; assumption|]. split; [split|].
        + congruence.
        + apply apart_sl_sym; assumption.
        + apply apart_sl_sym; assumption.
        + apply apart_sl_sym; assumption. }
    destruct (nth_error_snoc _ _ _ _ E1) as [[L1 E1']|[-> ->]]; destruct (nth_error_snoc _ _ _ _ E2) as [[L2 E2']|[-> ->]].
    + rewrite !app_nth1 by lia. apply (Ip r1 r2 v1 v2); try assumption; intro H; [apply N1|apply N2]; apply Inc, H.
    + rewrite (nth_snoc_eq regs _ _ (length vers)) by congruence. rewrite app_nth1 by lia.
      apply (Sym (v' = v1) (v1 = v')); [split; congruence|]. apply (Pr r1 v1); assumption.
    + rewrite (nth_snoc_eq regs _ _ (length vers)) by congruence. rewrite app_nth1 by lia. apply (Pr r2 v2); assumption.
    + rewrite (nth_snoc_eq regs _ _ (length vers)) by congruence. destruct r as [b|]; [|exact I]. split; [intros _; split; reflexivity|].
      intro H. exfalso. apply H. reflexivity.
Qed.

Section Run.
  Context {O : Oracle} (g : growth) (sorted : forall l, Permutation l (o_sort l)).

  (* A memory change that leaves pairs apart from [b] alone. *)
  Definition frame_upd (h : upd_heap) (b : upd_ref) (h' : upd_heap) : Prop :=
    forall b2 u2, apart (ur_set b) (ur_set b2) -> apart_sl (ur_withs b) (ur_withs b2) -> sees h b2 u2 -> sees h' b2 u2.

  Definition simulates_upd (h : upd_heap) (b : upd_ref) (hr : upd_heap * res upd_ref) (r : res update) : Prop :=
    frame_upd h b (fst hr)
    /\ match snd hr, r with
       | Ok b', Ok u' => sees (fst hr) b' u'
                         /\ forall b2 u2, sees h b2 u2 -> apart (ur_set b) (ur_set b2) -> apart_sl (ur_withs b) (ur_withs b2) ->
                            apart (ur_set b') (ur_set b2) /\ apart_sl (ur_withs b') (ur_withs b2)
       | Panic e, Panic e' => e = e'
       | _, _ => False
       end.

  Lemma frame_sees : forall h b h', frame h (ur_set b) h' -> frame_upd h b h'.
  Proof.
    intros h b h' [Fw F] b2 u2 A _ [So Sw Sp Sv Sr]. destruct (F (ur_set b2) So A) as [V Ow].
    split; [exact Ow|rewrite Fw; exact Sw|rewrite V; exact Sp|rewrite Fw; exact Sv|exact Sr].
  Qed.

  Lemma shared_simulates : forall h b u c, writes_shared c = true -> sees h b u ->
    simulates_upd h b (upd_do g h b c) (upd_step u c).
  Proof.
    intros h b u c W S. pose proof S as [So Sw Sp Sv Sr].
    assert (Lift : forall hr r, simulates h (ur_set b) hr r ->
              simulates_upd h b (fst hr, map_ok (upd_ref_set b) (snd hr)) (do p <- r; Ok (upd_with_set u p))).
    { intros [h' r'] r [F R]. cbn [fst snd] in *. split; [apply frame_sees; exact F|]. cbn [fst snd].
      destruct r' as [p'|e], r as [u'|e']; cbn [map_ok bind]; try contradiction R; [|exact R].
      destruct R as (O' & S' & A'). destruct F as [Fw F]. split.
      - split; cbn [upd_ref_set ur_set ur_withs ur_rest].
        + exact O'.
        + rewrite Fw. exact Sw.
        + exact S'.
        + rewrite Fw. exact Sv.
        + rewrite Sr. reflexivity.
      - intros b2 u2 S2 A2 Aw. split; [apply A'; [apply (se_owned _ _ _ S2)|exact A2]|exact Aw]. }
    assert (Bad : forall e, simulates_upd h b (h, Panic e) (Panic e)).
    { intro e. split; [apply frame_sees, frame_refl|reflexivity]. }
    destruct c; try discriminate W.
    - destruct args as [|a args]; [apply Bad|]. cbn [upd_do upd_step]. unfold merge_set.
      apply Lift. apply (loop_simulates _ _ (arg_simulates g)); assumption.
    - cbn [upd_do upd_step]. rewrite <- (sp_mode _ _ Sp). cbn [pairs_view p_mode].
      destruct (pr_mode (ur_set b)); [apply Bad..|]. destruct args as [|a args]; [apply Bad|].
      apply Lift. apply (loop_simulates _ _ (using_simulates g)); assumption.
    - cbn [upd_do upd_step].
      set (a := if sl_len (ur_withs b) =? 0 then make_slice (uh_withs h) args
                else append zero_withq (g_withs g) (uh_withs h) (ur_withs b) args).
      assert (Fr : forall t, valid (uh_withs h) t -> apart_sl (ur_withs b) t ->
                view (fst a) t = view (uh_withs h) t /\ valid (fst a) t /\ apart_sl (snd a) t).
      { intros t V A. unfold a. destruct (sl_len (ur_withs b) =? 0); [apply make_frame; exact V|].
        apply append_frame; assumption. }
      assert (Vn : valid (fst a) (snd a) /\ view (fst a) (snd a) = (if nonempty (u_with u) then u_with u ++ args else args)).
      { pose proof (view_length _ _ Sw) as L. rewrite Sv in L. unfold a. destruct (sl_len (ur_withs b) =? 0) eqn:Z.
        - apply Nat.eqb_eq in Z. assert (nonempty (u_with u) = false) as -> by (destruct (u_with u); [reflexivity|cbn in L; lia]).
          destruct (make_view (uh_withs h) args) as (V & Va & _). split; assumption.
        - apply Nat.eqb_neq in Z. assert (nonempty (u_with u) = true) as -> by (destruct (u_with u); [cbn in L; lia|reflexivity]).
          destruct (append_view zero_withq (g_withs g) (uh_withs h) (ur_withs b) args Sw) as (V & Va & _).
          rewrite Sv in V. split; assumption. }
      destruct Vn as [Va V]. split; cbn [fst snd].
      + intros b2 u2 A Aw [So2 Sw2 Sp2 Sv2 Sr2]. destruct (Fr (ur_withs b2) Sw2 Aw) as (F1 & F2 & _).
        destruct So2 as [O1 O2 O3]. split; [split; assumption|exact F2|exact Sp2|cbn [set_withs uh_withs]; rewrite F1; exact Sv2|exact Sr2].
      + split.
        * destruct So as [O1 O2 O3]. split; cbn [ur_set ur_withs ur_rest]; [split; assumption|exact Va|exact Sp|exact V|].
          rewrite Sr. reflexivity.
        * intros b2 u2 [So2 Sw2 _ _ _] A Aw. cbn [ur_set ur_withs]. split; [exact A|]. apply (Fr (ur_withs b2) Sw2 Aw).
  Qed.

  Lemma plain_simulates : forall h b u c, writes_shared c = false -> sees h b u ->
    match upd_do g h b c, upd_step u c with
    | (h', Ok b'), Ok u' => h' = h /\ sees h b' u' /\ ur_set b' = ur_set b /\ ur_withs b' = ur_withs b
    | (h', Panic e), Panic e' => h' = h /\ e = e'
    | _, _ => False
    end.
  Proof.
    intros h b u c W [So Sw Sp Sv Sr].
    assert (Ed : upd_do g h b c = (h, map_ok (fun u' => {| ur_rest := u'; ur_set := ur_set b; ur_withs := ur_withs b |}) (upd_step (ur_rest b) c))).
    { destruct c; try discriminate W; unfold upd_do; destruct (upd_step _ _); reflexivity. }
    rewrite Ed. assert (Es := upd_step_shared (ur_rest b) (u_set u) (u_with u) c W). rewrite <- Sr in Es. rewrite Es.
    destruct (upd_step (ur_rest b) c) as [u'|e]; cbn [map_ok].
    - split; [reflexivity|]. split; [|split; reflexivity].
      split; cbn [ur_set ur_withs ur_rest upd_with_with upd_with_set u_set u_with]; try assumption. reflexivity.
    - split; reflexivity.
  Qed.

  (* Rendering. *)
  Lemma show_sees : forall h b u b2 u2, sees h b u -> sees h b2 u2 ->
    (ur_set b2 = ur_set b \/ apart (ur_set b) (ur_set b2)) -> sees (fst (upd_show h b)) b2 u2.
  Proof.
    intros h b u b2 u2 [So Sw Sp Sv Sr] [So2 Sw2 Sp2 Sv2 Sr2] D. unfold upd_show. cbn [fst].
    destruct (pr_mode (ur_set b)) eqn:M; [split; assumption| |split; assumption].
    set (s := pr_cols (ur_set b)). destruct So as [Om Oc Oe]. destruct So2 as [Om2 Oc2 Oe2]. fold s in Oc.
    pose proof (view_length _ _ Oc) as Lv.
    assert (Lo : length (o_sort (view (uh_cols h) s)) = sl_len s).
    { rewrite <- Lv. symmetry. apply Permutation_length. apply sorted. }
    set (arr := o_sort (view (uh_cols h) s) ++ skipn (sl_len s) (nth (sl_ptr s) (uh_cols h) [])).
    assert (La : sl_cap s > 0 -> length arr = length (nth (sl_ptr s) (uh_cols h) [])).
    { intro C. unfold arr. rewrite app_length, skipn_length, Lo. destruct Oc as [[C0 _] | (_ & Ln & L)]; [lia|]. rewrite Ln. lia. }
    assert (Same : sl_cap s = 0 -> store (uh_cols h) (sl_ptr s) arr = uh_cols h).
    { intro C. unfold arr. pose proof (valid_le _ _ Oc) as L. assert (L0 : sl_len s = 0) by lia. rewrite L0 in Lo.
      destruct (o_sort _); [|discriminate Lo]. rewrite L0. cbn [app skipn]. apply store_same. }
    assert (V2 : valid (store (uh_cols h) (sl_ptr s) arr) (pr_cols (ur_set b2))).
    { destruct (Nat.eq_dec (sl_cap s) 0) as [C|C]; [rewrite Same by exact C; exact Oc2|].
      destruct Oc2 as [Z | (P & Ln & L)]; [left; exact Z|right]. rewrite store_length. repeat split; [exact P| |exact L].
      destruct (Nat.eq_dec (sl_ptr s) (sl_ptr (pr_cols (ur_set b2)))) as [E|N]; [|rewrite nth_store_ne by exact N; exact Ln].
      rewrite <- E. rewrite nth_store_eq by (rewrite E; exact P). rewrite La by lia. rewrite E. exact Ln. }
    split; cbn [set_cols uh_maps uh_cols uh_exprs uh_withs].
    - split; [exact Om2|exact V2|exact Oe2].
    - exact Sw2.
    - destruct Sp2 as [P1 P2 P3 P4 P5]. cbn [pairs_view p_mode p_map p_exprs p_cols] in *.
      destruct D as [E|[Am Ac Ae]].
      + (* the same slice *)
        rewrite E in *. fold s in P4, P5 |- *.
        assert (Vn : Permutation (view (uh_cols h) s) (view (store (uh_cols h) (sl_ptr s) arr) s)).
        { destruct (Nat.eq_dec (sl_cap s) 0) as [C|C]; [rewrite Same by exact C; reflexivity|].
          unfold view at 2. destruct Oc as [[C0 _] | (P & _ & _)]; [lia|]. rewrite nth_store_eq by exact P.
          unfold arr. rewrite firstn_app, Lo, Nat.sub_diag, firstn_O, app_nil_r.
          rewrite firstn_all2 by lia. apply sorted. }
        split; cbn [pairs_view set_cols uh_maps uh_cols uh_exprs p_mode p_map p_exprs p_cols].
        * exact P1.
        * exact P2.
        * exact P3.
        * fold s. rewrite <- Vn. exact P4.
        * intro H. exfalso. apply H. rewrite <- P1. exact M.
      + assert (Vn : view (store (uh_cols h) (sl_ptr s) arr) (pr_cols (ur_set b2)) = view (uh_cols h) (pr_cols (ur_set b2))).
        { destruct Ac as [C|[C|N]].
          - rewrite Same by exact C. reflexivity.
          - pose proof (valid_le _ _ Oc2). unfold view. replace (sl_len (pr_cols (ur_set b2))) with 0 by lia. reflexivity.
          - unfold view. rewrite nth_store_ne by exact N. reflexivity. }
        split; cbn [pairs_view set_cols uh_maps uh_cols uh_exprs p_mode p_map p_exprs p_cols]; rewrite ?Vn; assumption.
    - exact Sv2.
    - exact Sr2.
  Qed.

  Lemma upd_run_related : forall p h regs vals vers dead,
    uinv h regs vals vers dead -> separated vers dead p ->
    Forall2 same_output (memory_run upd_new (upd_do g) upd_show h regs p) (value_run lk_update upd_step vals p).
  Proof.
    induction p as [|[a|i c|i] p IH]; intros h regs vals vers dead U S; [constructor| | |].
    - cbn [memory_run value_run upd_new fst snd]. cbn [separated] in S.
      apply (IH _ _ _ (vers ++ [length vers]) dead); [|exact S].
      set (h' := set_maps h (uh_maps h ++ [[]])).
      assert (Keep : forall b u, sees h b u -> sees h' b u).
      { intros b u [[O1 O2 O3] Sw Sp Sv Sr]. split; [split|exact Sw| |exact Sv|exact Sr].
        - unfold h'. cbn [set_maps uh_maps]. rewrite app_length. lia.
        - exact O2.
        - exact O3.
        - unfold pairs_view, h' in *. cbn [set_maps uh_maps uh_cols uh_exprs] in *. rewrite app_nth1 by exact O1. exact Sp. }
      eapply uinv_push; [exact U|apply incl_refl|apply (ui_dead _ _ _ _ _ U)|lia| | |].
      + intros r0 v0 E N. pose proof (ui_ok _ _ _ _ _ U r0 v0 E N) as K.
        destruct (nth r0 regs None), (nth r0 vals None); try exact K. apply Keep. exact K.
      + intros _. unfold lk_update. destruct (to_table a) as [t|e]; cbn [bind ok]; [|exact I].
        split; cbn [ur_set ur_withs ur_rest].
        * split; cbn [pr_map pr_cols pr_exprs]; [unfold h'; cbn [set_maps uh_maps]; rewrite app_length; cbn; lia|left; split; reflexivity..].
        * left. split; reflexivity.
        * unfold pairs_view, h'. cbn [pr_mode pr_map pr_cols pr_exprs set_maps uh_maps uh_cols uh_exprs u_set].
          rewrite app_nth2 by lia. rewrite Nat.sub_diag. apply same_pairs_refl.
        * reflexivity.
        * reflexivity.
      + intros r0 v0 E N _. unfold lk_update. destruct (to_table a) as [t|e]; cbn [bind ok]; [|exact I].
        pose proof (ui_ok _ _ _ _ _ U r0 v0 E N) as K. destruct (nth r0 regs None) as [b|]; [|exact I].
        destruct (nth r0 vals None) as [u|]; [|contradiction K]. split.
        * intro Ev. exfalso. pose proof (ui_vers _ _ _ _ _ U r0 v0 E). lia.
        * intros _. cbn [ur_set ur_withs]. split; [split|left; reflexivity]; cbn [pr_map pr_cols pr_exprs].
          -- pose proof (ow_map _ _ (se_owned _ _ _ K)). lia.
          -- left. reflexivity.
          -- left. reflexivity.
    - cbn [memory_run value_run]. cbn [separated] in S.
      destruct (nth_error vers i) as [v|] eqn:Ev.
      2:{ apply nth_error_None in Ev.
          rewrite (nth_overflow regs) by (rewrite (ui_regs _ _ _ _ _ U); exact Ev).
          rewrite (nth_overflow vals) by (rewrite (ui_vals _ _ _ _ _ U); exact Ev).
          apply (IH _ _ _ (vers ++ [length vers]) dead); [|exact S].
          eapply uinv_push; [exact U|apply incl_refl|apply (ui_dead _ _ _ _ _ U)|lia|apply (ui_ok _ _ _ _ _ U)|intros _; exact I|intros; exact I]. }
      destruct S as [Nv S]. pose proof (ui_ok _ _ _ _ _ U i v Ev Nv) as K.
      pose proof (ui_vers _ _ _ _ _ U i v Ev) as Lv.
      assert (Li : i < length vers) by (apply nth_error_Some; congruence).
      destruct (writes_shared c) eqn:W.
      + assert (Dl : forall v0, In v0 (v :: dead) -> v0 < length vers).
        { intros v0 [<- | H]; [exact Lv|exact (ui_dead _ _ _ _ _ U v0 H)]. }
        assert (Nn : forall v0, ~ In v0 (v :: dead) -> v0 <> v /\ ~ In v0 dead).
        { intros v0 H. split; [intro E; apply H; left; congruence|intro E; apply H; right; exact E]. }
        destruct (nth i regs None) as [b|] eqn:Eb; destruct (nth i vals None) as [u|] eqn:Eu; try contradiction K.
        * destruct (shared_simulates h b u c W K) as [F R].
          assert (Others : forall r0 v0, nth_error vers r0 = Some v0 -> ~ In v0 (v :: dead) ->
                    reg_ok (fst (upd_do g h b c)) (nth r0 regs None) (nth r0 vals None)).
          { intros r0 v0 E N. destruct (Nn v0 N) as [Nv0 Nd]. pose proof (ui_ok _ _ _ _ _ U r0 v0 E Nd) as K0.
            pose proof (ui_pair _ _ _ _ _ U i r0 v v0 Ev E Nv Nd) as P0. rewrite Eb in P0.
            destruct (nth r0 regs None) as [b0|], (nth r0 vals None) as [u0|]; try exact K0.
            destruct P0 as [_ P0]. destruct P0 as [P1 P2]; [congruence|]. apply (F b0 u0 P1 P2 K0). }
          destruct (upd_do g h b c) as [h' [b'|e]]; cbn [fst snd] in *; destruct (upd_step u c) as [u'|e']; try contradiction R; cbn [ok].
          -- destruct R as [Sn An]. apply (IH _ _ _ (vers ++ [length vers]) (v :: dead)); [|exact S].
             eapply uinv_push; [exact U|apply incl_tl, incl_refl|exact Dl|lia|exact Others|intros _; exact Sn|].
             intros r0 v0 E N _. destruct (Nn v0 N) as [Nv0 Nd]. pose proof (ui_ok _ _ _ _ _ U r0 v0 E Nd) as K0.
             pose proof (ui_pair _ _ _ _ _ U i r0 v v0 Ev E Nv Nd) as P0. rewrite Eb in P0.
             destruct (nth r0 regs None) as [b0|]; [|exact I]. destruct (nth r0 vals None) as [u0|]; [|contradiction K0].
             split; [intro H; exfalso; pose proof (ui_vers _ _ _ _ _ U r0 v0 E); lia|]. intros _.
             destruct P0 as [_ P0]. destruct P0 as [P1 P2]; [congruence|]. exact (An b0 u0 K0 P1 P2).
          -- apply (IH _ _ _ (vers ++ [length vers]) (v :: dead)); [|exact S].
             eapply uinv_push; [exact U|apply incl_tl, incl_refl|exact Dl|lia|exact Others|intros _; exact I|intros; exact I].
        * apply (IH _ _ _ (vers ++ [length vers]) (v :: dead)); [|exact S].
          eapply uinv_push; [exact U|apply incl_tl, incl_refl|exact Dl|lia| |intros _; exact I|intros; exact I].
          intros r0 v0 E N. apply (ui_ok _ _ _ _ _ U r0 v0 E). apply Nn. exact N.
      + destruct (nth i regs None) as [b|] eqn:Eb; destruct (nth i vals None) as [u|] eqn:Eu; try contradiction K.
        * pose proof (plain_simulates h b u c W K) as R.
          destruct (upd_do g h b c) as [h' [b'|e]]; destruct (upd_step u c) as [u'|e']; try contradiction R; cbn [ok fst snd].
          -- destruct R as (-> & Sn & E1 & E2). apply (IH _ _ _ (vers ++ [v]) dead); [|exact S].
             eapply uinv_push; [exact U|apply incl_refl|apply (ui_dead _ _ _ _ _ U)|lia|apply (ui_ok _ _ _ _ _ U)|intros _; exact Sn|].
             intros r0 v0 E N _. pose proof (ui_pair _ _ _ _ _ U i r0 v v0 Ev E Nv N) as P0. rewrite Eb in P0.
             destruct (nth r0 regs None) as [b0|]; [|exact I]. unfold pair_ok in *. rewrite E1, E2. exact P0.
          -- destruct R as [-> _]. apply (IH _ _ _ (vers ++ [v]) dead); [|exact S].
             eapply uinv_push; [exact U|apply incl_refl|apply (ui_dead _ _ _ _ _ U)|lia|apply (ui_ok _ _ _ _ _ U)|intros _; exact I|intros; exact I].
        * apply (IH _ _ _ (vers ++ [v]) dead); [|exact S].
          eapply uinv_push; [exact U|apply incl_refl|apply (ui_dead _ _ _ _ _ U)|lia|apply (ui_ok _ _ _ _ _ U)|intros _; exact I|intros; exact I].
    - cbn [memory_run value_run]. cbn [separated] in S. destruct S as [Nv S].
      destruct (nth_error vers i) as [v|] eqn:Ev.
      2:{ apply nth_error_None in Ev.
          rewrite (nth_overflow regs) by (rewrite (ui_regs _ _ _ _ _ U); exact Ev).
          rewrite (nth_overflow vals) by (rewrite (ui_vals _ _ _ _ _ U); exact Ev).
          constructor; [exact I|]. apply (IH _ _ _ vers dead); assumption. }
      pose proof (ui_ok _ _ _ _ _ U i v Ev Nv) as K.
      destruct (nth i regs None) as [b|] eqn:Eb; destruct (nth i vals None) as [u|] eqn:Eu; try contradiction K.
      + constructor; [apply sees_view; exact K|]. apply (IH _ _ _ vers dead); [|exact S].
        destruct U as [U1 U2 U3 U4 U5 U6]. split; try assumption.
        intros r0 v0 E N. pose proof (U5 r0 v0 E N) as K0. pose proof (U6 i r0 v v0 Ev E Nv N) as P0. rewrite Eb in P0.
        destruct (nth r0 regs None) as [b0|]; [|exact K0]. destruct (nth r0 vals None) as [u0|]; [|exact K0].
        apply (show_sees h b u b0 u0 K K0). destruct P0 as [P1 P2]. destruct (Nat.eq_dec v v0) as [Eq|Ne].
        * left. symmetry. apply (P1 Eq).
        * right. apply (P2 Ne).
      + constructor; [exact I|]. apply (IH _ _ _ vers dead); assumption.
  Qed.

  Lemma update_values : forall p, separate p -> Forall2 same_output (upd_memory g p) (upd_values p).
  Proof.
    intros p S. apply (upd_run_related p _ _ _ [] []); [|exact S].
    split; try reflexivity.
    - intros [|r] v E; discriminate E.
    - intros v [].
    - intros [|r] v E; discriminate E.
    - intros [|r1] r2 v1 v2 E; discriminate E.
  Qed.
End Run.

(* Programs in which a builder is not used after a call on it are separate. *)
Lemma moved_separated : forall p done vers dead, moved done p ->
  (forall v, In v dead -> v < length vers) ->
  (forall r v, nth_error vers r = Some v -> v < length vers) ->
  (forall r v, nth_error vers r = Some v -> ~ In r done -> ~ In v dead) ->
  (forall r1 r2 v, nth_error vers r1 = Some v -> nth_error vers r2 = Some v -> ~ In r1 done -> ~ In r2 done -> r1 = r2) ->
  separated vers dead p.
Proof.
  induction p as [|[a|i c|i] p IH]; intros done vers dead M Dl Vl Hd Hu; [exact I| | |].
  - cbn [separated moved] in *. apply (IH done); [exact M| | | |].
    + intros v H. rewrite app_length. specialize (Dl v H). lia.
    + intros r v E. rewrite app_length. cbn. destruct (nth_error_snoc _ _ _ _ E) as [[_ E']|[_ ->]]; [specialize (Vl _ _ E'); lia|lia].
    + intros r v E N. destruct (nth_error_snoc _ _ _ _ E) as [[_ E']|[_ ->]]; [exact (Hd r v E' N)|intro H; specialize (Dl _ H); lia].
    + intros r1 r2 v E1 E2 N1 N2.
      destruct (nth_error_snoc _ _ _ _ E1) as [[L1 E1']|[R1 V1]]; destruct (nth_error_snoc _ _ _ _ E2) as [[L2 E2']|[R2 V2]].
      * apply (Hu r1 r2 v); assumption.
      * specialize (Vl _ _ E1'). lia.
      * specialize (Vl _ _ E2'). lia.
      * congruence.
  - cbn [separated moved] in *. destruct M as [Ni M].
    destruct (nth_error vers i) as [v|] eqn:Ev.
    + split; [exact (Hd i v Ev Ni)|]. destruct (writes_shared c).
      * apply (IH (i :: done)); [exact M| | | |].
        -- intros v0 [<- | H]; rewrite app_length; cbn; [specialize (Vl _ _ Ev); lia|specialize (Dl _ H); lia].
        -- intros r v0 E. rewrite app_length. cbn. destruct (nth_error_snoc _ _ _ _ E) as [[_ E']|[_ ->]]; [specialize (Vl _ _ E'); lia|lia].
        -- intros r v0 E N [Hv | H].
           ++ subst v0. destruct (nth_error_snoc _ _ _ _ E) as [[_ E']|[_ Hv']]; [|specialize (Vl _ _ Ev); lia].
              apply N. left. apply (Hu i r v Ev E' Ni). intro H. apply N. right. exact H.
           ++ destruct (nth_error_snoc _ _ _ _ E) as [[_ E']|[_ ->]]; [|specialize (Dl _ H); lia].
              apply (Hd r v0 E'); [|exact H]. intro H'. apply N. right. exact H'.
        -- intros r1 r2 v0 E1 E2 N1 N2.
           destruct (nth_error_snoc _ _ _ _ E1) as [[L1 E1']|[R1 V1]]; destruct (nth_error_snoc _ _ _ _ E2) as [[L2 E2']|[R2 V2]].
           ++ apply (Hu r1 r2 v0); try assumption; intro H; [apply N1|apply N2]; right; exact H.
           ++ specialize (Vl _ _ E1'). lia.
           ++ specialize (Vl _ _ E2'). lia.
           ++ congruence.
      * apply (IH (i :: done)); [exact M| | | |].
        -- intros v0 H. rewrite app_length. specialize (Dl _ H). lia.
        -- intros r v0 E. rewrite app_length. cbn. destruct (nth_error_snoc _ _ _ _ E) as [[_ E']|[_ ->]]; [specialize (Vl _ _ E'); lia|specialize (Vl _ _ Ev); lia].
        -- intros r v0 E N H. destruct (nth_error_snoc _ _ _ _ E) as [[_ E']|[_ ->]].
           ++ apply (Hd r v0 E'); [|exact H]. intro H'. apply N. right. exact H'.
           ++ exact (Hd i v Ev Ni H).
        -- intros r1 r2 v0 E1 E2 N1 N2.
           assert (Mix : forall r, nth_error vers r = Some v -> ~ In r (i :: done) -> False).
           { intros r E N. apply N. left. apply (Hu i r v Ev E Ni). intro H. apply N. right. exact H. }
           destruct (nth_error_snoc _ _ _ _ E1) as [[L1 E1']|[R1 V1]]; destruct (nth_error_snoc _ _ _ _ E2) as [[L2 E2']|[R2 V2]].
           ++ apply (Hu r1 r2 v0); try assumption; intro H; [apply N1|apply N2]; right; exact H.
           ++ subst v0. exfalso. exact (Mix r1 E1' N1).
           ++ subst v0. exfalso. exact (Mix r2 E2' N2).
           ++ congruence.
    + apply (IH (i :: done)); [exact M| | | |].
      * intros v H. rewrite app_length. specialize (Dl v H). lia.
      * intros r v E. rewrite app_length. cbn. destruct (nth_error_snoc _ _ _ _ E) as [[_ E']|[_ ->]]; [specialize (Vl _ _ E'); lia|lia].
      * intros r v E N. destruct (nth_error_snoc _ _ _ _ E) as [[_ E']|[_ ->]]; [apply (Hd r v E'); intro H; apply N; right; exact H|intro H; specialize (Dl _ H); lia].
      * intros r1 r2 v E1 E2 N1 N2.
        destruct (nth_error_snoc _ _ _ _ E1) as [[L1 E1']|[R1 V1]]; destruct (nth_error_snoc _ _ _ _ E2) as [[L2 E2']|[R2 V2]].
        -- apply (Hu r1 r2 v); try assumption; intro H; [apply N1|apply N2]; right; exact H.
        -- specialize (Vl _ _ E1'). lia.
        -- specialize (Vl _ _ E2'). lia.
        -- congruence.
  - cbn [separated moved] in *. destruct M as [Ni M]. split; [|apply (IH done); assumption].
    destruct (nth_error vers i) as [v|] eqn:Ev; [|exact I]. exact (Hd i v Ev Ni).
Qed.

Lemma moved_separate : forall p, moved [] p -> separate p.
Proof.
  intros p M. apply (moved_separated p []); [exact M|intros v []| | |].
  - intros [|r] v E; discriminate E.
  - intros [|r] v E; discriminate E.
  - intros [|r1] r2 v E; discriminate E.
Qed.
