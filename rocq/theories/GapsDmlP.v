(* INSERT and UPDATE: chains of calls with nothing missing in their arguments. *)
From Coq Require Import Permutation.
From Verif Require Export GapsChainP.
From Verif Require Import AssignP.
Local Open Scope list_scope.

(* ------------------------------------------------------------------------- *)
(* Pairs                                                                       *)
(* ------------------------------------------------------------------------- *)

Definition no_value (p : pairs) : Prop := p_map p = [] /\ p_exprs p = [].
Definition pairs_inv (p : pairs) : Prop :=
  (p_mode p = PUnknown -> p_cols p = [] /\ no_value p) /\ fine_pairs p.

Lemma pm_set_in : forall c e m d x, In (d, x) (pm_set c e m) -> x = e \/ In (d, x) m.
Proof.
  intros c e. induction m as [|[c' e'] m IH]; intros d x I; cbn [pm_set] in I.
  - destruct I as [E|[]]. injection E as <- <-. tauto.
  - destruct (col_eqb c c').
    + destruct I as [E|I]; [injection E as <- <-; tauto|right; right; exact I].
    + destruct I as [E|I]; [right; left; exact E|]. destruct (IH d x I); [tauto|right; right; assumption].
Qed.

Lemma add_inv : forall p c e p', pairs_add p c e = Ok p' -> pairs_inv p -> fine e -> pairs_inv p' /\ p_map p' <> [].
Proof.
  intros p c e p' H (U & A & M & X) F. unfold pairs_add in H. rewrite Forall_forall in M.
  assert (G : p_mode p <> PArray -> forall d, In d (match pm_get c (p_map p) with Some _ => p_cols p | None => p_cols p ++ [c] end) ->
              pm_get d (pm_set c e (p_map p)) <> None).
  { intros NA d I. rewrite pm_get_set. destruct (col_eqb d c) eqn:Ed; [discriminate|].
    assert (Id : In d (p_cols p)).
    { destruct (pm_get c (p_map p)); [exact I|]. apply in_app_or in I. destruct I as [I|[<- | []]]; [exact I|].
      exfalso. assert (R : col_eqb c c = true) by apply col_eqb_refl. congruence. }
    destruct (p_mode p) eqn:Em; [rewrite (proj1 (U eq_refl)) in Id; destruct Id|exact (A d Id eq_refl)|contradiction]. }
  assert (M' : Forall (fun ce => fine (snd ce)) (pm_set c e (p_map p))).
  { apply Forall_forall. intros [d x] I. destruct (pm_set_in _ _ _ _ _ I) as [-> | I']; [exact F|exact (M _ I')]. }
  destruct (p_mode p) eqn:Em; cbn in H; try discriminate H; injection H as <-; (split; [|apply pm_set_nonnil]);
    (split; [discriminate|]); (split; [intros d I _; cbn in *; apply (G ltac:(discriminate) d I)|]); split; assumption.
Qed.

Lemma set_inv : forall p c p', pairs_set p c = Ok p' -> pairs_inv p -> pairs_inv p' /\ (no_value p' <-> no_value p /\ false = false).
Proof.
  intros p c p' H (U & A & M & X). unfold pairs_set in H. unfold no_value.
  destruct (p_mode p) eqn:Em; try discriminate H; injection H as <-; cbn; (split; [|tauto]);
    (split; [discriminate|]); (split; [intros d _ K; discriminate K|]); split; assumption.
Qed.

Lemma use_inv : forall p e p', pairs_use p e = Ok p' -> pairs_inv p -> fine e -> pairs_inv p' /\ ~ no_value p'.
Proof.
  intros p e p' H (U & A & M & X) F. unfold pairs_use in H. destruct (p_mode p) eqn:Em; try discriminate H; injection H as <-.
  split; [|intros [_ K]; cbn in K; destruct (p_exprs p); discriminate K].
  split; [cbn; congruence|]. split; [intros d _ K; cbn in K; congruence|]. split; [exact M|].
  cbn. apply Forall_app. split; [exact X|repeat constructor; apply F].
Qed.

Lemma fold_inv {A C} (step : A -> C -> res A) (good : C -> Prop) (gives : C -> bool) (P : A -> Prop) (N : A -> Prop) :
  (forall a c a', step a c = Ok a' -> good c -> P a -> P a' /\ (N a' <-> N a /\ gives c = false)) ->
  forall cs a a', fold_res step cs a = Ok a' -> Forall good cs -> P a -> P a' /\ (N a' <-> N a /\ existsb gives cs = false).
Proof.
  intro S. induction cs as [|c cs IH]; intros a a' H F Pa; cbn [fold_res] in H.
  - injection H as <-. split; [exact Pa|]. cbn. tauto.
  - inv_do H a1 E. inversion F; subst. destruct (S a c a1 E ltac:(assumption) Pa) as [P1 N1].
    destruct (IH a1 a' H ltac:(assumption) P1) as [P2 N2]. split; [exact P2|]. rewrite N2, N1. cbn [existsb].
    rewrite Bool.orb_false_iff. tauto.
Qed.

Lemma merge_pair_inv : forall p kv p', merge_pair p kv = Ok p' -> fine_value (snd kv) -> pairs_inv p ->
  pairs_inv p' /\ (no_value p' <-> no_value p /\ true = false).
Proof.
  intros p [k v] p' H F Hp. unfold merge_pair in H. cbn [fst snd] in *. inv_do H c Ec. inv_do H e Ee.
  destruct (add_inv _ _ _ _ H Hp) as [Q1 Q2]; [apply fine_wrapper; apply (fine_operand v e Ee); exact F|].
  split; [exact Q1|]. unfold no_value. split; [tauto|]. intros [_ K]. discriminate K.
Qed.

Lemma always {A} (l : list A) : existsb (fun _ => false) l = false.
Proof. induction l; [reflexivity|exact IHl]. Qed.

Lemma merge_arg_inv : forall p g p', merge_arg p g = Ok p' -> fine_arg g -> pairs_inv p ->
  pairs_inv p' /\ (no_value p' <-> no_value p /\ value_arg g = false).
Proof.
  intros p g p' H F Hp.
  assert (C : forall cols, fold_res pairs_set cols p = Ok p' -> pairs_inv p' /\ (no_value p' <-> no_value p /\ false = false)).
  { intros cols K. destruct (fold_inv pairs_set (fun _ => True) (fun _ => false) pairs_inv no_value
      (fun a c a' E _ Pa => set_inv a c a' E Pa) cols p p' K ltac:(apply Forall_forall; intros; exact I) Hp) as [Q1 Q2].
    rewrite always in Q2. tauto. }
  assert (M : forall l, fold_res merge_pair l p = Ok p' -> Forall (fun kv => fine_value (snd kv)) l ->
    pairs_inv p' /\ (no_value p' <-> no_value p /\ nonempty l = false)).
  { intros l K L. destruct (fold_inv merge_pair (fun kv => fine_value (snd kv)) (fun _ => true) pairs_inv no_value
      (fun a c a' E Fv Pa => merge_pair_inv a c a' E Fv Pa) l p p' K L Hp) as [Q1 Q2]. split; [exact Q1|]. rewrite Q2. destruct l; cbn; tauto. }
  destruct g; try discriminate H; cbn [merge_arg] in H.
  - inv_do H cols E. exact (C _ H).
  - destruct (M _ H) as [Q1 Q2].
    { apply Forall_forall. intros kv I. apply in_map_iff in I. destruct I as ([k v] & <- & I). apply F. eapply inside_map_any; [exact I|constructor]. }
    split; [exact Q1|]. rewrite Q2. destruct l; cbn; tauto.
  - destruct (M _ H) as [Q1 Q2].
    { apply Forall_forall. intros [k v] I. apply F. eapply inside_map; [exact I|constructor]. }
    split; [exact Q1|]. rewrite Q2. destruct l; cbn; tauto.
  - refine (merge_pair_inv p _ p' H _ Hp). apply F. constructor. constructor.
  - inv_do H cols E. exact (C _ H).
Qed.

Lemma merge_set_inv : forall args p p', merge_set p args = Ok p' -> Forall fine_arg args -> pairs_inv p ->
  pairs_inv p' /\ (no_value p' <-> no_value p /\ existsb value_arg args = false).
Proof. intros args p p' H F Hp. exact (fold_inv merge_arg fine_arg value_arg pairs_inv no_value merge_arg_inv args p p' H F Hp). Qed.

Lemma to_set_inv : forall args p, to_set args = Ok p -> Forall fine_arg args -> pairs_inv p.
Proof.
  intros args p H F. refine (proj1 (merge_set_inv args _ p H F _)). split; [discriminate|].
  split; [intros c []|]. split; constructor.
Qed.

Lemma pm_get_in : forall c m e, pm_get c m = Some e -> exists d, In (d, e) m.
Proof.
  intros c. induction m as [|[d e'] m IH]; intros e H; [discriminate H|]. cbn [pm_get] in H. destruct (col_eqb c d).
  - injection H as ->. exists d. left. reflexivity.
  - destruct (IH e H) as (d' & I). exists d'. right. exact I.
Qed.

Lemma pairs_whole : forall p, fine_pairs p -> ~ pairs_wrap_nil p /\ (pairs_gap p -> p_mode p = PUnknown \/ no_value p).
Proof.
  intros p (A & M & X). rewrite Forall_forall in M, X. split.
  - intros [K|K]; apply Exists_exists in K; destruct K as (x & I & W); [destruct (M x I)|destruct (X x I)]; contradiction.
  - intro G. unfold pairs_gap in G. unfold no_value. destruct (p_mode p) eqn:Em; [tauto| |].
    + destruct G as [G|(c & I & G)]; [tauto|]. exfalso. specialize (A c I eq_refl). destruct (pm_get c (p_map p)) as [e|] eqn:E; [|contradiction].
      destruct (pm_get_in _ _ _ E) as (d & Id). destruct (M _ Id). contradiction.
    + destruct G as [G|(e & I & G)]; [tauto|]. destruct (X e I). contradiction.
Qed.

(* ------------------------------------------------------------------------- *)
(* VALUES                                                                      *)
(* ------------------------------------------------------------------------- *)

Lemma element_fine : forall values, Forall fine_arg values -> Forall fine_value (elements values).
Proof.
  intros values F. apply Forall_forall. intros v I.
  assert (D : In v values -> fine_value v) by (intro K; rewrite Forall_forall in F; apply (F v K); constructor).
  destruct values as [|g [|g' values]]; [exact (D I)| |exact (D I)].
  assert (S : In v [g] -> fine_value v) by exact D. inversion F as [|? ? Fg _]; subst. clear D F.
  assert (B : forall (T : Type) (f : T -> gval) l, In v (map f l) -> (forall x, expr_of (f x) = None) -> fine_value v).
  { intros T f l K Q e E. apply in_map_iff in K. destruct K as (x & <- & Ix). rewrite Q in E. discriminate E. }
  unfold elements in I. destruct g; cbn [slice_elems] in I; try (exact (S I)); try (destruct I; fail);
    try (refine (B _ _ _ I _); reflexivity).
  - destruct k; try (exact (S I)); refine (B _ _ _ I _); reflexivity.
  - apply Fg. apply in_map_iff in I. destruct I as (e & <- & Ie). constructor. exact Ie.
  - apply Fg. eapply inside_anys; [exact I|constructor].
  - match type of I with context[GExpr ?x] => destruct x end; try (exact (S I)); destruct I.
Qed.

Lemma row_fine : forall g, fine_arg g -> Forall (Forall fine_arg) (row_elems g).
Proof.
  intros g F.
  assert (B : forall (T : Type) (f : T -> gval) l, (forall x v, inside v (f x) -> expr_of v = None) -> Forall (Forall fine_arg) (map (map f) l)).
  { intros T f l Q. apply Forall_forall. intros r Ir. apply in_map_iff in Ir. destruct Ir as (r' & <- & _).
    apply Forall_forall. intros x Ix. apply in_map_iff in Ix. destruct Ix as (y & <- & _). intros v Iv e E. rewrite (Q y v Iv) in E. discriminate E. }
  destruct g; cbn [row_elems]; try constructor; try (apply B; intros x v K; inversion K; reflexivity).
  - destruct k; try constructor; apply B; intros x v K; inversion K; reflexivity.
  - apply Forall_forall. intros r Ir. apply in_map_iff in Ir. destruct Ir as (r' & <- & Ir). apply Forall_forall. intros x Ix.
    apply in_map_iff in Ix. destruct Ix as (e & <- & Ie). intros v Iv. inversion Iv; subst. apply F. eapply inside_exprss; eassumption.
  - apply Forall_forall. intros r Ir. apply Forall_forall. intros x Ix v Iv. apply F. eapply inside_anyss; eassumption.
Qed.

Lemma fine_array_list : forall values e, new_array_list values = Ok e -> Forall fine_arg values -> fine e.
Proof.
  intros values e H F. unfold new_array_list in H. destruct values as [|v values]; [discriminate H|]. inv_do H l E.
  destruct (nonempty l) eqn:En.
  - injection H as <-. apply fine_rows. apply Forall_forall. intros x Ix. unfold to_array_list in E.
    destruct (map_res_in _ _ _ E x Ix) as (r & Ir & Er). apply (fine_new_array r x Er). apply element_fine.
    inversion F; subst. pose proof (row_fine v ltac:(assumption)) as R. rewrite Forall_forall in R. exact (R r Ir).
  - inv_do H a Ea. injection H as <-. apply fine_rows. constructor; [|constructor]. apply (fine_new_array _ a Ea). apply element_fine. exact F.
Qed.

(* ------------------------------------------------------------------------- *)
(* INSERT                                                                      *)
(* ------------------------------------------------------------------------- *)

Section Insert.
  Context {O : Oracle} (sorts : forall l, Permutation l (o_sort l)).

  Definition insert_ok (i : insert) : Prop :=
    t_name (i_into i) <> "" /\ (i_values i = ENil \/ fine (i_values i))
    /\ (forall p, i_conflict_action i = Some (ActUpdate p) -> fine_pairs p)
    /\ Forall fine_item (i_returning i).

  Lemma conflict_loop_fine : forall args target ta, on_conflict_loop args target = Ok ta ->
    Forall (fun g => match g with GConflictUpdate p => fine_pairs p | _ => True end) args ->
    forall p, snd ta = ActUpdate p -> fine_pairs p.
  Proof.
    induction args as [|g args IH]; intros target ta H F p E; cbn [on_conflict_loop] in H; [discriminate H|].
    inversion F; subst. destruct g; try discriminate H.
    - inv_do H cc Ec. exact (IH _ _ H ltac:(assumption) p E).
    - inv_do H cc Ec. exact (IH _ _ H ltac:(assumption) p E).
    - injection H as <-. discriminate E.
    - destruct (nonempty target); [|discriminate H]. injection H as <-. cbn in E. injection E as ->. assumption.
  Qed.

  Lemma pairs_values_fine : forall p ce, pairs_values p = Ok ce -> pairs_inv p -> Forall fine (snd ce).
  Proof.
    intros p ce H (_ & A & M & X). unfold pairs_values in H. rewrite Forall_forall in M.
    destruct (p_mode p); try (injection H as <-; exact X). inv_do H es E. injection H as <-. cbn [snd].
    apply Forall_forall. intros e I. destruct (map_res_in _ _ _ E e I) as (c & _ & K).
    destruct (pm_get c (p_map p)) as [e'|] eqn:G; [|discriminate K]. injection K as ->. destruct (pm_get_in _ _ _ G) as (d & Id). exact (M _ Id).
  Qed.

  Lemma ins_step_ok : forall i c i', ins_step i c = Ok i' -> ins_fine c -> insert_ok i -> insert_ok i'.
  Proof.
    intros i c i' H F (Hn & Hv & Hc & Hr). destruct i as [into cols va ct ca re co]. cbn in Hn, Hv, Hc, Hr. unfold insert_ok.
    destruct c; cbn [ins_step] in H; cbn [ins_fine] in F; cbn [i_into i_columns i_values i_returning i_conflict_action i_conflict_target] in H.
    - destruct (no_str (t_name into)) eqn:E; [|discriminate H]. apply no_str_true in E. contradiction.
    - destruct args as [|g args]; [injection H as <-; cbn; tauto|]. inv_do H x E. inv_do H x E'. injection H as <-. cbn. tauto.
    - inv_do H b E. inv_do H y E'. inv_do H e E''. injection H as <-. cbn. pose proof (fine_array_list _ _ E'' F). tauto.
    - inv_do H b E. inv_do H l E'. injection H as <-. cbn. pose proof (selexprs_fine _ _ E' F). tauto.
    - injection H as <-. cbn. tauto.
    - inv_do H b E. destruct args as [|g args]; [discriminate H|]. inv_do H ta E'. injection H as <-. cbn.
      split; [exact Hn|]. split; [exact Hv|]. split; [|exact Hr]. intros p K. injection K as K. exact (conflict_loop_fine _ _ _ E' F p K).
    - inv_do H b E. inv_do H x E'. inv_do H y E''. inv_do H p Ep. inv_do H ce Ec. inv_do H e Ee. injection H as <-. cbn.
      split; [exact Hn|]. split; [|tauto]. right. apply (fine_array_list _ _ Ee). constructor; [|constructor].
      pose proof (pairs_values_fine p ce Ec (to_set_inv _ _ Ep F)) as V. rewrite Forall_forall in V.
      intros v Iv. inversion Iv; subst; [intros e' K; discriminate K|]. intros e' K.
      assert (e' = e0) by (destruct e0; try discriminate K; injection K as <-; reflexivity). subst. apply V. assumption.
  Qed.

  Lemma insert_ok_whole : forall i, insert_ok i -> ~ lacks_part (StInsert i) /\ ~ stmt_wraps_nil (StInsert i).
  Proof.
    intros i (Hn & Hv & Hc & Hr). destruct (fine_item_ok _ Hr) as [R1 R2].
    assert (V : ~ clause_gap (i_values i) /\ ~ wraps_nil (i_values i)).
    { destruct Hv as [-> | [G W]]; [split; [intros [K _]; apply K; constructor|no_wrap]|]. split; [intros [_ K]; contradiction|exact W]. }
    cbn [lacks_part stmt_wraps_nil]. split.
    - intros [K|[K|[K|K]]]; try tauto. unfold conflict_gap in K. destruct (i_conflict_action i) as [[|p]|] eqn:E; try contradiction.
      destruct (pairs_whole p (Hc p eq_refl)) as [_ Q]. destruct K as (K1 & K2 & K3). destruct (Q K3) as [K|[Ka Kb]]; [contradiction|].
      rewrite Ka, Kb in K2. destruct K2; contradiction.
    - intros [K|[(p & E & K)|K]]; try tauto. exact (proj1 (pairs_whole p (Hc p E)) K).
  Qed.

  Lemma insert_chain_ok : forall g calls i0 i, lk_insert g = Ok i0 -> ins_run i0 calls = Ok i ->
    Forall ins_fine calls -> insert_ok i.
  Proof.
    intros g calls i0 i H0 H F. refine (fold_ok ins_step ins_fine insert_ok ins_step_ok calls i0 i H F _).
    unfold lk_insert in H0. cbn in H0. inv_do H0 t E. injection H0 as <-. unfold insert_ok. cbn.
    split; [|split; [tauto|split; [discriminate|constructor]]].
    unfold to_into in E. inv_do E t' Et. destruct (no_str (t_name t')) eqn:En; [discriminate E|]. injection E as <-. exact (no_str_false _ En).
  Qed.
End Insert.

(* ------------------------------------------------------------------------- *)
(* UPDATE                                                                      *)
(* ------------------------------------------------------------------------- *)

Definition update_ok (u : update) : Prop :=
  t_name (u_table u) <> "" /\ pairs_inv (u_set u) /\ Forall fine_with (u_with u) /\ ~ In FNil (u_from u)
  /\ condition_ok (u_where u) /\ Forall fine_item (u_returning u).

Lemma using_inv : forall args p p', fold_res (fun p g => do e <- new_expression g; pairs_use p e) args p = Ok p' ->
  Forall fine_arg args -> pairs_inv p -> pairs_inv p' /\ (no_value p' <-> no_value p /\ existsb (fun _ => true) args = false).
Proof.
  intros args p p' H F Hp.
  refine (fold_inv (fun p g => do e <- new_expression g; pairs_use p e) fine_arg (fun _ => true) pairs_inv no_value _ args p p' H F Hp).
  intros a g a' K Fg Pa. cbn beta in K. inv_do K e E. destruct (use_inv _ _ _ K Pa) as [Q1 Q2].
  - apply (fine_operand g e E). apply Fg. constructor.
  - split; [exact Q1|]. split; [tauto|]. intros [_ D]. discriminate D.
Qed.

Lemma upd_step_ok : forall u c u', upd_step u c = Ok u' -> upd_fine c -> update_ok u ->
  update_ok u' /\ (no_value (u_set u') <-> no_value (u_set u) /\ sets_value c = false).
Proof.
  intros u c u' H F (Hn & Hp & Hw & Hf & Hc & Hr). destruct u as [wi tb on fr st wh re co]. cbn in Hn, Hp, Hw, Hf, Hc, Hr. unfold update_ok.
  destruct c; cbn [upd_step] in H; cbn [upd_fine] in F; cbn [u_with u_table u_only u_from u_set u_where u_returning] in *.
  - injection H as <-. cbn. tauto.
  - destruct args as [|g args]; [discriminate H|]. inv_do H p E. injection H as <-. cbn [u_with u_table u_from u_set u_where u_returning upd_with_set sets_value].
    destruct (merge_set_inv _ _ _ E F Hp). tauto.
  - destruct (p_mode st); try discriminate H. destruct args as [|g args]; [discriminate H|]. inv_do H p E. injection H as <-.
    cbn [u_with u_table u_from u_set u_where u_returning upd_with_set sets_value].
    destruct (using_inv _ _ _ E F Hp) as [Q1 Q2]. cbn in Q2. tauto.
  - injection H as <-. cbn. assert (Forall fine_with (if nonempty wi then wi ++ args else args)) by
      (destruct (nonempty wi); [apply Forall_app; tauto|exact F]). tauto.
  - inv_do H x E. injection H as <-. cbn. pose proof (where_where_solid _ _ _ E Hc F). tauto.
  - inv_do H x E. injection H as <-. cbn. pose proof (where_and_solid _ _ _ E Hc F). tauto.
  - inv_do H x E. injection H as <-. cbn. pose proof (where_or_solid _ _ _ E Hc F). tauto.
  - inv_do H x E. inv_do H l E'. injection H as <-. cbn. pose proof (from_fine _ _ E' ltac:(repeat constructor; exact F)). tauto.
  - inv_do H x E. inv_do H l E'. injection H as <-. cbn. pose proof (selexprs_fine _ _ E' F). tauto.
  - injection H as <-. cbn. tauto.
Qed.

Lemma update_chain_ok : forall g calls u0 u, lk_update g = Ok u0 -> upd_run u0 calls = Ok u ->
  Forall upd_fine calls -> update_ok u /\ (no_value (u_set u) <-> existsb sets_value calls = false).
Proof.
  intros g calls u0 u H0 H F. unfold lk_update in H0. inv_do H0 t E. injection H0 as <-.
  assert (T : t_name t <> "").
  { unfold to_table in E. inv_do E t' Et. destruct (no_str (t_name t')) eqn:En; [discriminate E|]. injection E as <-. exact (no_str_false _ En). }
  unfold upd_run in H.
  destruct (fold_inv upd_step upd_fine sets_value update_ok (fun u => no_value (u_set u)) upd_step_ok calls _ u H F) as [Q1 Q2].
  - unfold update_ok, pairs_inv, fine_pairs, condition_ok. cbn. repeat split; try tauto; try constructor; intros c [].
  - split; [exact Q1|]. rewrite Q2. cbn. unfold no_value. cbn. tauto.
Qed.

Lemma update_ok_whole : forall u, update_ok u ->
  (lacks_part (StUpdate u) <-> no_value (u_set u)) /\ ~ stmt_wraps_nil (StUpdate u).
Proof.
  intros u (Hn & [Hu Hp] & Hw & Hf & Hc & Hr). destruct (fine_item_ok _ Hr) as [R1 R2]. destruct (pairs_whole _ Hp) as [P1 P2].
  pose proof (condition_no_gap _ Hc) as C1. pose proof (condition_no_wrap _ Hc) as C2. rewrite Forall_forall in Hw.
  assert (W1 : ~ Exists with_gap (u_with u)) by (intro K; apply Exists_exists in K; destruct K as (q & I & K); destruct (Hw q I); contradiction).
  assert (W2 : ~ Exists (fun q => wraps_nil (wq_sub q)) (u_with u)) by (intro K; apply Exists_exists in K; destruct K as (q & I & K); destruct (Hw q I); contradiction).
  cbn [lacks_part stmt_wraps_nil]. split; [|tauto]. split.
  - intros [K|[K|K]]; [contradiction| |tauto]. destruct (P2 K) as [Em|N]; [|exact N].
    exact (proj2 (Hu Em)).
  - intro N. right; left. unfold pairs_gap. destruct (p_mode (u_set u)); [exact I|left; exact N|left; exact N].
Qed.
