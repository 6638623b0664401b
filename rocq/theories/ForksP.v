(* Programs with several Select builders print what they would print if builders were values,
   as long as no version of a shared slice is extended twice. *)
From Coq Require Import String List Arith ZArith Lia.
From Verif Require Import Ast Write Api Parser Build Mem Forks MemP.
Import ListNotations.
Local Open Scope list_scope.
Local Open Scope nat_scope.

(* ------------------------------------------------------------------------- *)
(* Steps                                                                       *)
(* ------------------------------------------------------------------------- *)

Lemma sel_join_value : forall q args,
  sel_join q args = map_ok (fun j => with_joins q (s_joins q ++ [j])) (join_value args).
Proof.
  intros q args. unfold sel_join, join_value.
  assert (A : forall j, add_join q j = map_ok (fun j => with_joins q (s_joins q ++ [j]))
    (do b <- join_empty j; if b then Panic (undefined "join clause") else Ok j)).
  { intro j. unfold add_join. destruct (join_empty j) as [[|]|]; reflexivity. }
  destruct args as [|a0 [|a1 [|a2 [|a3 args]]]]; try reflexivity.
  - destruct a0; try reflexivity; cbn [bind]; [|apply A]. destruct (must_parse_join s); cbn [bind]; [apply A|reflexivity].
  - destruct (handle_join a0 a1); cbn [bind]; [apply A|reflexivity].
  - destruct (handle_join a0 a1); cbn [bind]; [|reflexivity]. destruct a2; try reflexivity. cbn [bind]. apply A.
Qed.

Definition plain_call (c : sel_call) : bool :=
  match c with SelJoin _ | SelOrderBy _ | SelWith _ => false | _ => true end.

Lemma sel_step_shared : forall q js os ws c, plain_call c = true ->
  sel_step (with_shared q js os ws) c = map_ok (fun q' => with_shared q' js os ws) (sel_step q c).
Proof.
  intros q js os ws c P. destruct c; cbn [plain_call] in P; try discriminate P; cbn [sel_step];
    cbn [with_shared with_with with_order_by with_joins s_group_by s_from s_where s_having s_limit s_offset s_exprs];
    repeat match goal with
           | |- context [if ?x then _ else _] => destruct x
           | |- context [bind ?x _] => destruct x; cbn [bind]
           end; try reflexivity.
Qed.

(* ------------------------------------------------------------------------- *)
(* The invariant                                                               *)
(* ------------------------------------------------------------------------- *)

Definition same_rest (r : option sel_ref) (v : option select) : Prop :=
  match r, v with
  | None, None => True
  | Some b, Some q => q = with_shared (sr_rest b) (s_joins q) (s_order_by q) (s_with q)
  | _, _ => False
  end.

Definition of_ref (f : sel_ref -> slice) (r : option sel_ref) : slice :=
  match r with Some b => f b | None => nil_slice end.
Definition of_val {A} (f : select -> list A) (v : option select) : list A :=
  match v with Some q => f q | None => [] end.

Definition next_origin (f : part) (vers : list origin) (i : nat) (c : sel_call) : origin :=
  if adds f c then
    match nth i vers Never with
    | Never => match f with Withs => Literal | _ => Grown (length vers) end
    | _ => Grown (length vers)
    end
  else nth i vers Never.
Definition next_used (f : part) (vers : list origin) (used : list nat) (i : nat) (c : sel_call) : list nat :=
  if adds f c then match nth i vers Never with Grown k => k :: used | _ => used end else used.

Lemma once_call : forall f vers used i c p, once f vers used (Call i c :: p) ->
  (adds f c = true -> match nth i vers Never with Grown k => ~ In k used | _ => True end)
  /\ once f (vers ++ [next_origin f vers i c]) (next_used f vers used i c) p.
Proof.
  intros f vers used i c p H. cbn [once] in H. unfold next_origin, next_used.
  destruct (adds f c); [|split; [discriminate|exact H]].
  destruct (nth i vers Never); [split; [intros _; exact I|exact H]..|].
  destruct H as [H1 H2]. split; [intros _; exact H1|exact H2].
Qed.

Record related (h : sel_heap) (regs : list (option sel_ref)) (vals : list (option select))
    (vj vo vw : list origin) (uj uo uw : list nat) : Prop := {
  rel_rest : Forall2 same_rest regs vals;
  rel_joins : inv (sh_joins h) (map (of_ref sr_joins) regs) (map (of_val s_joins) vals) vj uj;
  rel_orders : inv (sh_orders h) (map (of_ref sr_orders) regs) (map (of_val s_order_by) vals) vo uo;
  rel_withs : inv (sh_withs h) (map (of_ref sr_withs) regs) (map (of_val s_with) vals) vw uw }.

Lemma Forall2_nth {A B} (R : option A -> option B -> Prop) : R None None ->
  forall l l' i, Forall2 R l l' -> R (nth i l None) (nth i l' None).
Proof.
  intros N l l' i H. revert i. induction H as [|x y l l' Hx _ IH]; intros [|i]; cbn; auto.
Qed.

Lemma Forall2_snoc {A B} (R : A -> B -> Prop) : forall l l' x y, Forall2 R l l' -> R x y ->
  Forall2 R (l ++ [x]) (l' ++ [y]).
Proof. intros l l' x y H Hx. apply Forall2_app; [exact H|constructor; [exact Hx|constructor]]. Qed.

Lemma nth_of_ref : forall f regs i, nth i (map (of_ref f) regs) nil_slice = of_ref f (nth i regs None).
Proof. intros f regs i. change nil_slice with (of_ref f None). apply map_nth. Qed.
Lemma nth_of_val {A} : forall (f : select -> list A) vals i, nth i (map (of_val f) vals) [] = of_val f (nth i vals None).
Proof. intros f vals i. change (@nil A) with (of_val f None). apply map_nth. Qed.

Lemma rel_view : forall h regs vals vj vo vw uj uo uw i b q,
  related h regs vals vj vo vw uj uo uw -> nth i regs None = Some b -> nth i vals None = Some q ->
  sel_view h b = q /\ i < length vj /\ i < length vo /\ i < length vw.
Proof.
  intros h regs vals vj vo vw uj uo uw i b q [R J O W] Eb Eq.
  assert (L : i < length regs).
  { destruct (le_lt_dec (length regs) i) as [L|L]; [|exact L]. rewrite nth_overflow in Eb by exact L. discriminate Eb. }
  pose proof (inv_sl _ _ _ _ _ J) as Lj. pose proof (inv_sl _ _ _ _ _ O) as Lo. pose proof (inv_sl _ _ _ _ _ W) as Lw.
  rewrite map_length in Lj, Lo, Lw.
  assert (A : sel_view h b = q).
  { pose proof (Forall2_nth same_rest I regs vals i R) as S. rewrite Eb, Eq in S. cbn in S.
    pose proof (inv_view _ _ _ _ _ J i ltac:(lia)) as Vj. rewrite nth_of_ref, nth_of_val, Eb, Eq in Vj.
    pose proof (inv_view _ _ _ _ _ O i ltac:(lia)) as Vo. rewrite nth_of_ref, nth_of_val, Eb, Eq in Vo.
    pose proof (inv_view _ _ _ _ _ W i ltac:(lia)) as Vw. rewrite nth_of_ref, nth_of_val, Eb, Eq in Vw.
    cbn [of_ref of_val] in Vj, Vo, Vw. unfold sel_view. rewrite Vj, Vo, Vw. symmetry. exact S. }
  split; [exact A|lia].
Qed.

Lemma origin_below_nth {A} : forall h (sl : list slice) (vals : list (list A)) vers used i,
  inv h sl vals vers used -> origin_below (S (length vers)) (nth i vers Never).
Proof.
  intros h sl vals vers used i [_ _ _ (F & If & _)].
  destruct (le_lt_dec (length vers) i) as [L|L]; [rewrite nth_overflow by exact L; exact I|].
  destruct (If i L) as [_ _ O]. destruct (nth i vers Never); cbn; [exact I..|lia].
Qed.

Lemma next_origin_below {A} : forall f h (sl : list slice) (vals : list (list A)) vers used i c,
  inv h sl vals vers used -> origin_below (S (length vers)) (next_origin f vers i c).
Proof.
  intros f h sl vals vers used i c H. unfold next_origin. destruct (adds f c).
  - destruct (nth i vers Never); [destruct f| |]; cbn; (exact I || lia).
  - apply (origin_below_nth h sl vals vers used). exact H.
Qed.

Lemma next_used_incl : forall f vers used i c, incl used (next_used f vers used i c).
Proof.
  intros f vers used i c. unfold next_used. destruct (adds f c); [|apply incl_refl].
  destruct (nth i vers Never); [apply incl_refl..|apply incl_tl, incl_refl].
Qed.

(* A command that gives no builder. *)
Lemma rel_dead : forall h regs vals vj vo vw uj uo uw i c,
  related h regs vals vj vo vw uj uo uw ->
  related h (regs ++ [None]) (vals ++ [None])
    (vj ++ [next_origin Joins vj i c]) (vo ++ [next_origin Orders vo i c]) (vw ++ [next_origin Withs vw i c])
    (next_used Joins vj uj i c) (next_used Orders vo uo i c) (next_used Withs vw uw i c).
Proof.
  intros h regs vals vj vo vw uj uo uw i c [R J O W]. split.
  - apply Forall2_snoc; [exact R|exact I].
  - rewrite !map_app. apply inv_dead with (used := uj); [exact J|apply next_used_incl|eapply next_origin_below; exact J|reflexivity..].
  - rewrite !map_app. apply inv_dead with (used := uo); [exact O|apply next_used_incl|eapply next_origin_below; exact O|reflexivity..].
  - rewrite !map_app. apply inv_dead with (used := uw); [exact W|apply next_used_incl|eapply next_origin_below; exact W|reflexivity..].
Qed.

Lemma next_plain : forall f vers used i c, adds f c = false ->
  next_origin f vers i c = nth i vers Never /\ next_used f vers used i c = used.
Proof. intros f vers used i c E. unfold next_origin, next_used. rewrite E. split; reflexivity. Qed.

(* The three parts, for a command that gives a builder. *)
Lemma part_copy {A} (pr : sel_ref -> slice) (pv : select -> list A) : forall f h regs vals vers used i c b q b' q',
  inv h (map (of_ref pr) regs) (map (of_val pv) vals) vers used -> i < length vers ->
  nth i regs None = Some b -> nth i vals None = Some q -> pr b' = pr b -> pv q' = pv q ->
  adds f c = false ->
  inv h (map (of_ref pr) (regs ++ [Some b'])) (map (of_val pv) (vals ++ [Some q']))
    (vers ++ [next_origin f vers i c]) (next_used f vers used i c).
Proof.
  intros f h regs vals vers used i c b q b' q' J L Eb Eq Er Ev Ad.
  destruct (next_plain f vers used i c Ad) as [-> ->].
  rewrite !map_app. cbn [map of_ref of_val]. rewrite Er, Ev.
  pose proof (inv_copy h _ _ vers used i J L) as C. rewrite nth_of_ref, nth_of_val, Eb, Eq in C. exact C.
Qed.

Lemma part_append {A} (zero : A) grow (pr : sel_ref -> slice) (pv : select -> list A) :
  forall f h regs vals vers used i c b q b' q' xs,
  inv h (map (of_ref pr) regs) (map (of_val pv) vals) vers used -> i < length vers ->
  nth i regs None = Some b -> nth i vals None = Some q -> xs <> [] ->
  pr b' = snd (append zero grow h (pr b) xs) -> pv q' = pv q ++ xs ->
  adds f c = true -> match nth i vers Never with Grown k => ~ In k used | _ => True end ->
  (f = Withs -> nth i vers Never <> Never) ->
  inv (fst (append zero grow h (pr b) xs)) (map (of_ref pr) (regs ++ [Some b'])) (map (of_val pv) (vals ++ [Some q']))
    (vers ++ [next_origin f vers i c]) (next_used f vers used i c).
Proof.
  intros f h regs vals vers used i c b q b' q' xs J L Eb Eq NE Er Ev Ad Fr Nv.
  assert (E1 : next_origin f vers i c = Grown (length vers)).
  { unfold next_origin. rewrite Ad. destruct (nth i vers Never); [|reflexivity..]. destruct f; [reflexivity..|].
    exfalso. exact (Nv eq_refl eq_refl). }
  assert (E2 : next_used f vers used i c = match nth i vers Never with Grown k => k :: used | _ => used end).
  { unfold next_used. rewrite Ad. reflexivity. }
  rewrite E1, E2, !map_app. cbn [map of_ref of_val]. rewrite Er, Ev.
  pose proof (inv_append zero grow h _ _ vers used i xs J L NE Fr) as C. cbv zeta in C.
  rewrite nth_of_ref, nth_of_val, Eb, Eq in C. exact C.
Qed.

Lemma run_related : forall g p h regs vals vj vo vw uj uo uw,
  related h regs vals vj vo vw uj uo uw ->
  once Joins vj uj p -> once Orders vo uo p -> once Withs vw uw p ->
  memory_run sel_new (sel_do g) (fun h b => (h, sel_view h b)) h regs p = value_run lk_select sel_step vals p.
Proof.
  intros g p. induction p as [|[a|i c|i] p IH]; intros h regs vals vj vo vw uj uo uw R Pj Po Pw; [reflexivity| | |].
  - cbn [memory_run value_run sel_new fst snd]. cbn [once] in Pj, Po, Pw.
    apply (IH h _ _ (vj ++ [Never]) (vo ++ [Never]) (vw ++ [Never]) uj uo uw); [|assumption..].
    destruct R as [R J O W].
    assert (D : forall A (vers : list origin) h0 sl (vls : list (list A)) used, inv h0 sl vls vers used ->
              inv h0 (sl ++ [nil_slice]) (vls ++ [[]]) (vers ++ [Never]) used).
    { intros A vers h0 sl vls used H. apply inv_dead with (used := used); [exact H|apply incl_refl|exact I|reflexivity..]. }
    unfold lk_select. cbn [sel_step]. destruct (to_selexprs _) as [es|e]; cbn [bind ok].
    + split; [apply Forall2_snoc; [exact R|reflexivity]|rewrite !map_app; apply D; assumption..].
    + split; [apply Forall2_snoc; [exact R|exact I]|rewrite !map_app; apply D; assumption..].
  - cbn [memory_run value_run].
    destruct (once_call _ _ _ _ _ _ Pj) as [Fj Pj']. destruct (once_call _ _ _ _ _ _ Po) as [Fo Po'].
    destruct (once_call _ _ _ _ _ _ Pw) as [Fw Pw'].
    pose proof (Forall2_nth same_rest I regs vals i (rel_rest _ _ _ _ _ _ _ _ _ R)) as S.
    destruct (nth i regs None) as [b|] eqn:Eb; destruct (nth i vals None) as [q|] eqn:Eq; try contradiction S.
    2:{ eapply IH; [exact (rel_dead _ _ _ _ _ _ _ _ _ i c R)|assumption..]. }
    destruct (rel_view _ _ _ _ _ _ _ _ _ i b q R Eb Eq) as (Vw & Lj & Lo & Lw).
    destruct (plain_call c) eqn:Pc.
    + (* fields that are assigned *)
      assert (Ed : sel_do g h b c = (h, map_ok (fun q' => {| sr_rest := q'; sr_joins := sr_joins b; sr_orders := sr_orders b; sr_withs := sr_withs b |}) (sel_step (sr_rest b) c))).
      { destruct c; cbn [plain_call] in Pc; try discriminate Pc; unfold sel_do; destruct (sel_step _ _); reflexivity. }
      rewrite Ed. cbn [fst snd]. cbn in S. rewrite S at 1. rewrite (sel_step_shared _ _ _ _ c Pc).
      assert (Ad : forall f, adds f c = false) by (intro f; destruct f, c; cbn in Pc |- *; (reflexivity || discriminate Pc)).
      destruct (sel_step (sr_rest b) c) as [q'|e]; cbn [map_ok ok].
      2:{ eapply IH; [exact (rel_dead _ _ _ _ _ _ _ _ _ i c R)|assumption..]. }
      eapply IH; [|exact Pj'|exact Po'|exact Pw'].
      destruct R as [R J O W]. split.
      * apply Forall2_snoc; [exact R|]. reflexivity.
      * eapply part_copy; [exact J|exact Lj|exact Eb|exact Eq|reflexivity|reflexivity|apply Ad].
      * eapply part_copy; [exact O|exact Lo|exact Eb|exact Eq|reflexivity|reflexivity|apply Ad].
      * eapply part_copy; [exact W|exact Lw|exact Eb|exact Eq|reflexivity|reflexivity|apply Ad].
    + destruct c; try discriminate Pc.
      * (* Join *)
        cbn [sel_do sel_step]. rewrite sel_join_value.
        destruct (join_value args) as [j|e]; cbn [map_ok ok fst snd].
        2:{ eapply IH; [exact (rel_dead _ _ _ _ _ _ _ _ _ i (SelJoin args) R)|assumption..]. }
        eapply IH; [|exact Pj'|exact Po'|exact Pw']. destruct R as [R J O W]. split; cbn [sh_joins sh_orders sh_withs].
        -- apply Forall2_snoc; [exact R|]. cbn in S |- *. rewrite S. reflexivity.
        -- eapply (part_append zero_join (g_joins g) sr_joins s_joins Joins);
             [exact J|exact Lj|exact Eb|exact Eq|discriminate|reflexivity|reflexivity|reflexivity|apply Fj; reflexivity|discriminate].
        -- eapply part_copy; [exact O|exact Lo|exact Eb|exact Eq|reflexivity|reflexivity|reflexivity].
        -- eapply part_copy; [exact W|exact Lw|exact Eb|exact Eq|reflexivity|reflexivity|reflexivity].
      * (* With *)
        cbn [sel_do sel_step ok fst snd].
        eapply IH; [|exact Pj'|exact Po'|exact Pw']. destruct R as [R J O W]. split; cbn [sh_joins sh_orders sh_withs].
        -- apply Forall2_snoc; [exact R|]. cbn in S |- *. rewrite S. reflexivity.
        -- eapply part_copy; [exact J|exact Lj|exact Eb|exact Eq|reflexivity|reflexivity|reflexivity].
        -- eapply part_copy; [exact O|exact Lo|exact Eb|exact Eq|reflexivity|reflexivity|reflexivity].
        -- pose proof (inv_shares _ _ _ _ _ W) as (F & If & _). destruct (If i Lw) as [Vs _ Os].
           rewrite nth_of_ref, Eb in Vs, Os. cbn [of_ref] in Vs, Os.
           pose proof (inv_view _ _ _ _ _ W i Lw) as Vi. rewrite nth_of_ref, nth_of_val, Eb, Eq in Vi. cbn [of_ref of_val] in Vi.
           pose proof (view_length _ _ Vs) as Vl. rewrite Vi in Vl.
           destruct (sl_len (sr_withs b) =? 0) eqn:Z.
           ++ apply Nat.eqb_eq in Z.
              assert (Ne : nonempty (s_with q) = false) by (destruct (s_with q); [reflexivity|cbn in Vl; lia]).
              rewrite Ne. rewrite !map_app. cbn [map of_ref of_val sr_withs s_with with_with].
              destruct args as [|x args].
              ** cbn [make_slice fst snd]. apply inv_dead with (used := uw);
                   [apply inv_garbage; exact W|apply next_used_incl|eapply next_origin_below; exact W|reflexivity..].
              ** apply inv_make with (used := uw); [exact W|apply next_used_incl|].
                 unfold next_origin. cbn [adds]. destruct (nth i vw Never); [left; reflexivity|right; reflexivity..].
           ++ apply Nat.eqb_neq in Z.
              assert (Ne : nonempty (s_with q) = true) by (destruct (s_with q); [cbn in Vl; lia|reflexivity]).
              rewrite Ne. destruct args as [|x args].
              ** rewrite append_nothing by exact Vs. cbn [fst snd].
                 eapply part_copy; [exact W|exact Lw|exact Eb|exact Eq|reflexivity|cbn; apply app_nil_r|reflexivity].
              ** eapply (part_append zero_withq (g_withs g) sr_withs s_with Withs);
                   [exact W|exact Lw|exact Eb|exact Eq|discriminate|reflexivity|reflexivity|reflexivity|apply Fw; reflexivity|].
                 intros _ En. rewrite En in Os. pose proof (valid_le _ _ Vs). lia.
      * (* OrderBy *)
        cbn [sel_do sel_step ok fst snd].
        eapply IH; [|exact Pj'|exact Po'|exact Pw']. destruct R as [R J O W]. split; cbn [sh_joins sh_orders sh_withs].
        -- apply Forall2_snoc; [exact R|]. cbn in S |- *. rewrite S. reflexivity.
        -- eapply part_copy; [exact J|exact Lj|exact Eb|exact Eq|reflexivity|reflexivity|reflexivity].
        -- destruct orders as [|x orders].
           ++ pose proof (inv_shares _ _ _ _ _ O) as (F & If & _). destruct (If i Lo) as [Vs _ Os].
              rewrite nth_of_ref, Eb in Vs. cbn [of_ref] in Vs. rewrite append_nothing by exact Vs. cbn [fst snd].
              eapply part_copy; [exact O|exact Lo|exact Eb|exact Eq|reflexivity|cbn; apply app_nil_r|reflexivity].
           ++ eapply (part_append zero_order (g_orders g) sr_orders s_order_by Orders);
                [exact O|exact Lo|exact Eb|exact Eq|discriminate|reflexivity|reflexivity|reflexivity|apply Fo; reflexivity|discriminate].
        -- eapply part_copy; [exact W|exact Lw|exact Eb|exact Eq|reflexivity|reflexivity|reflexivity].
  - cbn [memory_run value_run fst snd]. cbn [once] in Pj, Po, Pw.
    pose proof (Forall2_nth same_rest I regs vals i (rel_rest _ _ _ _ _ _ _ _ _ R)) as S.
    destruct (nth i regs None) as [b|] eqn:Eb; destruct (nth i vals None) as [q|] eqn:Eq; try contradiction S.
    + destruct (rel_view _ _ _ _ _ _ _ _ _ i b q R Eb Eq) as (Vw & _). rewrite Vw. f_equal.
      eapply IH; [exact R|assumption..].
    + f_equal. eapply IH; [exact R|assumption..].
Qed.

Lemma select_values : forall g p, appends_once Joins p -> appends_once Orders p -> appends_once Withs p ->
  sel_memory g p = sel_values p.
Proof.
  intros g p J O W. apply (run_related g p _ _ _ [] [] [] [] [] []); [|assumption..].
  split; [constructor|apply inv_start..].
Qed.

(* ------------------------------------------------------------------------- *)
(* Programs that satisfy the condition                                         *)
(* ------------------------------------------------------------------------- *)

(* If a builder is the receiver of at most one call, versions are extended at most once. *)
Lemma once_linear_from : forall f p vers used done,
  NoDup (receivers p) -> (forall i, In i (receivers p) -> ~ In i done) ->
  (forall k, In k used -> k < length vers) ->
  (forall r k, nth r vers Never = Grown k -> k < length vers /\ (~ In r done -> ~ In k used)) ->
  (forall r1 r2 k, ~ In r1 done -> ~ In r2 done ->
     nth r1 vers Never = Grown k -> nth r2 vers Never = Grown k -> r1 = r2) ->
  once f vers used p.
Proof.
  intros f p. induction p as [|[a|i c|i] p IH]; intros vers used done ND Di Us Hk Hu; [exact I| | |].
  - cbn [once receivers] in *.
    assert (Old : forall r k, nth r (vers ++ [Never]) Never = Grown k -> nth r vers Never = Grown k).
    { intros r k E. destruct (lt_eq_lt_dec r (length vers)) as [[L| ->]|L].
      - rewrite nth_snoc_lt in E by exact L. exact E.
      - rewrite nth_snoc_eq in E by reflexivity. discriminate E.
      - rewrite nth_overflow in E by (rewrite app_length; cbn; lia). discriminate E. }
    apply (IH _ _ done); [exact ND|exact Di| | |].
    + intros k H. rewrite app_length. specialize (Us k H). lia.
    + intros r k E. rewrite app_length. destruct (Hk r k (Old r k E)). split; [lia|assumption].
    + intros r1 r2 k N1 N2 E1 E2. apply (Hu r1 r2 k); auto.
  - cbn [receivers] in ND, Di. inversion ND as [|? ? NI ND']; subst.
    assert (Ni : ~ In i done) by (apply Di; left; reflexivity).
    assert (Di' : forall j, In j (receivers p) -> ~ In j (i :: done)).
    { intros j Hj [-> | H]; [exact (NI Hj)|]. exact (Di j (or_intror Hj) H). }
    (* one more register, with origin [o] *)
    assert (Next : forall o used',
      (forall k, In k used' -> In k used \/ nth i vers Never = Grown k) ->
      (forall k, o = Grown k -> (k = length vers \/ nth i vers Never = Grown k) /\ ~ In k used') ->
      once f (vers ++ [o]) used' p).
    { intros o used' Hus Ho. apply (IH _ _ (i :: done)); [exact ND'|exact Di'| | |].
      - intros k H. rewrite app_length. destruct (Hus k H) as [H'|H']; [specialize (Us k H'); lia|destruct (Hk _ _ H'); lia].
      - intros r k E. rewrite app_length. destruct (lt_eq_lt_dec r (length vers)) as [[L| ->]|L].
        + rewrite nth_snoc_lt in E by exact L. destruct (Hk r k E) as [Lk Nk]. split; [lia|].
          intros Nr H. destruct (Hus k H) as [H'|H'].
          * apply Nk; [|exact H']. intro I0. apply Nr. right. exact I0.
          * apply Nr. left. apply (Hu i r k); [exact Ni| |exact H'|exact E]. intro I0. apply Nr. right. exact I0.
        + rewrite nth_snoc_eq in E by reflexivity. destruct (Ho k E) as [[-> | Ek] Nk]; (split; [|intros _; exact Nk]).
          * cbn. lia.
          * destruct (Hk _ _ Ek). lia.
        + rewrite nth_overflow in E by (rewrite app_length; cbn; lia). discriminate E.
      - assert (Mix : forall r k, r < length vers -> ~ In r (i :: done) -> nth r vers Never = Grown k -> o = Grown k -> False).
        { intros r k L Nr E Eo. destruct (Ho k Eo) as [[-> | Ek] _].
          - destruct (Hk r _ E). lia.
          - apply Nr. left. apply (Hu i r k); [exact Ni| |exact Ek|exact E]. intro I0. apply Nr. right. exact I0. }
        intros r1 r2 k N1 N2 E1 E2.
        destruct (lt_eq_lt_dec r1 (length vers)) as [[L1| ->]|L1];
          [rewrite nth_snoc_lt in E1 by exact L1|rewrite nth_snoc_eq in E1 by reflexivity|rewrite nth_overflow in E1 by (rewrite app_length; cbn; lia); discriminate E1];
        (destruct (lt_eq_lt_dec r2 (length vers)) as [[L2| ->]|L2];
          [rewrite nth_snoc_lt in E2 by exact L2|rewrite nth_snoc_eq in E2 by reflexivity|rewrite nth_overflow in E2 by (rewrite app_length; cbn; lia); discriminate E2]).
        + apply (Hu r1 r2 k); [intro I0; apply N1; right; exact I0|intro I0; apply N2; right; exact I0|exact E1|exact E2].
        + exfalso. exact (Mix r1 k L1 N1 E1 E2).
        + exfalso. exact (Mix r2 k L2 N2 E2 E1).
        + reflexivity. }
    assert (Fresh : forall k, k = length vers -> ~ In k used) by (intros k -> H; specialize (Us _ H); lia).
    cbn [once]. destruct (adds f c).
    + destruct (nth i vers Never) as [| |k] eqn:Ei.
      * apply Next; [intros k H; left; exact H|]. intros k E.
        assert (k = length vers) as -> by (destruct f; [injection E as <-; reflexivity..|discriminate E]).
        split; [left; reflexivity|apply Fresh; reflexivity].
      * apply Next; [intros k H; left; exact H|]. intros k E. injection E as <-. split; [left; reflexivity|apply Fresh; reflexivity].
      * destruct (Hk i k Ei) as [Lk Nk]. split; [apply Nk; exact Ni|].
        apply Next; [intros k' [<- | H]; [right; reflexivity|left; exact H]|].
        intros k' E. injection E as <-. split; [left; reflexivity|]. intros [H | H]; [lia|]. exact (Fresh _ eq_refl H).
    + apply Next; [intros k H; left; exact H|]. intros k E. split; [right; exact E|]. apply (Hk i k E). exact Ni.
  - cbn [once receivers] in *. apply (IH _ _ done); assumption.
Qed.

Lemma once_linear : forall f p, NoDup (receivers p) -> appends_once f p.
Proof.
  intros f p ND. apply (once_linear_from f p [] [] []); [exact ND|intros i _ []|intros k []| |].
  - intros [|r] k E; discriminate E.
  - intros [|r1] r2 k _ _ E; discriminate E.
Qed.

(* No call of [p] extends part [f]. *)
Definition extends_nothing (f : part) (p : list sel_cmd) : Prop :=
  forall i c, In (Call i c) p -> adds f c = false.

Lemma once_nothing : forall f p vers used, extends_nothing f p -> once f vers used p.
Proof.
  intros f p. induction p as [|[a|i c|i] p IH]; intros vers used N; cbn [once]; [exact I| | |].
  - apply IH. intros j d H. apply (N j d). right. exact H.
  - rewrite (N i c (or_introl eq_refl)). apply IH. intros j d H. apply (N j d). right. exact H.
  - apply IH. intros j d H. apply (N j d). right. exact H.
Qed.

Lemma once_app : forall f p p' vers used, once f vers used p -> extends_nothing f p' -> once f vers used (p ++ p').
Proof.
  intros f p p'. induction p as [|[a|i c|i] p IH]; intros vers used H N.
  - apply once_nothing. exact N.
  - cbn [app once] in *. apply IH; assumption.
  - cbn [app once] in *. destruct (adds f c); [|apply IH; assumption].
    destruct (nth i vers Never); [apply IH; assumption..|]. destruct H as [H1 H2]. split; [exact H1|apply IH; assumption].
  - cbn [app once] in *. apply IH; assumption.
Qed.
