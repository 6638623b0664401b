(* Update builders over the memory: what one call gives and what it does to its receiver, in any
   reachable memory. *)
From Coq Require Import Lia Permutation Arith List String.
From Verif Require Import Ast Write Api Parser Build Sort Mem Forks MemP ForksP UpdForksP.
Import ListNotations.
Local Open Scope list_scope.

(* p is the result of calls on p0: it has the same map, and at least the elements of p0. *)
Record grown (h0 : upd_heap) (p0 : pairs_ref) (h : upd_heap) (p : pairs_ref) : Prop := {
  gr_map : pr_map p = pr_map p0;
  gr_own : owned h p;
  gr_kept : forall q, owned h0 q -> owned h q;
  gr_cols : view (uh_cols h) (pr_cols p0) = view (uh_cols h0) (pr_cols p0);
  gr_exprs : view (uh_exprs h) (pr_exprs p0) = view (uh_exprs h0) (pr_exprs p0);
  gr_lcols : sl_len (pr_cols p0) <= sl_len (pr_cols p);
  gr_lexprs : sl_len (pr_exprs p0) <= sl_len (pr_exprs p);
  gr_withs : uh_withs h = uh_withs h0 }.

Definition gives (h0 : upd_heap) (p0 : pairs_ref) (hr : upd_heap * res pairs_ref) (r : res pairs) : Prop :=
  match hr, r with
  | (h', Ok p'), Ok u' => u' = pairs_view h' p' /\ grown h0 p0 h' p'
  | (h', Panic e), Panic e' => e = e' /\ exists p', grown h0 p0 h' p'
  | _, _ => False
  end.

Lemma grown_refl : forall h p, owned h p -> grown h p h p.
Proof. intros h p O. split; try reflexivity; [exact O|intros q H; exact H]. Qed.

Section Steps.
  Context (g : growth) (h0 : upd_heap) (p0 : pairs_ref) (O0 : owned h0 p0).

  Lemma add_gives : forall h p c e, grown h0 p0 h p -> gives h0 p0 (ref_add g h p c e) (pairs_add (pairs_view h p) c e).
  Proof.
    intros h p c e G. pose proof G as [Gm [Om Oc Oe] Gk Gc Ge Lc Le Gw]. unfold ref_add, pairs_add.
    cbn [pairs_view p_mode p_map p_exprs p_cols].
    assert (Good : forall m, gives h0 p0
       (let a := match pm_get c (nth (pr_map p) (uh_maps h) []) with
               | Some _ => (uh_cols h, pr_cols p)
               | None => append zero_column (g_cols g) (uh_cols h) (pr_cols p) [c]
               end in
        (set_maps (set_cols h (fst a)) (store (uh_maps h) (pr_map p) (pm_set c e (nth (pr_map p) (uh_maps h) []))),
         Ok {| pr_mode := m; pr_map := pr_map p; pr_cols := snd a; pr_exprs := pr_exprs p |}))
       (Ok {| p_mode := m; p_map := pm_set c e (nth (pr_map p) (uh_maps h) []);
              p_cols := match pm_get c (nth (pr_map p) (uh_maps h) []) with
                        | Some _ => view (uh_cols h) (pr_cols p) | None => view (uh_cols h) (pr_cols p) ++ [c] end;
              p_exprs := view (uh_exprs h) (pr_exprs p) |})).
    { intro m. cbv zeta. unfold gives.
      assert (A : forall a, a = match pm_get c (nth (pr_map p) (uh_maps h) []) with
               | Some _ => (uh_cols h, pr_cols p)
               | None => append zero_column (g_cols g) (uh_cols h) (pr_cols p) [c]
               end ->
         view (fst a) (snd a) = match pm_get c (nth (pr_map p) (uh_maps h) []) with
                        | Some _ => view (uh_cols h) (pr_cols p) | None => view (uh_cols h) (pr_cols p) ++ [c] end
         /\ valid (fst a) (snd a) /\ sl_len (pr_cols p) <= sl_len (snd a)
         /\ (forall t, valid (uh_cols h) t -> valid (fst a) t)
         /\ view (fst a) (pr_cols p0) = view (uh_cols h) (pr_cols p0)).
      { intros a ->. destruct (pm_get c _); cbn [fst snd].
        - split; [reflexivity|]. split; [exact Oc|]. split; [lia|]. split; [intros t V; exact V|reflexivity].
        - destruct (append_view zero_column (g_cols g) (uh_cols h) (pr_cols p) [c] Oc) as (W & V & L). cbv zeta in *.
          split; [exact W|]. split; [exact V|]. split; [lia|]. split; [intros t Vt; apply append_valid; assumption|].
          apply append_others; [exact Oc|apply (Gk p0 O0)|]. right. right. exact Lc. }
      destruct (A _ eq_refl) as (A1 & A2 & A3 & A4 & A5). split.
      - unfold pairs_view. cbn [set_maps set_cols uh_maps uh_cols uh_exprs pr_mode pr_map pr_cols pr_exprs].
        rewrite nth_store_eq by exact Om. rewrite A1. reflexivity.
      - split; cbn [set_maps set_cols uh_maps uh_cols uh_exprs uh_withs pr_mode pr_map pr_cols pr_exprs]; try assumption.
        + split; cbn [set_maps set_cols uh_maps uh_cols uh_exprs uh_withs pr_mode pr_map pr_cols pr_exprs];
            [rewrite store_length; exact Om|exact A2|exact Oe].
        + intros q Hq. destruct (Gk q Hq) as [Q1 Q2 Q3].
          split; cbn [set_maps set_cols uh_maps uh_cols uh_exprs uh_withs]; [rewrite store_length; exact Q1|apply A4; exact Q2|exact Q3].
        + rewrite A5. exact Gc.
        + lia. }
    destruct (pr_mode p); try apply Good. split; [reflexivity|]. exists p. exact G.
  Qed.

  Lemma set_gives : forall h p c, grown h0 p0 h p -> gives h0 p0 (ref_set g h p c) (pairs_set (pairs_view h p) c).
  Proof.
    intros h p c G. pose proof G as [Gm [Om Oc Oe] Gk Gc Ge Lc Le Gw]. unfold ref_set, pairs_set.
    cbn [pairs_view p_mode p_map p_exprs p_cols].
    destruct (append_view zero_column (g_cols g) (uh_cols h) (pr_cols p) [c] Oc) as (W & V & L). cbv zeta in *.
    assert (Good : gives h0 p0 (set_cols h (fst (append zero_column (g_cols g) (uh_cols h) (pr_cols p) [c])),
        Ok {| pr_mode := PArray; pr_map := pr_map p; pr_cols := snd (append zero_column (g_cols g) (uh_cols h) (pr_cols p) [c]); pr_exprs := pr_exprs p |})
        (Ok {| p_mode := PArray; p_map := nth (pr_map p) (uh_maps h) []; p_cols := view (uh_cols h) (pr_cols p) ++ [c];
               p_exprs := view (uh_exprs h) (pr_exprs p) |})).
    { split.
      - unfold pairs_view. cbn [set_cols uh_maps uh_cols uh_exprs pr_mode pr_map pr_cols pr_exprs]. rewrite W. reflexivity.
      - split; cbn [set_cols uh_maps uh_cols uh_exprs uh_withs pr_mode pr_map pr_cols pr_exprs]; try assumption.
        + split; assumption.
        + intros q Hq. destruct (Gk q Hq) as [Q1 Q2 Q3].
          split; cbn [set_cols uh_maps uh_cols uh_exprs uh_withs]; [exact Q1|apply append_valid; assumption|exact Q3].
        + rewrite <- Gc. apply append_others; [exact Oc|apply (Gk p0 O0)|]. right. right. exact Lc.
        + lia. }
    destruct (pr_mode p); [exact Good| |exact Good]. split; [reflexivity|]. exists p. exact G.
  Qed.

  Lemma use_gives : forall h p e, grown h0 p0 h p -> gives h0 p0 (ref_use g h p e) (pairs_use (pairs_view h p) e).
  Proof.
    intros h p e G. pose proof G as [Gm [Om Oc Oe] Gk Gc Ge Lc Le Gw]. unfold ref_use, pairs_use.
    cbn [pairs_view p_mode p_map p_exprs p_cols].
    destruct (append_view ENil (g_exprs g) (uh_exprs h) (pr_exprs p) [e] Oe) as (W & V & L). cbv zeta in *.
    destruct (pr_mode p); [split; [reflexivity|]; exists p; exact G..|]. split.
    - unfold pairs_view. cbn [set_exprs uh_maps uh_cols uh_exprs pr_mode pr_map pr_cols pr_exprs]. rewrite W. reflexivity.
    - split; cbn [set_exprs uh_maps uh_cols uh_exprs uh_withs pr_mode pr_map pr_cols pr_exprs]; try assumption.
      + split; assumption.
      + intros q Hq. destruct (Gk q Hq) as [Q1 Q2 Q3].
        split; cbn [set_exprs uh_maps uh_cols uh_exprs uh_withs]; [exact Q1|exact Q2|apply append_valid; assumption].
      + rewrite <- Ge. apply append_others; [exact Oe|apply (Gk p0 O0)|]. right. right. exact Le.
      + lia.
  Qed.

  Lemma loop_gives {B} (f : upd_heap -> pairs_ref -> B -> upd_heap * res pairs_ref) (f' : pairs -> B -> res pairs) :
    (forall h p x, grown h0 p0 h p -> gives h0 p0 (f h p x) (f' (pairs_view h p) x)) ->
    forall l h p, grown h0 p0 h p -> gives h0 p0 (ref_loop f l h p) (fold_res f' l (pairs_view h p)).
  Proof.
    intros Hf. induction l as [|x l IH]; intros h p G; cbn [ref_loop fold_res].
    - split; [reflexivity|exact G].
    - specialize (Hf h p x G). unfold gives in Hf. destruct (f h p x) as [h1 [p1|e]]; destruct (f' (pairs_view h p) x) as [u1|e']; try contradiction Hf; cbn [bind].
      + destruct Hf as [-> G1]. apply IH. exact G1.
      + exact Hf.
  Qed.

  Lemma panic_gives : forall h p e, grown h0 p0 h p -> gives h0 p0 (h, Panic e) (Panic e).
  Proof. intros h p e G. split; [reflexivity|]. exists p. exact G. Qed.

  Lemma pair_gives : forall h p kv, grown h0 p0 h p -> gives h0 p0 (ref_pair g h p kv) (merge_pair (pairs_view h p) kv).
  Proof.
    intros h p kv G. unfold ref_pair, merge_pair.
    destruct (to_column (fst kv)); cbn [bind]; [|apply panic_gives with p; exact G].
    destruct (new_expression (snd kv)); cbn [bind]; [|apply panic_gives with p; exact G].
    apply add_gives; exact G.
  Qed.

  Lemma arg_gives : forall h p a, grown h0 p0 h p -> gives h0 p0 (ref_arg g h p a) (merge_arg (pairs_view h p) a).
  Proof.
    intros h p a G. destruct a; cbn [ref_arg merge_arg]; try (apply panic_gives with p; exact G).
    all: try (apply (loop_gives _ _ pair_gives); exact G).
    all: try (apply pair_gives; exact G).
    all: destruct (to_columns [_]); cbn [bind]; [|apply panic_gives with p; exact G]; apply (loop_gives _ _ set_gives); exact G.
  Qed.

  Lemma using_gives : forall h p a, grown h0 p0 h p ->
    gives h0 p0 (ref_using g h p a) (do e <- new_expression a; pairs_use (pairs_view h p) e).
  Proof.
    intros h p a G. unfold ref_using. destruct (new_expression a); cbn [bind]; [|apply panic_gives with p; exact G].
    apply use_gives; exact G.
  Qed.
End Steps.

Definition upd_valid (h : upd_heap) (b : upd_ref) : Prop := owned h (ur_set b) /\ valid (uh_withs h) (ur_withs b).

(* A statement with another map behind the same columns. *)
Definition with_map (u : update) (m : list (column * expr)) : update :=
  upd_with_set u {| p_mode := p_mode (u_set u); p_map := m; p_cols := p_cols (u_set u); p_exprs := p_exprs (u_set u) |}.

Section Do.
  Context {O : Oracle} (g : growth).

  Lemma upd_do_step : forall h b c, upd_valid h b ->
    (forall t, upd_valid h t -> upd_valid (fst (upd_do g h b c)) t)
    /\ match snd (upd_do g h b c) with
       | Ok b1 => upd_step (upd_view h b) c = Ok (upd_view (fst (upd_do g h b c)) b1)
                  /\ upd_valid (fst (upd_do g h b c)) b1
                  /\ upd_view (fst (upd_do g h b c)) b = with_map (upd_view h b) (p_map (u_set (upd_view (fst (upd_do g h b c)) b1)))
       | Panic e => upd_step (upd_view h b) c = Panic e
                    /\ exists m, upd_view (fst (upd_do g h b c)) b
                         = with_map (upd_view h b) m
       end.
  Proof.
    intros h b c [Vo Vw].
    assert (Lift : forall hr r, gives h (ur_set b) hr r ->
      let x := (fst hr, map_ok (upd_ref_set b) (snd hr)) in
      (forall t, upd_valid h t -> upd_valid (fst x) t)
      /\ match snd x with
         | Ok b1 => (do p <- r; Ok (upd_with_set (upd_view h b) p)) = Ok (upd_view (fst x) b1) /\ upd_valid (fst x) b1
                    /\ upd_view (fst x) b = with_map (upd_view h b) (p_map (u_set (upd_view (fst x) b1)))
         | Panic e => (do p <- r; Ok (upd_with_set (upd_view h b) p)) = Panic e
                    /\ exists m, upd_view (fst x) b
                         = with_map (upd_view h b) m
         end).
    { intros [h' [p'|e]] [u'|e'] G; cbn [gives] in G; try contradiction G; cbv zeta; cbn [fst snd map_ok bind].
      - destruct G as [-> [Gm Go Gk Gc Ge _ _ Gw]]. split; [|split; [|split]].
        + intros t [T1 T2]. split; [apply Gk; exact T1|rewrite Gw; exact T2].
        + unfold upd_view. cbn [upd_ref_set ur_set ur_rest ur_withs]. rewrite Gw. reflexivity.
        + split; [exact Go|]. cbn [upd_ref_set ur_withs]. rewrite Gw. exact Vw.
        + unfold with_map, upd_view, pairs_view. cbn [upd_ref_set ur_set ur_rest ur_withs upd_with_with upd_with_set u_set p_mode p_map p_cols p_exprs].
          rewrite Gc, Ge, Gm, Gw. reflexivity.
      - destruct G as [-> (p' & [Gm Go Gk Gc Ge _ _ Gw])]. split; [|split; [reflexivity|]].
        + intros t [T1 T2]. split; [apply Gk; exact T1|rewrite Gw; exact T2].
        + exists (nth (pr_map (ur_set b)) (uh_maps h') []). unfold with_map, upd_view, pairs_view. rewrite Gc, Ge, Gw. reflexivity. }
    assert (Bad : forall e, (forall t, upd_valid h t -> upd_valid h t)
      /\ Panic e = Panic (A := update) e /\ exists m, upd_view h b
                         = with_map (upd_view h b) m).
    { intro e. split; [intros t H; exact H|]. split; [reflexivity|]. exists (nth (pr_map (ur_set b)) (uh_maps h) []). reflexivity. }
    destruct (writes_shared c) eqn:W.
    - destruct c; try discriminate W.
      + destruct args as [|a args]; [apply Bad|]. cbn [upd_do upd_step]. unfold merge_set.
        apply Lift. apply (loop_gives h (ur_set b) _ _ (arg_gives g h (ur_set b) Vo)). apply grown_refl. exact Vo.
      + cbn [upd_do upd_step]. assert (M : p_mode (u_set (upd_view h b)) = pr_mode (ur_set b)) by reflexivity. rewrite M.
        pose proof (Lift _ _ (loop_gives h (ur_set b) _ (fun p a => do e <- new_expression a; pairs_use p e) (using_gives g h (ur_set b) Vo) args h (ur_set b) (grown_refl _ _ Vo))) as X.
        clear Lift M. destruct (pr_mode (ur_set b)); [apply Bad..|]. destruct args as [|a args]; [apply Bad|]. exact X.
      + cbn [upd_do upd_step fst snd].
        set (a := if (sl_len (ur_withs b) =? 0)%nat then make_slice (uh_withs h) args
                  else append zero_withq (g_withs g) (uh_withs h) (ur_withs b) args).
        assert (Vn : valid (fst a) (snd a) /\ view (fst a) (snd a) = (if nonempty (u_with (upd_view h b)) then u_with (upd_view h b) ++ args else args)
                  /\ (forall t, valid (uh_withs h) t -> valid (fst a) t) /\ view (fst a) (ur_withs b) = view (uh_withs h) (ur_withs b)).
        { pose proof (view_length _ _ Vw) as L. unfold upd_view. cbn [upd_with_with u_with]. unfold a. destruct (sl_len (ur_withs b) =? 0)%nat eqn:Z.
          - apply Nat.eqb_eq in Z. assert (nonempty (view (uh_withs h) (ur_withs b)) = false) as ->
              by (destruct (view (uh_withs h) (ur_withs b)); [reflexivity|cbn in L; lia]).
            destruct (make_view (uh_withs h) args) as (V & Va & _). split; [exact Va|]. split; [exact V|].
            split; [intros t Vt; apply make_others; exact Vt|apply make_others; exact Vw].
          - apply Nat.eqb_neq in Z. assert (nonempty (view (uh_withs h) (ur_withs b)) = true) as ->
              by (destruct (view (uh_withs h) (ur_withs b)); [cbn in L; lia|reflexivity]).
            destruct (append_view zero_withq (g_withs g) (uh_withs h) (ur_withs b) args Vw) as (V & Va & _).
            split; [exact Va|]. split; [exact V|]. split; [intros t Vt; apply append_valid; assumption|].
            apply append_others; [exact Vw|exact Vw|]. right. right. apply le_n. }
        destruct Vn as (Va & V & Vt & Vb). split; [|split; [|split]].
        * intros t [[T1 T2 T3] T4]. split; [split; assumption|apply Vt; exact T4].
        * rewrite <- V. unfold upd_view, pairs_view. reflexivity.
        * destruct Vo. split; [split; assumption|exact Va].
        * unfold with_map, upd_view, pairs_view. cbn [set_withs uh_withs uh_maps uh_cols uh_exprs upd_with_with upd_with_set u_set ur_set ur_rest ur_withs p_mode p_map p_cols p_exprs].
          rewrite Vb. reflexivity.
    - assert (Ed : upd_do g h b c = (h, map_ok (fun u' => {| ur_rest := u'; ur_set := ur_set b; ur_withs := ur_withs b |}) (upd_step (ur_rest b) c))).
      { destruct c; try discriminate W; unfold upd_do; destruct (upd_step _ _); reflexivity. }
      rewrite Ed. cbn [fst snd]. split; [intros t H; exact H|].
      assert (Es : upd_step (upd_view h b) c
        = map_ok (fun u' => upd_with_with (upd_with_set u' (pairs_view h (ur_set b))) (view (uh_withs h) (ur_withs b))) (upd_step (ur_rest b) c))
        by (apply upd_step_shared; exact W).
      rewrite Es. destruct (upd_step (ur_rest b) c) as [u'|e]; cbn [map_ok].
      + split; [reflexivity|]. split; [split; assumption|]. reflexivity.
      + apply (Bad e).
  Qed.

  Lemma upd_show_valid : (forall l, Permutation l (o_sort l)) -> forall h b t, upd_valid h b -> upd_valid h t -> upd_valid (fst (upd_show h b)) t.
  Proof.
    intros C h b t [[B1 B2 B3] _] [[T1 T2 T3] T4]. unfold upd_show. cbn [fst]. destruct (pr_mode (ur_set b)); [split; [split|]; assumption| |split; [split|]; assumption].
    split; [|exact T4]. split; [exact T1| |exact T3]. cbn [set_cols uh_cols].
    set (s := pr_cols (ur_set b)) in *. destruct T2 as [Z|(P & L & N)]; [left; exact Z|]. right. rewrite store_length. split; [exact P|]. split; [|exact N].
    destruct (Nat.eq_dec (sl_ptr s) (sl_ptr (pr_cols (ur_set t)))) as [E|E].
    - rewrite <- E. rewrite nth_store_eq by (rewrite E; exact P). rewrite app_length, skipn_length.
      rewrite <- (Permutation_length (C (view (uh_cols h) s))). unfold view. rewrite firstn_length. rewrite E. rewrite L. lia.
    - rewrite nth_store_ne by exact E. exact L.
  Qed.
End Do.
