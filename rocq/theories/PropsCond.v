(* C11, C13-C16, C42: conditions and the WHERE clause. *)
From Verif Require Import WhereP Sort.

(* ------------------------------------------------------------------------- *)
(* C11                                                                         *)
(* ------------------------------------------------------------------------- *)

(* Where(e) on a builder without condition: the rendered WHERE clause reads back as the tree
   that the calls describe, with every operand replaced by the value given by the caller. *)
Theorem C11_structure_read_back {O : Oracle} : forall s c e s',
  has_where_methods s = true -> where_of s = ENil ->
  builds c e -> clean plain_name c = true ->
  call_where s KWhere e = Ok s' -> is_ok (query s) = true ->
  where_reads s' (meant c).
Proof.
  intros s c e s' Hs Hw B C Hcall Hq. destruct (builds_where _ _ B C) as [K Wr].
  rewrite call_first in Hcall; [|exact Hs|apply kept_nil, K|rewrite Hw; reflexivity].
  injection Hcall as <-. rewrite Wr. apply reads; [exact Hs|exact B|exact C|].
  rewrite <- Hw, set_where_of. rewrite query_template in Hq. destruct (template s); [reflexivity|discriminate].
Qed.
Print Assumptions C11_structure_read_back.

(* The call itself never panics. *)
Theorem C11_where_accepts {O : Oracle} : forall s c e,
  has_where_methods s = true -> where_of s = ENil -> builds c e -> clean plain_name c = true ->
  is_ok (call_where s KWhere e) = true.
Proof.
  intros s c e Hs Hw B C. destruct (builds_where _ _ B C) as [K Wr].
  rewrite call_first; [reflexivity|exact Hs|apply kept_nil, K|rewrite Hw; reflexivity].
Qed.
Print Assumptions C11_where_accepts.

(* Every clean condition can be built. *)
Fixpoint build (c : cond) : res expr :=
  match c with
  | Cmp x o v => cmp_expr (lk_condition (GStr x)) o v
  | In_ false x vs => expr_in (lk_condition (GStr x)) vs
  | In_ true x vs => expr_not_in (lk_condition (GStr x)) vs
  | Between false x a b => ident_between (GStr x) a b
  | Between true x a b => ident_not_between (GStr x) a b
  | And_ l r => do a <- build l; do b <- build r; Ok (lk_and a b)
  | Or_ l r => do a <- build l; do b <- build r; Ok (lk_or a b)
  end.

Theorem C11_buildable {O : Oracle} : forall c, clean plain_name c = true -> exists e, build c = Ok e /\ builds c e.
Proof.
  induction c as [x o v|g x vs|g x a b|l IHl r IHr|l IHl r IHr]; intro C; cbn [clean build] in *.
  - apply andb_prop in C as [_ Hv]. pose proof (plain_cmp (lk_condition (GStr x)) o v Hv) as E.
    eexists. split; [exact E|]. apply b_cmp, E.
  - apply andb_prop in C as [C Hn]. apply andb_prop in C as [_ Hv].
    assert (N : exists a, new_array vs = Ok a) by (eexists; apply plain_array; [exact Hv|];
      destruct vs as [|[] []]; try discriminate; reflexivity).
    destruct N as [a Ea]. destruct g; unfold expr_in, expr_not_in; rewrite Ea; cbn [bind];
      eexists; (split; [reflexivity|]); [apply b_not_in|apply b_in]; unfold expr_in, expr_not_in; rewrite Ea; reflexivity.
  - apply andb_prop in C as [C Hb]. apply andb_prop in C as [_ Ha].
    destruct g; unfold ident_between, ident_not_between; rewrite (plain_new a Ha), (plain_new b Hb); cbn [bind];
      eexists; (split; [reflexivity|]); [apply b_not_between|apply b_between];
      unfold ident_between, ident_not_between; rewrite (plain_new a Ha), (plain_new b Hb); reflexivity.
  - apply andb_prop in C as [Cl Cr]. destruct (IHl Cl) as (a & Ea & Ba), (IHr Cr) as (b & Eb & Bb).
    rewrite Ea, Eb. eexists. split; [reflexivity|]. apply b_and; assumption.
  - apply andb_prop in C as [Cl Cr]. destruct (IHl Cl) as (a & Ea & Ba), (IHr Cr) as (b & Eb & Bb).
    rewrite Ea, Eb. eexists. split; [reflexivity|]. apply b_or; assumption.
Qed.
Print Assumptions C11_buildable.

(* (a = 1 OR b IN (2, NULL)) AND NOT BETWEEN ..., nested three deep, in a DELETE *)
Definition cond3 : cond :=
  And_ (Or_ (Cmp "t.a" OpEqual (GInt KInt 1)) (In_ false "b" [GInt KInt 2; GNil; GStr "x"]))
       (And_ (Between true "c" (GInt KInt 5) (GInt KInt 9))
             (Or_ (Cmp "d" OpIsNotDistinctFrom GNil) (Cmp "e" OpNotILike (GStr "y%")))).

Example C11_example : clean (@plain_name go_oracle) cond3 = true.
Proof. vm_compute. reflexivity. Qed.
Example C11_example_text :
  (do e <- build cond3;
   do d <- lk_delete (GStr "users");
   do s <- call_where (StDelete d) KWhere e;
   query (O := go_oracle) s)
  = Ok ("DELETE FROM ""users"" WHERE (((""t"".""a"" = $1) OR (""b"" IN ($2, NULL, $3))) AND ((""c"" NOT BETWEEN $4 AND $5) AND ((""d"" IS NOT DISTINCT FROM NULL) OR (""e"" NOT ILIKE $6))))"%string,
        [GInt KInt 1; GInt KInt 2; GStr "x"; GInt KInt 5; GInt KInt 9; GStr "y%"]).
Proof. vm_compute. reflexivity. Qed.
(* The reader is not indifferent to precedence: on a text without parentheses the two
   precedences give different trees. *)
Example C11_reader_sees_precedence :
  read_cond true "(""a"" = $1) OR (""b"" = $2) AND (""c"" = $3)"
  = Some (LOr (LCmp ["a"%string] "=" (PArg 1)) (LAnd (LCmp ["b"%string] "=" (PArg 2)) (LCmp ["c"%string] "=" (PArg 3))), ""%string)
  /\ read_cond false "(""a"" = $1) OR (""b"" = $2) AND (""c"" = $3)"
  = Some (LAnd (LOr (LCmp ["a"%string] "=" (PArg 1)) (LCmp ["b"%string] "=" (PArg 2))) (LCmp ["c"%string] "=" (PArg 3)), ""%string).
Proof. vm_compute. split; reflexivity. Qed.

(* ------------------------------------------------------------------------- *)
(* C13                                                                         *)
(* ------------------------------------------------------------------------- *)

(* For any conditions at all (raw SQL, subqueries, calls, ...) that are not empty: the WHERE
   clause of Where(c0).op1(c1)...opk(ck) is ((c0 op1 c1) op2 c2)..., with Where meaning And
   from the second call on. *)
Theorem C13_chain_left_associated {O : Oracle} : forall s c0 q0 l,
  has_where_methods s = true -> where_of s = ENil -> is_ok (query s) = true ->
  cond_empty c0 = Ok false -> own_sql c0 = Ok q0 ->
  Forall (fun kcq => cond_empty (snd (fst kcq)) = Ok false /\ own_sql (snd (fst kcq)) = Ok (snd kcq)) l ->
  exists s', call_chain s ((KWhere, c0) :: map fst l) = Ok s'
    /\ where_is s' (chain_sql q0 (map (fun kcq => (fst (fst kcq), snd kcq)) l)).
Proof.
  intros s c0 q0 l Hs Hw Hq K0 Q0 Hl. cbn [call_chain].
  rewrite call_first; [|exact Hs|apply kept_nil, K0|rewrite Hw; reflexivity]. cbn [bind].
  destruct (chain_ok l (set_where s (new_wrapper c0)) q0) as (e & E1 & E2 & E3).
  - rewrite has_set_where. exact Hs.
  - rewrite where_of_set by exact Hs. unfold cond_empty in *. rewrite wrapper_nil, wrapper_empty. exact K0.
  - rewrite where_of_set by exact Hs. rewrite wrapper_sql. exact Q0.
  - exact Hl.
  - rewrite E1. eexists. split; [reflexivity|]. rewrite set_set_where.
    rewrite query_template in Hq. destruct (template s) as [base|] eqn:Hb; [|discriminate].
    rewrite <- (set_where_of s), Hw in Hb.
    destruct (template_where s e _ base Hs E2 E3 Hb) as (pre & post & Eb & Et).
    exists pre, post. rewrite set_set_where, Hb, Eb, Et. auto.
Qed.
Print Assumptions C13_chain_left_associated.

(* Calling Where again is calling And. *)
Theorem C13_where_again_is_and : forall s c,
  has_where_methods s = true -> is_nil c = false -> cond_empty (where_of s) = Ok false ->
  call_where s KWhere c = call_where s KAnd c.
Proof. intros s c Hs Hc He. rewrite !call_next by assumption. reflexivity. Qed.
Print Assumptions C13_where_again_is_and.

(* And or Or without a previous condition panics. *)
Theorem C13_needs_first : forall s k c,
  k <> KWhere -> cond_empty (where_of s) = Ok true -> is_ok (call_where s k c) = false.
Proof.
  intros [q|i|u|d] k c Hk He; destruct k; try congruence; cbn [call_where where_of sel_step upd_step del_step] in *;
    try reflexivity; unfold where_and, where_or; rewrite He; cbn [bind];
    try (destruct (is_nil c); reflexivity); reflexivity.
Qed.
Print Assumptions C13_needs_first.

(* For readable conditions the chain is read back as the left-associated tree. *)
Theorem C13_chain_read_back {O : Oracle} : forall s c0 e0 l,
  has_where_methods s = true -> where_of s = ENil -> is_ok (query s) = true ->
  builds c0 e0 -> clean plain_name c0 = true ->
  Forall (fun kec => builds (snd kec) (snd (fst kec)) /\ clean plain_name (snd kec) = true) l ->
  exists s', call_chain s ((KWhere, e0) :: map fst l) = Ok s'
    /\ where_reads s' (chain_tree (meant c0) (map (fun kec => (fst (fst kec), meant (snd kec))) l)).
Proof.
  intros s c0 e0 l Hs Hw Hq B C Hl. destruct (builds_where _ _ B C) as [K Wr]. cbn [call_chain].
  rewrite call_first; [|exact Hs|apply kept_nil, K|rewrite Hw; reflexivity]. cbn [bind]. rewrite Wr.
  destruct (chain_builds l (set_where s e0) c0) as (e & c & X1 & X2 & X3 & X4).
  - rewrite has_set_where. exact Hs.
  - rewrite where_of_set by exact Hs. exact B.
  - exact C.
  - exact Hl.
  - rewrite X1, set_set_where. eexists. split; [reflexivity|]. rewrite <- X4. apply reads; auto.
    rewrite <- Hw, set_where_of. rewrite query_template in Hq. destruct (template s); [reflexivity|discriminate].
Qed.
Print Assumptions C13_chain_read_back.

Example C13_example :
  (do u <- lk_update (GStr "users");
   do u <- upd_step u (UpdSet [GPair (GStr "a") (GInt KInt 7)]);
   do c0 <- cmp_expr (lk_condition (GStr "x")) OpEqual (GInt KInt 1);
   do c1 <- expr_in (lk_condition (GStr "y")) [GInts KInt [2; 3]%Z];
   do s <- call_chain (StUpdate u) [(KWhere, c0); (KOr, c1); (KWhere, lk_raw "z IS TRUE")];
   query (O := go_oracle) s)
  = Ok ("UPDATE ""users"" SET ""a"" = $1 WHERE (((""x"" = $2) OR (""y"" IN ($3, $4))) AND z IS TRUE)"%string,
        [GInt KInt 7; GInt KInt 1; GInt KInt 2; GInt KInt 3]).
Proof. vm_compute. reflexivity. Qed.

(* ------------------------------------------------------------------------- *)
(* C14                                                                         *)
(* ------------------------------------------------------------------------- *)

(* Let s have the conditions of a chain, and s' be s with one more. For every row (every
   meaning m of the atoms), And only removes the row, and Or only adds it; the two trees are
   those of the two rendered texts. *)
Theorem C14_and_narrows_or_widens {O : Oracle} : forall s c e c1 e1,
  has_where_methods s = true -> is_ok (template (set_where s ENil)) = true ->
  where_of s = e -> builds c e -> clean plain_name c = true ->
  builds c1 e1 -> clean plain_name c1 = true ->
  exists before, where_reads s before
    /\ (forall k, k <> KOr -> exists s' after, call_where s k e1 = Ok s' /\ where_reads s' after
          /\ forall m, selects m after -> selects m before)
    /\ (exists s' after, call_where s KOr e1 = Ok s' /\ where_reads s' after
          /\ forall m, selects m before -> selects m after).
Proof.
  intros s c e c1 e1 Hs Hok He B C B1 C1. destruct (builds_where _ _ B C) as [K Wr].
  destruct (builds_where _ _ B1 C1) as [K1 Wr1].
  exists (meant c). split; [rewrite <- (set_where_of s), He; apply reads; assumption|].
  split; [intros k Hk|].
  - exists (set_where s (joined k e e1)), (LAnd (meant c) (meant c1)).
    split; [rewrite call_next, He; [reflexivity|exact Hs|apply kept_nil, K1|rewrite He; exact K]|].
    split.
    + change (LAnd (meant c) (meant c1)) with (meant (And_ c c1)). apply reads; auto.
      * unfold joined. rewrite Wr1. destruct k; try congruence; apply b_and; assumption.
      * cbn [clean]. rewrite C, C1. reflexivity.
    + intros m H. unfold selects in *. cbn [truth] in H.
      destruct (truth m (meant c)), (truth m (meant c1)); cbn in H; congruence.
  - exists (set_where s (joined KOr e e1)), (LOr (meant c) (meant c1)).
    split; [rewrite call_next, He; [reflexivity|exact Hs|apply kept_nil, K1|rewrite He; exact K]|].
    split.
    + change (LOr (meant c) (meant c1)) with (meant (Or_ c c1)). apply reads; auto.
      * unfold joined. rewrite Wr1. apply b_or; assumption.
      * cbn [clean]. rewrite C, C1. reflexivity.
    + intros m H. unfold selects in *. cbn [truth]. rewrite H. reflexivity.
Qed.
Print Assumptions C14_and_narrows_or_widens.

Example C14_example : exists e e1,
  builds (Cmp "x" OpEqual (GInt KInt 1)) e /\ builds (In_ true "y" [GNil; GStr "z"]) e1
  /\ is_ok (template (O := go_oracle) (set_where (StDelete {| d_from := [FTable (lk_table "t")]; d_using := []; d_where := e; d_returning := []; d_comment := "" |}) ENil)) = true
  /\ clean (@plain_name go_oracle) (And_ (Cmp "x" OpEqual (GInt KInt 1)) (In_ true "y" [GNil; GStr "z"])) = true.
Proof.
  eexists. eexists. split; [apply b_cmp; vm_compute; reflexivity|].
  split; [apply b_not_in; vm_compute; reflexivity|]. split; vm_compute; reflexivity.
Qed.
(* With NULLs, neither inclusion is an equality and the middle value matters. *)
Example C14_three_valued :
  tri_and U F = F /\ tri_and U T = U /\ tri_or U T = T /\ tri_or U F = U.
Proof. repeat split. Qed.

(* ------------------------------------------------------------------------- *)
(* C15                                                                         *)
(* ------------------------------------------------------------------------- *)

Definition occurs (small big : sql) : Prop := exists a b, big = (a ++ small ++ b)%list.

Lemma occurs_chain : forall l acc q, occurs q acc \/ In q (map snd l) -> occurs q (chain_sql acc l).
Proof.
  induction l as [|[k x] l IH]; intros acc q [H|H]; cbn [chain_sql map snd] in *; try (exact H || contradiction).
  - apply IH. left. destruct H as (a & b & ->). exists (lit "(" ++ a)%list, (b ++ lit (link_text k) ++ x ++ lit ")")%list.
    rewrite <- !app_assoc. reflexivity.
  - apply IH. destruct H as [->|H]; [left|right; exact H].
    exists (lit "(" ++ acc ++ lit (link_text k))%list, (lit ")"). rewrite <- !app_assoc. reflexivity.
Qed.

(* What holds: conditions that do not report IsEmpty() are all in the WHERE clause. Missing:
   the conditions that do, for which the property is false (see the refutations below). *)
Theorem C15_nonempty_conditions_kept_partial {O : Oracle} : forall s c0 q0 l,
  has_where_methods s = true -> where_of s = ENil -> is_ok (query s) = true ->
  cond_empty c0 = Ok false -> own_sql c0 = Ok q0 ->
  Forall (fun kcq => cond_empty (snd (fst kcq)) = Ok false /\ own_sql (snd (fst kcq)) = Ok (snd kcq)) l ->
  exists s' wh, call_chain s ((KWhere, c0) :: map fst l) = Ok s' /\ where_is s' wh
    /\ forall q, q = q0 \/ In q (map snd l) -> occurs q wh.
Proof.
  intros s c0 q0 l Hs Hw Hq K0 Q0 Hl.
  destruct (C13_chain_left_associated s c0 q0 l Hs Hw Hq K0 Q0 Hl) as (s' & E & W).
  exists s', (chain_sql q0 (map (fun kcq => (fst (fst kcq), snd kcq)) l)). split; [exact E|]. split; [exact W|].
  intros q H. apply occurs_chain. destruct H as [->|H].
  - left. exists [], []. rewrite app_nil_r. reflexivity.
  - right. rewrite map_map. exact H.
Qed.
Print Assumptions C15_nonempty_conditions_kept_partial.

(* Such a condition can be one that itself cannot be rendered; then rendering panics and no
   statement is produced. The empty ones are different: *)

(* Adding an empty condition with And, Or or a second Where removes the conditions given
   before: the statement renders as if Where had never been called. This is true of every
   statement and every empty condition (nil on Update and Delete). *)
Theorem C15_empty_condition_drops_all {O : Oracle} : forall s k c,
  has_where_methods s = true -> cond_empty (where_of s) = Ok false -> cond_empty c = Ok true ->
  match s with StSelect _ => is_nil c = false | _ => True end ->
  exists s', call_where s k c = Ok s' /\ template s' = template (set_where s ENil)
             /\ query s' = query (set_where s ENil) /\ to_string s' = to_string (set_where s ENil).
Proof.
  intros s k c Hs He Hc Hn.
  assert (E : call_where s k c = Ok (set_where s (joined k (where_of s) c))).
  { destruct s as [q|i|u|d]; try discriminate; destruct k; cbn [call_where where_of sel_step upd_step del_step] in *;
      unfold where_where, where_and, where_or; rewrite ?Hn, He; cbn [bind]; rewrite ?He; reflexivity. }
  assert (J : cond_empty (joined k (where_of s) c) = Ok true).
  { apply kept_nil in He. destruct He as [N0 E0]. unfold cond_empty, joined. cbn [is_nil is_empty].
    rewrite N0, wrapper_nil. unfold cond_empty in Hc. destruct (is_nil c); [reflexivity|].
    rewrite E0, wrapper_empty, Hc. destruct k; reflexivity. }
  exists (set_where s (joined k (where_of s) c)). split; [exact E|].
  unfold template, query, to_string. rewrite (write_no_where s _ Hs J). auto.
Qed.
Print Assumptions C15_empty_condition_drops_all.

(* The first Where with an empty condition sets none. *)
Theorem C15_empty_first_condition_ignored {O : Oracle} : forall s c,
  has_where_methods s = true -> where_of s = ENil -> cond_empty c = Ok true ->
  match s with StSelect _ => is_nil c = false | _ => True end ->
  exists s', call_where s KWhere c = Ok s' /\ query s' = query s.
Proof.
  intros s c Hs Hw Hc Hn. exists (set_where s (new_wrapper c)). split.
  - destruct s as [q|i|u|d]; try discriminate; cbn [call_where where_of sel_step upd_step del_step] in *;
      unfold where_where; rewrite ?Hn, Hw; reflexivity.
  - rewrite !query_template. rewrite template_no_where; [|exact Hs|].
    + rewrite <- Hw at 1. rewrite set_where_of. reflexivity.
    + unfold cond_empty in *. rewrite wrapper_nil, wrapper_empty. exact Hc.
Qed.
Print Assumptions C15_empty_first_condition_ignored.

(* Exactly what is kept. Each call is given a condition, which is empty (None) or has an SQL
   (Some q). The WHERE clause is made of the conditions given since the last empty one; the
   first of them must be given with Where. *)
Fixpoint where_left (w : option sql) (l : list (link * option sql)) : res (option sql) :=
  match l with
  | [] => Ok w
  | (k, c) :: l' =>
    match w, k with
    | None, KWhere => where_left c l'
    | None, _ => Panic (PMsg "two conditions are required")
    | Some a, _ =>
      where_left (match c with
                  | None => None
                  | Some q => Some (lit "(" ++ a ++ lit (link_text k) ++ q ++ lit ")")%list
                  end) l'
    end
  end.
Definition is_given {O : Oracle} (s : stmt) (c : expr) (g : option sql) : Prop :=
  match g with
  | Some q => cond_empty c = Ok false /\ own_sql c = Ok q
  | None => cond_empty c = Ok true /\ match s with StSelect _ => is_nil c = false | _ => True end
  end.

Theorem C15_exactly_partial {O : Oracle} : forall s l,
  has_where_methods s = true -> where_of s = ENil -> is_ok (query s) = true ->
  Forall (fun kcg => is_given s (snd (fst kcg)) (snd kcg)) l ->
  match where_left None (map (fun kcg => (fst (fst kcg), snd kcg)) l) with
  | Ok None => exists s', call_chain s (map fst l) = Ok s' /\ query s' = query s
  | Ok (Some wh) => exists s', call_chain s (map fst l) = Ok s' /\ where_is s' wh
  | Panic _ => is_ok (call_chain s (map fst l)) = false
  end.
Proof.
  intros s l Hs Hw Hq Hl.
  assert (R : forall l e w, Forall (fun kcg => is_given s (snd (fst kcg)) (snd kcg)) l ->
    match w with Some a => cond_empty e = Ok false /\ expr_sql e = Ok a | None => cond_empty e = Ok true end ->
    match where_left w (map (fun kcg => (fst (fst kcg), snd kcg)) l) with
    | Ok None => exists e', call_chain (set_where s e) (map fst l) = Ok (set_where s e') /\ cond_empty e' = Ok true
    | Ok (Some wh) => exists e', call_chain (set_where s e) (map fst l) = Ok (set_where s e')
        /\ cond_empty e' = Ok false /\ expr_sql e' = Ok wh
    | Panic _ => is_ok (call_chain (set_where s e) (map fst l)) = false
    end).
  { clear l Hl. induction l as [|[[k c] g] l IH]; intros e w Hl He.
    - cbn [map where_left call_chain]. destruct w as [a|]; exists e; tauto.
    - inversion_clear Hl as [|? ? Hc Hl']. cbn [fst snd map where_left call_chain] in *.
      assert (Sh : has_where_methods (set_where s e) = true) by (rewrite has_set_where; exact Hs).
      assert (We : where_of (set_where s e) = e) by (apply where_of_set, Hs).
      assert (NS : match set_where s e with StSelect _ => is_nil c = false | _ => True end).
      { destruct g as [q|]; cbn [is_given] in Hc.
        - destruct (set_where s e); try exact I. apply kept_nil, Hc.
        - destruct Hc as [_ Hc]. destruct s; exact Hc. }
      assert (Wc : cond_empty (new_wrapper c) = cond_empty c).
      { unfold cond_empty. rewrite wrapper_nil, wrapper_empty. reflexivity. }
      destruct w as [a|].
      + destruct He as [Ee Ea].
        assert (E : call_where (set_where s e) k c = Ok (set_where s (joined k e c))).
        { destruct s as [q|i|u|d]; try discriminate; destruct k; cbn [set_where call_where where_of sel_step upd_step del_step] in *;
            unfold where_where, where_and, where_or; rewrite ?NS; cbn [s_where with_where u_where upd_with_where d_where del_with_where];
            rewrite Ee; cbn [bind]; rewrite ?Ee; reflexivity. }
        rewrite E. cbn [bind]. destruct g as [q|]; cbn [is_given] in Hc.
        * destruct Hc as [Kc Qc]. apply (IH _ (Some _) Hl'). split; [apply joined_kept; assumption|].
          apply joined_sql; try assumption.
        * destruct Hc as [Kc _]. apply (IH _ None Hl').
          apply kept_nil in Ee. destruct Ee as [N0 E0]. unfold cond_empty, joined. cbn [is_nil is_empty].
          rewrite N0, wrapper_nil. unfold cond_empty in Kc. destruct (is_nil c); [reflexivity|].
          rewrite E0, wrapper_empty, Kc. destruct k; reflexivity.
      + destruct k; cbn [where_left].
        2,3: destruct s as [q|i|u|d]; try discriminate; cbn [set_where call_where where_of sel_step upd_step del_step] in *;
            unfold where_and, where_or; rewrite ?NS; cbn [s_where with_where u_where upd_with_where d_where del_with_where];
            rewrite He; reflexivity.
        assert (E : call_where (set_where s e) KWhere c = Ok (set_where s (new_wrapper c))).
        { destruct s as [q|i|u|d]; try discriminate; cbn [set_where call_where where_of sel_step upd_step del_step] in *;
            unfold where_where; rewrite ?NS; cbn [s_where with_where u_where upd_with_where d_where del_with_where];
            rewrite He; reflexivity. }
        rewrite E. cbn [bind]. apply (IH _ g Hl'). rewrite Wc.
        destruct g as [q|]; cbn [is_given] in Hc; [|exact (proj1 Hc)].
        split; [exact (proj1 Hc)|]. rewrite wrapper_sql. exact (proj2 Hc). }
  specialize (R l ENil None Hl eq_refl).
  replace (set_where s ENil) with s in R by (rewrite <- Hw; symmetry; apply set_where_of).
  rewrite query_template in Hq. destruct (template s) as [base|] eqn:Hb; [|discriminate]. clear Hq.
  destruct (where_left _ _) as [[wh|]|]; [| |exact R].
  - destruct R as (e' & E & K & Q). exists (set_where s e'). split; [exact E|].
    pose proof Hb as Hb'. rewrite <- (set_where_of s), Hw in Hb'.
    destruct (template_where s e' _ base Hs K Q Hb') as (pre & post & Eb & Et).
    exists pre, post. rewrite set_set_where, Hb', Eb, Et. auto.
  - destruct R as (e' & E & K). exists (set_where s e'). split; [exact E|].
    rewrite !query_template, template_no_where by assumption. rewrite <- Hw, set_where_of. reflexivity.
Qed.
Print Assumptions C15_exactly_partial.

(* a OR b are lost with the empty condition, c AND d are kept. *)
Example C15_exactly_ex : let l := [(KWhere, ERaw "a", Some (lit "a")); (KOr, ERaw "b", Some (lit "b"));
    (KAnd, ERaw "", None); (KWhere, ERaw "c", Some (lit "c")); (KAnd, ERaw "d", Some (lit "d"))] in
  Forall (fun kcg => is_given (O := go_oracle) (StDelete {| d_from := [FTable (lk_table "t")]; d_using := []; d_where := ENil; d_returning := []; d_comment := "" |}) (snd (fst kcg)) (snd kcg)) l
  /\ where_left None (map (fun kcg => (fst (fst kcg), snd kcg)) l) = Ok (Some (lit "(c AND d)")).
Proof. split; [repeat constructor|reflexivity]. Qed.

(* Refutation: Delete("users").Where(Condition("id").Equal(1)).And(Raw("")) deletes every row. *)
Theorem C15_condition_never_dropped_refuted :
  exists s s' c, has_where_methods s = true /\ call_where s KAnd c = Ok s'
    /\ query (O := go_oracle) s
       = Ok ("DELETE FROM ""users"" WHERE (""id"" = $1)"%string, [GInt KInt 1])
    /\ query (O := go_oracle) s' = Ok ("DELETE FROM ""users"""%string, []).
Proof.
  exists (StDelete {| d_from := [FTable (lk_table "users")]; d_using := [];
            d_where := EInfix (EIdent (GStr "id")) (Some "="%string) (EValue (GInt KInt 1));
            d_returning := []; d_comment := "" |}).
  eexists. exists (lk_raw ""). split; [reflexivity|]. split; [vm_compute; reflexivity|].
  split; vm_compute; reflexivity.
Qed.
Print Assumptions C15_condition_never_dropped_refuted.

(* The same with a nil condition, reached through the builder methods only. *)
Example C15_reached :
  (do d <- lk_delete (GStr "users");
   do c <- cmp_expr (lk_condition (GStr "id")) OpEqual (GInt KInt 1);
   do d <- del_run d [DelWhere c; DelAnd ENil];
   to_string (O := go_oracle) (StDelete d)) = Ok "DELETE FROM ""users"""%string.
Proof. vm_compute. reflexivity. Qed.

(* ------------------------------------------------------------------------- *)
(* C16                                                                         *)
(* ------------------------------------------------------------------------- *)

(* A Go slice and its elements. *)
Inductive slice_of : gval -> list gval -> Prop :=
| sl_strs : forall l, slice_of (GStrs l) (map GStr l)
| sl_ints : forall k l, k <> KUint8 -> slice_of (GInts k l) (map (GInt k) l)
| sl_bools : forall l, slice_of (GBools l) (map GBool l)
| sl_floats : forall k l, slice_of (GFloats k l) (map (GFloat k) l)
| sl_bytess : forall l, slice_of (GBytess l) (map GBytes l)
| sl_exprs : forall l, slice_of (GExprs l) (map GExpr l)
| sl_anys : forall l, slice_of (GAnys l) l.

Lemma slice_elems_of : forall g l, slice_of g l -> slice_elems g = Some l.
Proof. intros g l H. destruct H; try reflexivity. destruct k; try reflexivity; congruence. Qed.

(* A value that In does not treat as a slice or as nothing. *)
Definition one_operand (v : gval) : Prop :=
  v <> GNil /\ v <> GExpr ENil /\ forall l, ~ slice_of v l.

Theorem C16_slice_is_elements : forall left g l,
  slice_of g l -> (length l <> 1 \/ exists v, l = [v] /\ one_operand v) ->
  expr_in left [g] = expr_in left l /\ expr_not_in left [g] = expr_not_in left l.
Proof.
  intros left g l H L.
  assert (E : new_array [g] = new_array l).
  { unfold new_array. assert (T : to_array g = map_res new_expression l).
    { unfold to_array. rewrite (slice_elems_of g l H). destruct H; reflexivity. }
    rewrite T. destruct L as [L|(v & -> & Nn & Ne & Ns)].
    - destruct l as [|a [|b l]]; try reflexivity. cbn in L. congruence.
    - unfold to_array.
      assert (S0 : slice_elems v = None).
      { destruct (slice_elems v) as [x|] eqn:S; [|reflexivity]. exfalso. apply (Ns x).
        destruct v; cbn in S; try discriminate; try (destruct k; try discriminate);
          injection S as <-; constructor; discriminate. }
      rewrite S0. destruct v; try reflexivity; try congruence. destruct e; try reflexivity. congruence. }
  unfold expr_in, expr_not_in. rewrite E. auto.
Qed.
Print Assumptions C16_slice_is_elements.

(* The rendered list: n operands in order, NULL for nil and one placeholder for any other. *)
Definition operand_sql (v : gval) : sql := match v with GNil => lit "NULL" | _ => [Val v] end.

Theorem C16_list_rendered {O : Oracle} : forall x vs,
  x <> ""%string -> forallb plain_value vs = true -> vs <> [GNil] ->
  exists e e', expr_in (lk_condition (GStr x)) vs = Ok e /\ expr_not_in (lk_condition (GStr x)) vs = Ok e'
    /\ expr_sql e = Ok (lit ("(" ++ quote x ++ " IN (") ++ sepd ", " (map operand_sql vs) ++ lit "))")%list
    /\ expr_sql e' = Ok (lit ("(" ++ quote x ++ " NOT IN (") ++ sepd ", " (map operand_sql vs) ++ lit "))")%list.
Proof.
  intros x vs Hx Hv Hn. unfold expr_in, expr_not_in.
  assert (A : new_array vs = Ok (EArray (map EValue vs))).
  { destruct vs as [|v vs']; [reflexivity|]. apply plain_array; [exact Hv|].
    destruct v, vs'; try reflexivity. congruence. }
  rewrite A. cbn [bind]. eexists. eexists. split; [reflexivity|]. split; [reflexivity|].
  assert (X : no_str x = false) by (unfold no_str; apply String.eqb_neq; exact Hx).
  assert (M : map op_sql vs = map operand_sql vs) by (apply map_ext; intros []; reflexivity).
  unfold expr_sql. cbn [write_expr]. unfold defined. cbn [is_empty is_nil lk_condition]. rewrite X.
  cbn [or_res bind no_str String.eqb]. rewrite !flat_cat, !flat_w. change (write_expr (lk_condition (GStr x))) with (w (quote x)). unfold write_ident. rewrite ?flat_w.
  assert (V : flat (unless (is_empty (EArray (map EValue vs))) (write_expr (EArray (map EValue vs))))
              = Ok (sepd ", " (map operand_sql vs))).
  { rewrite <- M, <- ops_sql. cbn [is_empty write_expr]. destruct vs; reflexivity. }
  cbn [is_empty write_expr] in V. rewrite !V. split; rewrite !lit_app, <- ?app_assoc; reflexivity.
Qed.
Print Assumptions C16_list_rendered.

(* False for one-element lists whose element is nil or itself a slice. *)
Theorem C16_single_nil_refuted :
  exists e1 e2, expr_in (lk_condition (GStr "id")) [GAnys [GNil]] = Ok e1
    /\ expr_in (lk_condition (GStr "id")) [GNil] = Ok e2
    /\ expr_sql (O := go_oracle) e1 = Ok (lit "(""id"" IN (NULL))")
    /\ expr_sql (O := go_oracle) e2 = Ok (lit "(""id"" IN ())").
Proof. eexists. eexists. repeat split; (vm_compute; reflexivity). Qed.
Print Assumptions C16_single_nil_refuted.

Theorem C16_nested_slice_refuted :
  exists e, expr_in (lk_condition (GStr "id")) [GInts KInt64 [1; 2]%Z] = Ok e
    /\ expr_sql (O := go_oracle) e
       = Ok (lit "(""id"" IN (" ++ [Val (GInt KInt64 1)] ++ lit ", " ++ [Val (GInt KInt64 2)] ++ lit "))")%list
    /\ exists e', expr_in (lk_condition (GStr "id")) [GAnys [GInts KInt64 [1; 2]%Z]] = Ok e'
    /\ expr_sql (O := go_oracle) e'
       = Ok (lit "(""id"" IN (" ++ [Val (GInts KInt64 [1; 2]%Z)] ++ lit "))")%list.
Proof. eexists. split; [vm_compute; reflexivity|]. split; [vm_compute; reflexivity|]. eexists. split; [vm_compute; reflexivity|]. vm_compute. reflexivity. Qed.
Print Assumptions C16_nested_slice_refuted.

Example C16_example : slice_of (GFloats F64 [3; 4; 5]%Z) [GFloat F64 3; GFloat F64 4; GFloat F64 5]
  /\ one_operand (GBytes "ab").
Proof.
  split; [exact (sl_floats F64 [3; 4; 5]%Z)|]. repeat split; try discriminate. intros l H. inversion H.
Qed.

(* ------------------------------------------------------------------------- *)
(* C42                                                                         *)
(* ------------------------------------------------------------------------- *)

Theorem C42_comparison_rendered {O : Oracle} : forall x o v,
  x <> ""%string -> plain_value v = true ->
  exists e, cmp_expr (lk_condition (GStr x)) o v = Ok e
    /\ expr_sql e = Ok (lit ("(" ++ quote x ++ " " ++ sql_op o ++ " ") ++ operand_sql v ++ lit ")")%list.
Proof.
  intros x o v Hx Hv. rewrite plain_cmp by exact Hv. eexists. split; [reflexivity|].
  assert (X : no_str x = false) by (unfold no_str; apply String.eqb_neq; exact Hx).
  unfold expr_sql. cbn [write_expr]. unfold defined. cbn [is_empty is_nil lk_condition orb]. rewrite X.
  assert (N : no_str (cmp_text o) = false) by (destruct o; reflexivity). rewrite N. cbn [or_res bind].
  rewrite !flat_cat, !flat_w. change (write_expr (lk_condition (GStr x))) with (w (quote x)). unfold write_ident. rewrite ?flat_w, flat_value, cmp_text_op.
  replace (if is_gnil v then lit "NULL" else [Val v]) with (operand_sql v) by (destruct v; reflexivity).
  rewrite !lit_app, <- !app_assoc. reflexivity.
Qed.
Print Assumptions C42_comparison_rendered.

Theorem C42_null_tests_rendered {O : Oracle} : forall x, x <> ""%string ->
  exists e e', is_null (lk_condition (GStr x)) true = Ok e /\ is_null (lk_condition (GStr x)) false = Ok e'
    /\ expr_sql e = Ok (lit ("(" ++ quote x ++ " IS NULL)"))
    /\ expr_sql e' = Ok (lit ("(" ++ quote x ++ " IS NOT NULL)")).
Proof.
  intros x Hx. unfold is_null.
  destruct (C42_comparison_rendered x OpIs GNil Hx eq_refl) as (e & E & Q).
  destruct (C42_comparison_rendered x OpIsNot GNil Hx eq_refl) as (e' & E' & Q').
  exists e, e'. split; [exact E|]. split; [exact E'|]. rewrite Q, Q'. cbn [operand_sql].
  rewrite <- !lit_app. split; do 2 f_equal; cbn [sql_op]; rewrite ?sapp_assoc; reflexivity.
Qed.
Print Assumptions C42_null_tests_rendered.

Theorem C42_between_rendered {O : Oracle} : forall x a b,
  x <> ""%string -> plain_value a = true -> plain_value b = true ->
  exists e e', ident_between (GStr x) a b = Ok e /\ ident_not_between (GStr x) a b = Ok e'
    /\ expr_sql e = Ok (lit ("(" ++ quote x ++ " BETWEEN ") ++ operand_sql a ++ lit " AND " ++ operand_sql b ++ lit ")")%list
    /\ expr_sql e' = Ok (lit ("(" ++ quote x ++ " NOT BETWEEN ") ++ operand_sql a ++ lit " AND " ++ operand_sql b ++ lit ")")%list.
Proof.
  intros x a b Hx Ha Hb. unfold ident_between, ident_not_between.
  rewrite (plain_new a Ha), (plain_new b Hb). cbn [bind]. eexists. eexists.
  split; [reflexivity|]. split; [reflexivity|].
  assert (X : no_str x = false) by (unfold no_str; apply String.eqb_neq; exact Hx).
  unfold expr_sql. cbn [write_expr]. unfold defined. cbn [is_empty is_nil]. rewrite X.
  cbn [or_res bind no_str String.eqb orb]. rewrite !flat_cat, !flat_w. change (write_expr (lk_condition (GStr x))) with (w (quote x)). unfold write_ident. rewrite ?flat_w, !flat_value.
  replace (if is_gnil a then lit "NULL" else [Val a]) with (operand_sql a) by (destruct a; reflexivity).
  replace (if is_gnil b then lit "NULL" else [Val b]) with (operand_sql b) by (destruct b; reflexivity).
  split; rewrite !lit_app, <- ?app_assoc; reflexivity.
Qed.
Print Assumptions C42_between_rendered.

(* A subquery operand is parenthesised by the symbolic operators. *)
Definition symbolic (o : cmp) : bool :=
  match o with
  | OpEqual | OpNotEqual | OpGreaterThan | OpGreaterThanOrEqual | OpLessThan | OpLessThanOrEqual
  | OpContains | OpIsContainedBy | OpOverlap => true
  | _ => false
  end.

Theorem C42_subquery_parenthesised {O : Oracle} : forall x o q sub,
  x <> ""%string -> symbolic o = true -> template (StSelect q) = Ok sub ->
  exists e, cmp_expr (lk_condition (GStr x)) o (g_select q) = Ok e
    /\ expr_sql e = Ok (lit ("(" ++ quote x ++ " " ++ sql_op o ++ " (") ++ sub ++ lit "))")%list.
Proof.
  intros x o q sub Hx Ho Hq.
  assert (Wr : cmp_wraps o = true) by (destruct o; try discriminate; reflexivity).
  unfold cmp_expr, infix_wrapped. rewrite Wr. cbn [g_select new_expression bind new_wrapper].
  eexists. split; [reflexivity|].
  assert (X : no_str x = false) by (unfold no_str; apply String.eqb_neq; exact Hx).
  assert (Ex : nonempty (s_exprs q) = true).
  { unfold template in Hq. cbn [write_stmt] in Hq. unfold write_select, write_select_with in Hq.
    destruct (nonempty (s_exprs q)); [reflexivity|discriminate]. }
  unfold expr_sql. cbn [write_expr]. unfold defined. cbn [is_empty is_nil lk_condition orb]. rewrite X, Ex.
  assert (N : no_str (cmp_text o) = false) by (destruct o; reflexivity). rewrite N. cbn [or_res bind negb].
  rewrite !flat_cat, !flat_w. change (write_expr (lk_condition (GStr x))) with (w (quote x)). unfold write_ident. rewrite ?flat_w.
  change (flat (write_select_with write_expr q)) with (template (StSelect q)).
  rewrite Hq, cmp_text_op. cbn [bind]. rewrite !lit_app, <- !app_assoc. reflexivity.
Qed.
Print Assumptions C42_subquery_parenthesised.

(* Like and the other word operators do not parenthesise it: the SQL is not valid. *)
Theorem C42_word_operator_subquery_refuted :
  exists q e, lk_select [GStr "name"] = Ok q /\ cmp_expr (lk_condition (GStr "x")) OpLike (g_select q) = Ok e
    /\ expr_sql (O := go_oracle) e = Ok (lit "(""x"" LIKE SELECT ""name"")").
Proof. eexists. eexists. split; [vm_compute; reflexivity|]. split; [vm_compute; reflexivity|]. vm_compute. reflexivity. Qed.
Print Assumptions C42_word_operator_subquery_refuted.

Example C42_example :
  (do e <- cmp_expr (lk_condition (GStr "t.x")) OpIsContainedBy (GStr "{1}"); expr_sql (O := go_oracle) e)
  = Ok (lit "(""t"".""x"" <@ " ++ [Val (GStr "{1}")] ++ lit ")")%list.
Proof. vm_compute. reflexivity. Qed.
