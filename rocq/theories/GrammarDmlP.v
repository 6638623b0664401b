(* Proofs for C50-C52: DELETE, UPDATE and INSERT. *)
From Verif Require Import AssignP RowsP.
From Verif Require Export GrammarBodyP GrammarDml.

Lemma clause_mono : forall A (p q : parser A) kw none ts x, (forall ts x, p ts = Some x -> q ts = Some x) ->
  clause kw none p ts = Some x -> clause kw none q ts = Some x.
Proof. intros A p q kw none ts x H E. unfold clause in *. destruct (strip kw ts); [apply H, E|exact E]. Qed.

Lemma stop_front : forall T, stop T = true -> front [] T = true.
Proof. intros [|[] T] H; try discriminate; reflexivity. Qed.

Section Dml.
  Context {O : Oracle} {sty : style}.

  (* ----------------------------------------------------------------------- *)
  (* Shared clauses                                                            *)
  (* ----------------------------------------------------------------------- *)

  Lemma where_back : forall wh o e f wh', opt_back wh o -> cond_back e f -> where_where wh e = Ok wh' ->
    opt_back wh' (opt_and f o).
  Proof.
    intros wh o e f wh' W C H. unfold where_where, where_and in H. destruct o as [g|]; cbn [opt_back] in W.
    - rewrite (cond_empty_back _ _ W) in H. cbn [bind] in H. injection H as <-. cbn [opt_and opt_back].
      apply and_back; [exact W|apply wrapped_back, C].
    - subst wh. cbn [cond_empty is_nil bind] in H. injection H as <-. cbn [opt_and opt_back]. apply wrapped_back, C.
  Qed.
  Lemma where_and_back : forall wh e f g wh', cond_back wh g -> cond_back e f -> where_and wh e = Ok wh' ->
    cond_back wh' (FAnd g f).
  Proof.
    intros wh e f g wh' W C H. unfold where_and in H. rewrite (cond_empty_back _ _ W) in H. cbn [bind] in H.
    injection H as <-. apply and_back; [exact W|apply wrapped_back, C].
  Qed.
  Lemma where_or_back : forall wh e f g wh', cond_back wh g -> cond_back e f -> where_or wh e = Ok wh' ->
    cond_back wh' (FOr g f).
  Proof.
    intros wh e f g wh' W C H. unfold where_or in H. rewrite (cond_empty_back _ _ W) in H. cbn [bind] in H.
    injection H as <-. apply or_back; [exact W|apply wrapped_back, C].
  Qed.

  Lemma items_selexprs : forall args l, args_say args l -> exists es, to_selexprs args = Ok es /\ items_back es l.
  Proof. exact (proj1 (proj2 (proj2 (proj2 calls_back)))). Qed.

  Lemma returning_reads : forall es l, items_back es l ->
    exists ts, tc (when (nonempty es) (w " " +++ write_returning es)) ts
      /\ (forall T, stop T = true -> front ["RETURNING"] (ts ++ T)%list = true)
      /\ forall n T, length ts <= n -> stop T = true -> p_returning (p_query n) (ts ++ T)%list = Some (l, T).
  Proof.
    intros es l F.
    destruct (cb_list _ _ (write_selexpr write_expr) item_of no_as es l "RETURNING " "RETURNING" [] []
                ltac:(const) eq_refl eq_refl (fun _ => eq_refl) (fun T F => front_as _ T F eq_refl) F)
      as (ts & T & Fr & G).
    exists ts. split; [exact T|]. split; [intros T' H; apply Fr, stop_front, H|].
    intros n T' Hn HT. unfold p_returning. eapply clause_mono; [|apply (G n T' Hn), stop_front, HT].
    intros us x E. apply items_read in E. apply E.
  Qed.

  Lemma where_reads : forall e o l, opt_back e o -> mem "WHERE" l = false -> mem "AND" l = false -> mem "OR" l = false ->
    cb (unless (cond_empty e) (w " " +++ write_where write_expr e))
       (fun n => optional ["WHERE"] (Grammar.p_cond (p_query n))) o l ("WHERE" :: l).
  Proof.
    intros e o l H H1 H2 H3. apply (cb_cond "WHERE" "WHERE " e o l (write_where write_expr)); try assumption.
    - const.
    - reflexivity.
    - intros f C. unfold write_where. rewrite (cond_empty_back _ _ C). reflexivity.
  Qed.

  (* ----------------------------------------------------------------------- *)
  (* DELETE                                                                    *)
  (* ----------------------------------------------------------------------- *)

  Record del_back (d : delete) (b : dbody) : Prop := {
    db_from : Forall2 (back write_fromitem table_of no_as) (d_from d) (de_from b);
    db_some : de_from b <> [];
    db_using : Forall2 (back write_table table_of no_as) (d_using d) (de_using b);
    db_where : opt_back (d_where d) (de_where b);
    db_returning : items_back (d_returning d) (de_returning b);
    db_comment : one_line (d_comment d) = true }.

  Lemma tables_back : forall args ts, Forall2 table_says args ts -> exists l,
    to_tables args = Ok l /\ Forall2 (back write_table table_of no_as) l ts.
  Proof.
    intros args ts F. induction F as [|g t args ts H F (l & E & G)].
    - exists []. split; [reflexivity|constructor].
    - destruct (table_says_back g t H) as (tb & _ & Et & _ & B & _). exists (tb :: l). split.
      + unfold to_tables in *. cbn [map_res]. rewrite Et. cbn [bind]. rewrite E. reflexivity.
      + constructor; [exact B|exact G].
  Qed.

  Lemma del_says_back : forall d b, del_says d b -> del_back d b.
  Proof.
    intros d b H. induction H as [g t d Hg H|d b args ts d' _ IH Ha H|d b e f d' _ IH He H|d b e f g d' _ IH He Eq H
      |d b e f g d' _ IH He Eq H|d b args l d' _ IH Hi H|d b c d' _ IH Hc H].
    - unfold lk_delete in H. cbn [del_step new_delete d_from nonempty] in H. unfold to_from in H.
      destruct (from_back [g] [t] (Forall2_cons _ _ Hg (Forall2_nil _))) as (l & E & F). rewrite E in H. cbn [bind] in H.
      destruct (nonempty l); [|discriminate]. injection H as <-. constructor; try exact F; try discriminate; try constructor; reflexivity.
    - destruct (tables_back args ts Ha) as (l & E & F). cbn [del_step] in H. destruct (nonempty (d_using d)); [discriminate|].
      rewrite E in H. cbn [bind] in H. injection H as <-. destruct IH; constructor; assumption.
    - apply (proj1 calls_back) in He. cbn [del_step] in H. destruct (where_where (d_where d) e) as [wh|] eqn:E; [|discriminate].
      cbn [bind] in H. injection H as <-. pose proof (where_back _ _ _ _ _ (db_where _ _ IH) He E) as W.
      destruct IH; constructor; assumption.
    - apply (proj1 calls_back) in He. cbn [del_step] in H. destruct (where_and (d_where d) e) as [wh|] eqn:E; [|discriminate].
      cbn [bind] in H. injection H as <-. pose proof (db_where _ _ IH) as W. rewrite Eq in W. cbn [opt_back] in W.
      pose proof (where_and_back _ _ _ _ _ W He E). destruct IH; constructor; assumption.
    - apply (proj1 calls_back) in He. cbn [del_step] in H. destruct (where_or (d_where d) e) as [wh|] eqn:E; [|discriminate].
      cbn [bind] in H. injection H as <-. pose proof (db_where _ _ IH) as W. rewrite Eq in W. cbn [opt_back] in W.
      pose proof (where_or_back _ _ _ _ _ W He E). destruct IH; constructor; assumption.
    - destruct (items_selexprs args l Hi) as (es & E & F). cbn [del_step] in H.
      destruct (nonempty (d_returning d)); [discriminate|]. rewrite E in H. cbn [bind] in H. injection H as <-.
      destruct IH; constructor; assumption.
    - cbn [del_step] in H. injection H as <-. destruct IH; constructor; assumption.
  Qed.

  Definition del_core (d : delete) : tr :=
    w "DELETE " +++ (w "FROM " +++ (sep_by ", " (map write_fromitem (d_from d))
    +++ (when (nonempty (d_using d)) (w " " +++ write_using (d_using d))
    +++ (unless (cond_empty (d_where d)) (w " " +++ write_where write_expr (d_where d))
    +++ when (nonempty (d_returning d)) (w " " +++ write_returning (d_returning d)))))).

  Lemma del_reads : forall d b, del_back d b ->
    write_delete d = del_core d +++ write_comment (d_comment d)
    /\ exists ts, tx false (del_core d) ts
       /\ forall n T, length ts <= n -> stop T = true -> p_delete (p_query n) (ts ++ T)%list = Some (b, T).
  Proof.
    intros d b H.
    assert (Ne : d_from d <> []).
    { intro E. pose proof (db_from _ _ H) as F. rewrite E in F. inversion F. apply (db_some _ _ H). congruence. }
    split.
    { unfold write_delete, del_core, write_from. destruct (d_from d); [congruence|]. cbn [nonempty].
      rewrite !cat_assoc. reflexivity. }
    destruct (returning_reads _ _ (db_returning _ _ H)) as (tr_ & Tr & Fr & Gr).
    destruct (where_reads _ _ ["RETURNING"] (db_where _ _ H) eq_refl eq_refl eq_refl) as (tw & Tw & Fw & Gw).
    destruct (cb_list _ _ write_table table_of no_as (d_using d) (de_using b) "USING " "USING" [] ["WHERE"; "RETURNING"]
                ltac:(const) eq_refl eq_refl (fun _ => eq_refl) (fun T F => front_as _ T F eq_refl) (db_using _ _ H))
      as (tu & Tu & Fu & Gu).
    destruct (commas_back _ _ _ _ no_as (d_from d) (de_from b) (fun _ => eq_refl) Ne (db_from _ _ H)) as (tf & Tf & Nf & Gf).
    exists ([KWord "DELETE"] ++ [KWord "FROM"] ++ tf ++ tu ++ tw ++ tr_)%list. split.
    - unfold del_core. apply tx_app; [apply tx_w; const|]. apply tx_app; [apply tx_w; const|].
      apply tx_tc; [exact Tf|]. apply tc_app; [|apply tc_app; assumption].
      unfold write_using. rewrite write_when_again. exact Tu.
    - intros n T Hn HT. rewrite !app_length in Hn. cbn [length] in Hn. rewrite <- !app_assoc. cbn [app].
      unfold p_delete, p_keyword. cbn [strip]. change (String.eqb "DELETE" "DELETE") with true.
      change (String.eqb "FROM" "FROM") with true. cbn iota.
      pose proof (Fr T HT) as F1. pose proof (Fw _ F1) as F2. pose proof (Fu _ F2) as F3.
      unfold table_of in Gf. rewrite (Gf n) by (lia || (rewrite (front_as _ _ F3 eq_refl), (front_comma _ _ F3); reflexivity)).
      cbn [andthen]. unfold table_of in Gu. rewrite (Gu n) by (lia || exact F2). cbn [andthen].
      rewrite (Gw n) by (lia || exact F1). cbn [andthen]. rewrite (Gr n) by (lia || exact HT). cbn [andthen].
      destruct b; reflexivity.
  Qed.

  (* ----------------------------------------------------------------------- *)
  (* SET                                                                       *)
  (* ----------------------------------------------------------------------- *)

  (* The assignments as strings and expressions, in the order of the names. *)
  Fixpoint ins (x : string) (e : expr) (r : list (string * expr)) : list (string * expr) :=
    match r with
    | [] => [(x, e)]
    | (y, f) :: r' =>
      if String.eqb x y then (x, e) :: r'
      else if str_ltb x y then (x, e) :: r
      else (y, f) :: ins x e r'
    end.
  Definition entries (r : list (string * expr)) : list (column * expr) := map (fun xe => (lk_column (fst xe), snd xe)) r.
  Definition sorted (r : list (string * expr)) : Prop :=
    StronglySorted (fun a b => str_ltb (fst a) (fst b) = true) r.

  Lemma lk_column_eqb : forall x y, col_eqb (lk_column x) (lk_column y) = String.eqb x y.
  Proof. intros x y. unfold col_eqb, lk_column. cbn [c_name c_alias]. apply andb_true_r. Qed.

  Lemma ins_get : forall x e r c, pm_get c (entries (ins x e r)) = if col_eqb c (lk_column x) then Some e else pm_get c (entries r).
  Proof.
    intros x e r c. induction r as [|[y f] r IH]; [reflexivity|]. cbn [ins].
    destruct (String.eqb_spec x y) as [<-|N].
    - cbn [entries map pm_get fst snd]. destruct (col_eqb c (lk_column x)); reflexivity.
    - destruct (str_ltb x y); [reflexivity|]. cbn [entries map pm_get fst snd] in *. unfold entries in IH. rewrite IH.
      destruct (col_eqb c (lk_column y)) eqn:E; [|reflexivity]. apply col_eqb_true in E. subst c.
      rewrite lk_column_eqb. rewrite (proj2 (String.eqb_neq _ _)) by congruence. reflexivity.
  Qed.

  Lemma ins_keys : forall x e r y, In y (map fst (ins x e r)) <-> y = x \/ In y (map fst r).
  Proof.
    intros x e r y. induction r as [|[z f] r IH]; [cbn; intuition congruence|]. cbn [ins].
    destruct (String.eqb_spec x z) as [<-|N]; [cbn; intuition congruence|].
    destruct (str_ltb x z); [cbn; intuition congruence|]. cbn [map fst In]. rewrite IH. tauto.
  Qed.

  Lemma ins_sorted : forall x e r, sorted r -> sorted (ins x e r).
  Proof.
    intros x e r S. induction S as [|[y f] r S IH F]; [constructor; constructor|]. cbn [ins].
    destruct (String.eqb_spec x y) as [<-|N]; [constructor; [exact S|exact F]|].
    destruct (str_ltb x y) eqn:L.
    - constructor; [constructor; assumption|]. constructor; [exact L|]. rewrite Forall_forall in *. intros z Hz.
      eapply str_ltb_trans; [exact L|apply F, Hz].
    - constructor; [exact IH|]. rewrite Forall_forall in *. intros [z g] Hz. cbn [fst].
      assert (Hk : In z (map fst (ins x e r))) by (apply (in_map fst _ _ Hz)).
      apply ins_keys in Hk. destruct Hk as [->|Hk].
      + destruct (str_ltb y x) eqn:L'; [reflexivity|]. exfalso. apply N, str_ltb_total; assumption.
      + apply in_map_iff in Hk. destruct Hk as ([z' g'] & E & Hk). cbn in E. subst z'. apply (F _ Hk).
  Qed.

  Lemma sorted_get : forall r x e, sorted r -> In (x, e) r -> pm_get (lk_column x) (entries r) = Some e.
  Proof.
    intros r x e S. induction S as [|[y f] r S IH F]; intro H; [destruct H|]. cbn [entries map pm_get fst snd].
    rewrite lk_column_eqb. destruct H as [H|H].
    - injection H as -> ->. rewrite String.eqb_refl. reflexivity.
    - destruct (String.eqb_spec x y) as [->|_]; [|apply IH, H]. rewrite Forall_forall in F. apply F in H. cbn in H.
      rewrite str_ltb_irrefl in H. discriminate.
  Qed.

  (* A container in key-value syntax. *)
  Record rich (p : pairs) (r : list (string * expr)) : Prop := {
    ri_nodup : NoDup (p_cols p);
    ri_cols : forall c, In c (p_cols p) <-> In c (map (fun xe => lk_column (fst xe)) r);
    ri_get : forall c, pm_get c (p_map p) = pm_get c (entries r);
    ri_sorted : sorted r;
    ri_exprs : p_exprs p = [];
    ri_mode : p_mode p = PAssoc \/ (p_mode p = PUnknown /\ r = []) }.

  Lemma get_in : forall r c, (exists e, pm_get c (entries r) = Some e) <-> In c (map (fun xe => lk_column (fst xe)) r).
  Proof.
    intros r c. induction r as [|[y f] r IH].
    - split; [intros (e & E); discriminate|intros []].
    - cbn [entries map pm_get fst snd In]. destruct (col_eqb c (lk_column y)) eqn:E.
      + apply col_eqb_true in E. subst c. split; [left; reflexivity|eauto].
      + rewrite <- IH. unfold entries. split; [right; assumption|]. intros [H|H]; [|exact H]. subst c.
        rewrite col_eqb_refl in E. discriminate.
  Qed.

  Lemma rich_add : forall p r x e, rich p r -> exists p', pairs_add p (lk_column x) e = Ok p' /\ rich p' (ins x e r)
    /\ p_mode p' = PAssoc.
  Proof.
    intros p r x e [N C G S X M]. unfold pairs_add.
    assert (E : match p_mode p with PUnknown => PAssoc | m => m end = PAssoc) by (destruct M as [->|[-> _]]; reflexivity).
    rewrite E. eexists. split; [reflexivity|]. split; [|reflexivity].
    assert (K : forall c, In c (map (fun xe => lk_column (fst xe)) (ins x e r)) <-> c = lk_column x \/ In c (p_cols p)).
    { intro c. rewrite C. rewrite <- !(map_map fst lk_column), !in_map_iff. split.
      - intros (y & <- & Hy). apply ins_keys in Hy. destruct Hy as [->|Hy]; [left; reflexivity|right; eauto].
      - intros [->|(y & <- & Hy)]; [exists x|exists y]; (split; [reflexivity|]); apply ins_keys; tauto. }
    constructor; cbn [p_cols p_map p_mode p_exprs].
    - destruct (pm_get (lk_column x) (p_map p)) eqn:Eg; [exact N|].
      apply (Permutation_NoDup (Permutation_cons_append (p_cols p) (lk_column x))). constructor; [|exact N]. rewrite C, <- get_in, <- G, Eg. intros (f & F). discriminate.
    - intro c. rewrite K. destruct (pm_get (lk_column x) (p_map p)) as [f|] eqn:Eg.
      + assert (Hx : In (lk_column x) (p_cols p)) by (apply C, get_in; rewrite <- G; eauto).
        split; [tauto|]. intros [->|H]; assumption.
      + rewrite in_app_iff. cbn [In]. intuition congruence.
    - intro c. rewrite pm_get_set, ins_get, G. reflexivity.
    - apply ins_sorted, S.
    - exact X.
    - left. reflexivity.
  Qed.

  Definition entry_back (xe : string * expr) (na : name * term) : Prop :=
    plain_name (fst xe) = true /\ fst na = parts_of (fst xe) /\ operand_back (snd xe) (snd na).

  Lemma dotted_parts : forall x, plain_name x = true -> dotted_name (parts_of x) = x.
  Proof. intros x H. rewrite parts_plain by exact H. apply (join_split "."). Qed.

  Lemma assign_back : forall x e n a r m, entry_back (x, e) (n, a) -> Forall2 entry_back r m ->
    Forall2 entry_back (ins x e r) (assign n a m).
  Proof.
    intros x e n a r m B F. pose proof B as (Hx & En & _). cbn [fst snd] in *. subst n.
    induction F as [|[y f] [n b] r m B' F IH]; [constructor; [exact B|constructor]|].
    pose proof B' as (Hy & En & _). cbn [fst snd] in *. subst n. cbn [ins assign].
    rewrite !dotted_parts by assumption. destruct (String.eqb x y); [constructor; assumption|].
    destruct (str_ltb x y); [constructor; [exact B|constructor; assumption]|constructor; assumption].
  Qed.


  Lemma key_back : forall g n, key_says g n -> exists x, to_column g = Ok (lk_column x) /\ plain_name x = true /\ n = parts_of x.
  Proof.
    intros g n [x H|x H]; [exists (trim_space x)|exists x]; (split; [|split; [exact H|reflexivity]]);
      unfold to_column; cbn [bind c_name lk_column]; rewrite plain_name_nonempty by exact H; reflexivity.
  Qed.

  Lemma source_back : forall g a, source_says g a -> exists e, new_expression g = Ok e /\ operand_back (new_wrapper e) a.
  Proof.
    intros g a [v t H|x H|g' s b Hs Hb Hf].
    - destruct (says_scalar v t H) as (e & E & S & W). exists e. split; [exact E|]. rewrite W. apply scalar_operand, S.
    - exists (EIdent (GStr x)). split; [reflexivity|]. apply name_operand, H.
    - exists (ESelect s). split; [apply sub_new, Hs|]. apply sub_term, query_back_core; [|exact Hf].
      apply (proj2 (proj2 (proj2 (proj2 (proj2 calls_back))))), Hb.
  Qed.

  (* A container that holds the assignments m. *)
  Definition each_back (p : pairs) (m : list (name * term)) : Prop :=
    exists r, rich p r /\ Forall2 entry_back r m.

  Lemma merge_pair_back : forall p m kv na, each_back p m -> entry_says kv na ->
    exists p', merge_pair p kv = Ok p' /\ each_back p' (assign (fst na) (snd na) m).
  Proof.
    intros p m [k v] [n a] (r & R & F) [Hk Hv]. cbn [fst snd] in *.
    destruct (key_back k n Hk) as (x & Ek & Hx & ->). destruct (source_back v a Hv) as (e & Ee & B).
    destruct (rich_add p r x (new_wrapper e) R) as (p' & Ep & R' & _). exists p'. split.
    - unfold merge_pair. cbn [fst snd]. rewrite Ek. cbn [bind]. rewrite Ee. cbn [bind]. exact Ep.
    - exists (ins x (new_wrapper e) r). split; [exact R'|]. apply assign_back; [|exact F]. split; [exact Hx|]. split; [reflexivity|exact B].
  Qed.

  Lemma merge_pairs_back : forall kvs nas p m, Forall2 entry_says kvs nas -> each_back p m ->
    exists p', fold_res merge_pair kvs p = Ok p' /\ each_back p' (assign_all m nas).
  Proof.
    intros kvs nas p m F. revert p m. induction F as [|kv na kvs nas H F IH]; intros p m B.
    - exists p. split; [reflexivity|exact B].
    - destruct (merge_pair_back p m kv na B H) as (p1 & E & B1). destruct (IH p1 _ B1) as (p2 & E2 & B2).
      exists p2. split; [cbn [fold_res]; rewrite E; exact E2|exact B2].
  Qed.

  Lemma merge_set_back : forall args l p m, pairs_say args l -> each_back p m ->
    exists p', merge_set p args = Ok p' /\ each_back p' (assign_all m l).
  Proof.
    intros args l p m H. revert p m. unfold merge_set.
    induction H as [|k v na rest l He H IH|kvs nas rest l He H IH|kvs nas rest l He H IH]; intros p m B.
    - exists p. split; [reflexivity|exact B].
    - destruct (merge_pair_back p m (k, v) na B He) as (p1 & E & B1). destruct (IH p1 _ B1) as (p2 & E2 & B2).
      exists p2. split; [cbn [fold_res merge_arg]; rewrite E; exact E2|exact B2].
    - destruct (merge_pairs_back _ _ p m He B) as (p1 & E & B1). destruct (IH p1 _ B1) as (p2 & E2 & B2).
      exists p2. split; [cbn [fold_res merge_arg]; rewrite E; exact E2|]. unfold assign_all. rewrite fold_left_app. exact B2.
    - destruct (merge_pairs_back _ _ p m He B) as (p1 & E & B1). destruct (IH p1 _ B1) as (p2 & E2 & B2).
      exists p2. split; [cbn [fold_res merge_arg]; rewrite E; exact E2|]. unfold assign_all. rewrite fold_left_app. exact B2.
  Qed.

  Lemma each_empty : forall m, m <> PArray -> each_back {| p_mode := m; p_map := []; p_cols := []; p_exprs := [] |} [].
  Proof.
    intros m Hm. exists []. split; [|constructor]. constructor; cbn [p_cols p_map p_mode map entries].
    - constructor.
    - intro c. reflexivity.
    - intro c. reflexivity.
    - constructor.
    - reflexivity.
    - destruct m; [right; split; reflexivity|left; reflexivity|congruence].
  Qed.

  Lemma assign_nonempty : forall n a m, assign n a m <> [].
  Proof. intros n a [|[n' a'] m]; cbn [assign]; [discriminate|]. destruct (String.eqb _ _); [discriminate|]. destruct (str_ltb _ _); discriminate. Qed.
  Lemma assign_all_nonempty : forall l m, l <> [] -> assign_all m l <> [].
  Proof.
    intros l. induction l as [|na l IH]; intros m N; [congruence|]. unfold assign_all in *. cbn [fold_left].
    destruct l as [|na' l]; [apply assign_nonempty|apply IH; discriminate].
  Qed.

  (* The sorted columns and their values. *)
  Lemma each_values : forall p m, sort_contract o_sort -> each_back p m -> m <> [] ->
    exists r, p_mode p = PAssoc /\ pairs_empty p = false
      /\ pairs_values p = Ok (map (fun xe => lk_column (fst xe)) r, map snd r) /\ Forall2 entry_back r m.
  Proof.
    intros p m C (r & R & F) N. exists r.
    assert (Nr : r <> []) by (intro E; subst r; inversion F; congruence).
    assert (M : p_mode p = PAssoc) by (destruct (ri_mode _ _ R) as [M|[_ E]]; [exact M|congruence]).
    split; [exact M|]. split; [|split; [|exact F]].
    - unfold pairs_empty. rewrite M. destruct r as [|[x e] r]; [congruence|].
      pose proof (ri_get _ _ R (lk_column x)) as G. cbn [entries map pm_get fst snd] in G. rewrite col_eqb_refl in G.
      destruct (p_map p); [discriminate|reflexivity].
    - assert (E : o_sort (p_cols p) = map (fun xe => lk_column (fst xe)) r).
      { assert (U : forall l, (forall c, In c l -> In c (map (fun xe => lk_column (fst xe)) r)) -> unaliased l).
        { intros l H. apply Forall_forall. intros c Hc. apply H, in_map_iff in Hc. destruct Hc as (xe & <- & _). reflexivity. }
        assert (Up : unaliased (p_cols p)) by (apply U; intros c Hc; apply (ri_cols _ _ R), Hc).
        destruct (C (p_cols p)) as [P _].
        apply by_name_unique.
        - apply sorted_by_name; [exact C|exact Up|apply (ri_nodup _ _ R)].
        - pose proof (ri_sorted _ _ R) as S. clear - S. unfold by_name. induction S as [|[x e] r S IH Fr]; [constructor|].
          constructor; [exact IH|]. rewrite Forall_forall in *. intros c Hc. apply in_map_iff in Hc.
          destruct Hc as (xe & <- & Hx). apply (Fr _ Hx).
        - apply (unaliased_perm _ _ P Up).
        - apply U. auto.
        - intro c. rewrite <- (ri_cols _ _ R c). split; intro H; [apply (Permutation_in _ (Permutation_sym P) H)|apply (Permutation_in _ P H)]. }
      unfold pairs_values. rewrite M, E. cbv zeta.
      assert (Es : forall r', incl r' r -> map_res (fun c => match pm_get c (p_map p) with
          | Some e => Ok e | None => Panic (PMsg "loukoum: invalid state for stmt.PairContainer") end)
          (map (fun xe => lk_column (fst xe)) r') = Ok (map snd r')).
      { induction r' as [|[x e] r' IH]; intro I; [reflexivity|]. cbn [map map_res fst snd].
        rewrite (ri_get _ _ R), (sorted_get r x e) by (apply (ri_sorted _ _ R) || (apply I; left; reflexivity)).
        cbn [bind]. rewrite IH by (intros z Hz; apply I; right; exact Hz). reflexivity. }
      rewrite Es by apply incl_refl. reflexivity.
  Qed.

  Definition assign_of (n : nat) : parser (name * term) := p_assign (p_query n).

  Lemma pair_back : forall xe na, entry_back xe na ->
    back write_pair assign_of any (lk_column (fst xe), snd xe) na.
  Proof.
    intros [x e] [n a] (Hx & En & _ & _ & ts & T & G & _). cbn [fst snd] in *. subst n.
    exists (([KName (parts_of x)] ++ [KOp "="]) ++ ts)%list. split.
    - unfold write_pair. cbn [fst snd]. apply tx_app; [|exact T]. apply tx_const; [|const|discriminate|reflexivity].
      unfold write_column, lk_column. cbn [c_name c_alias]. change (negb (no_str "")) with false. cbn [when].
      rewrite cat_eps_r. apply tx_name, Hx.
    - split; [discriminate|]. intros k rest Hk _. cbn [app length] in Hk. unfold assign_of, p_assign. cbn [app p_name andthen p_op].
      change (String.eqb "=" "=") with true. cbn iota. cbn [andthen]. destruct G as (_ & G). unfold term_of in G.
      rewrite (G k rest) by (lia || reflexivity). reflexivity.
  Qed.

  Lemma each_written : forall p m, sort_contract o_sort -> each_back p m -> m <> [] ->
    pairs_empty p = false /\ exists ts, tx false (write_pairs p) ts
      /\ gives (fun n => p_commas (assign_of n)) no_comma m ts
      /\ match ts with KName _ :: _ => True | _ => False end.
  Proof.
    intros p m C B N. destruct (each_values p m C B N) as (r & M & E & V & F). split; [exact E|].
    assert (Nr : r <> []) by (intro X; subst r; inversion F; congruence).
    set (L := map (fun xe : string * expr => (lk_column (fst xe), snd xe)) r).
    assert (FL : Forall2 (back write_pair assign_of any) L m).
    { unfold L. clear - F. induction F as [|xe na r m H F IH]; constructor; [apply pair_back, H|exact IH]. }
    destruct (commas_back _ _ write_pair assign_of any L m (fun _ => eq_refl)
                ltac:(unfold L; destruct r; [congruence|discriminate]) FL) as (ts & T & Nt & G).
    exists ts. split; [|split; [split; [exact Nt|]|]].
    - unfold write_pairs. rewrite E, M, V. cbn [bind fst snd].
      replace (combine (map (fun xe => lk_column (fst xe)) r) (map snd r)) with L; [exact T|].
      unfold L. clear. induction r as [|[x e] r IH]; [reflexivity|]. cbn [map combine fst snd]. rewrite IH. reflexivity.
    - intros n rest Hn Hr. apply G; [exact Hn|exact Hr].
    - specialize (G (length ts) [] (le_n _) eq_refl). rewrite app_nil_r in G. unfold p_commas in G.
      destruct (length ts) as [|k]; [discriminate|]. cbn [commas_fuel] in G. unfold assign_of, p_assign, p_name in G.
      destruct ts as [|[] ts]; try discriminate. exact I.
  Qed.


  (* SET (a, b) = (...) *)
  Definition sources_back (es : list expr) (s : sources) : Prop :=
    match s with
    | SValues vs => Forall2 scalar_back es vs
    | SQuery (Query q) => exists s, es = [ESelect s] /\ query_back s q
    end.
  Record list_back (p : pairs) (cols : list name) (s : sources) : Prop := {
    lb_mode : p_mode p = PArray;
    lb_cols : Forall2 (back write_column name_of any) (p_cols p) cols;
    lb_some : cols <> [];
    lb_sources : sources_back (p_exprs p) s }.

  Lemma sources_written : forall es s, sources_back es s -> s <> SValues [] ->
    es <> [] /\ exists ts, tx false (sep_by ", " (map write_expr es)) ts
      /\ forall n T, length ts <= n -> p_sources (p_query n) (KOpen :: ts ++ KClose :: T)%list = Some (s, T).
  Proof.
    intros es [vs|[q]] H N.
    - cbn [sources_back] in H. assert (Ne : es <> []) by (intro E; subst es; inversion H; subst; apply N; reflexivity).
      split; [exact Ne|]. destruct (scalars_commas es vs Ne H) as (ts & T & _ & G).
      exists ts. split; [exact T|]. intros n T' Hn. cbn [p_sources]. rewrite G by (lia || reflexivity). reflexivity.
    - destruct H as (s & -> & (Ns & ts & T & G & S)). split; [discriminate|]. exists ts. split; [exact T|].
      intros n T' Hn. cbn [p_sources]. pose proof (starts_no_values (p_query n) ts (KClose :: T') S) as V.
      assert (P : p_parens (p_query n) (KOpen :: ts ++ KClose :: T')%list = Some (Query q, T'))
        by (apply (read_parens _ _ _ _ _ n T' G); [exact Hn|reflexivity]).
      rewrite P. destruct (p_commas _ _) as [[vs [|t r]]|]; [reflexivity| |reflexivity].
      destruct t; try reflexivity. contradiction.
  Qed.

  Definition set_back (p : pairs) (s : setting) : Prop :=
    match s with SetEach m => each_back p m | SetList cols src => list_back p cols src end.

  Lemma set_written : forall p s, sort_contract o_sort -> set_back p s -> assigns_something s ->
    pairs_empty p = false /\ exists ts, tx false (write_pairs p) ts
      /\ gives (fun n => p_setting (p_query n)) no_comma s ts.
  Proof.
    intros p [m|cols src] C B A.
    - assert (N : m <> []) by (destruct m; [destruct A|discriminate]).
      destruct (each_written p m C B N) as (E & ts & T & (Nt & G) & Hh). split; [exact E|]. exists ts. split; [exact T|].
      split; [exact Nt|]. intros n rest Hn Hr. destruct ts as [|[] ts]; try destruct Hh.
      cbn [app p_setting]. specialize (G n rest Hn Hr). cbn [app] in G. unfold assign_of in G. rewrite G. reflexivity.
    - destruct B as [M Fc Nc S].
      assert (Ns : src <> SValues []) by (intro E; subst src; destruct A).
      destruct (sources_written _ _ S Ns) as (Ne & ts & T & G).
      assert (Np : p_cols p <> []) by (intro E; rewrite E in Fc; inversion Fc; congruence).
      destruct (commas_back _ _ write_column name_of any (p_cols p) cols (fun _ => eq_refl) Np Fc) as (tc_ & Tc & Gc).
      assert (E : pairs_empty p = false).
      { unfold pairs_empty. rewrite M. destruct (p_exprs p); [congruence|]. rewrite andb_comm. reflexivity. }
      split; [exact E|].
      exists ((([KOpen] ++ tc_ ++ [KClose]) ++ [KOp "="]) ++ ([KOpen] ++ ts ++ [KClose]))%list. split.
      + unfold write_pairs. rewrite E, M.
        replace (w "(" +++ write_columns (p_cols p) +++ w ")" +++ w " = " +++ w "(" +++ sep_by ", " (map write_expr (p_exprs p)) +++ w ")")
          with ((w "(" +++ write_columns (p_cols p) +++ w ")" +++ w " = ") +++ (w "(" +++ sep_by ", " (map write_expr (p_exprs p)) +++ w ")"))
          by (rewrite !cat_assoc; reflexivity).
        apply tx_app; [|apply tx_parens, T].
        apply tx_const; [apply tx_parens, Tc|const|discriminate|reflexivity].
      + split; [discriminate|]. intros n rest Hn _. rewrite !app_length in Hn. cbn [length] in Hn.
        rewrite <- !app_assoc. cbn [app p_setting].
        rewrite (read_parens _ (fun _ => p_commas p_name) _ _ _ n _ Gc) by (lia || reflexivity). cbn [andthen p_op].
        change (String.eqb "=" "=") with true. cbn iota. cbn [andthen]. rewrite G by lia. reflexivity.
  Qed.

  (* ----------------------------------------------------------------------- *)
  (* UPDATE                                                                    *)
  (* ----------------------------------------------------------------------- *)

  Definition only_table (t : tableref) : tableref := {| tb_only := true; tb_name := tb_name t; tb_alias := tb_alias t |}.
  Definition upd_table_back (u : update) (t : tableref) : Prop :=
    if u_only u then exists t', t = only_table t' /\ tb_only t' = false /\ back write_table table_of no_as (u_table u) t'
    else back write_table table_of no_as (u_table u) t.

  Record upd_back (u : update) (b : ubody) : Prop := {
    ub_with : Forall2 (back (write_withq write_expr) with_of any) (u_with u) (up_with b);
    ub_name : no_str (t_name (u_table u)) = false;
    ub_table : upd_table_back u (up_table b);
    ub_set : set_back (u_set u) (up_set b);
    ub_from : Forall2 (back write_fromitem table_of no_as) (u_from u) (up_from b);
    ub_where : opt_back (u_where u) (up_where b);
    ub_returning : items_back (u_returning u) (up_returning b);
    ub_comment : one_line (u_comment u) = true }.

  Lemma only_read : forall ts t rest, tb_only t = false -> p_table ts = Some (t, rest) ->
    p_table (KWord "ONLY" :: ts) = Some (only_table t, rest).
  Proof.
    intros ts t rest Ho H. unfold p_table in *.
    assert (F : flag ["ONLY"] (KWord "ONLY" :: ts) = Some (true, ts)) by reflexivity. rewrite F. cbn [andthen].
    assert (G : flag ["ONLY"] ts = Some (false, ts)).
    { destruct (strip ["ONLY"] ts) as [r|] eqn:S; [|unfold flag, clause; rewrite S; reflexivity].
      assert (K : flag ["ONLY"] ts = Some (true, r)) by (unfold flag, clause; rewrite S; reflexivity).
      rewrite K in H. cbn [andthen] in H. destruct (p_name r) as [[n r1]|]; [|discriminate]. cbn [andthen] in H.
      destruct (clause ["AS"] [] p_name r1) as [[a r2]|]; [|discriminate].
      cbn [andthen] in H. injection H as <- _. discriminate. }
    rewrite G in H. cbn [andthen] in H. destruct (p_name ts) as [[n r1]|]; [|discriminate]. cbn [andthen] in *.
    destruct (clause ["AS"] [] p_name r1) as [[a r2]|]; [|discriminate]. cbn [andthen] in *. injection H as <- <-. reflexivity.
  Qed.

  Lemma upd_table_reads : forall u t, upd_table_back u t -> exists ts,
    tc (when (u_only u) (w " ONLY") +++ (w " " +++ write_table (u_table u))) ts
    /\ forall T, no_as T = true -> p_table (ts ++ T)%list = Some (t, T).
  Proof.
    intros u t H. unfold upd_table_back in H. destruct (u_only u); cbn [when].
    - destruct H as (t' & -> & Ho & (ts & Tt & Nt & G)). exists ([KWord "ONLY"] ++ ([] ++ ts))%list. split.
      + apply tc_app; [apply tc_w; [const|reflexivity]|]. apply tc_lead; [const|discriminate|reflexivity|exact Tt].
      + intros T HT. cbn [app]. apply only_read; [exact Ho|]. apply (G (length ts)); [lia|exact HT].
    - destruct H as (ts & Tt & Nt & G). exists ([] ++ ([] ++ ts))%list. split.
      + apply tc_app; [apply tc_eps|]. apply tc_lead; [const|discriminate|reflexivity|exact Tt].
      + intros T HT. cbn [app]. apply (G (length ts)); [lia|exact HT].
  Qed.

  Lemma with_reads_any : forall ws xs, Forall2 (back (write_withq write_expr) with_of any) ws xs ->
    exists ts, tx true (when (nonempty ws) (write_with write_expr ws +++ w " ")) ts
      /\ forall n T, length ts <= n -> no_comma T = true -> strip ["WITH"] T = None ->
         clause ["WITH"] [] (p_commas (p_with (p_query n))) (ts ++ T)%list = Some (xs, T).
  Proof.
    intros ws xs F. destruct ws as [|q ws].
    - inversion F; subst. exists []. split; [apply tx_eps|]. intros n T _ _ H. cbn [app]. unfold clause. rewrite H. reflexivity.
    - destruct (commas_back _ _ _ _ _ (q :: ws) xs (fun r => eq_refl) ltac:(discriminate) F) as (ts & T & N & G).
      exists (([KWord "WITH"] ++ ts) ++ [])%list. split.
      + cbn [nonempty when]. unfold write_with. cbn [nonempty when].
        apply tx_const; [|const|discriminate|reflexivity]. apply tx_app; [apply tx_w; const|exact T].
      + intros n T' Hn Hc _. rewrite app_nil_r in *. cbn [app length] in *. unfold clause. cbn [strip].
        change (String.eqb "WITH" "WITH") with true. cbn iota. apply (G n); [lia|exact Hc].
  Qed.

  Definition upd_core (u : update) : tr :=
    when (nonempty (u_with u)) (write_with write_expr (u_with u) +++ w " ")
    +++ (w "UPDATE"
    +++ ((when (u_only u) (w " ONLY") +++ (w " " +++ write_table (u_table u)))
    +++ (w " " +++ (w "SET " +++ (write_pairs (u_set u)
    +++ (when (nonempty (u_from u)) (w " " +++ write_from (u_from u))
    +++ (unless (cond_empty (u_where u)) (w " " +++ write_where write_expr (u_where u))
    +++ when (nonempty (u_returning u)) (w " " +++ write_returning (u_returning u))))))))).

  Lemma upd_reads : forall u b, sort_contract o_sort -> upd_back u b -> assigns_something (up_set b) ->
    write_update u = upd_core u +++ write_comment (u_comment u)
    /\ exists ts, tx false (upd_core u) ts
       /\ forall n T, length ts <= n -> stop T = true -> p_update (p_query n) (ts ++ T)%list = Some (b, T).
  Proof.
    intros u b C H A.
    destruct (set_written _ _ C (ub_set _ _ H) A) as (E & ts & Ts & Ns & Gs).
    split.
    { unfold write_update, upd_core, write_set. rewrite (ub_name _ _ H), E. cbn [orb].
      rewrite !cat_assoc. reflexivity. }
    destruct (returning_reads _ _ (ub_returning _ _ H)) as (tr_ & Tr & Fr & Gr).
    destruct (where_reads _ _ ["RETURNING"] (ub_where _ _ H) eq_refl eq_refl eq_refl) as (tw & Tw & Fw & Gw).
    destruct (cb_list _ _ write_fromitem table_of no_as (u_from u) (up_from b) "FROM " "FROM" [] ["WHERE"; "RETURNING"]
                ltac:(const) eq_refl eq_refl (fun _ => eq_refl) (fun T F => front_as _ T F eq_refl) (ub_from _ _ H))
      as (tf & Tf & Ff & Gf).
    destruct (upd_table_reads u (up_table b) (ub_table _ _ H)) as (tt_ & Tt & Gt).
    destruct (with_reads_any _ _ (ub_with _ _ H)) as (twi & Twi & Gwi).
    exists (twi ++ [KWord "UPDATE"] ++ tt_ ++ [KWord "SET"] ++ ts ++ tf ++ tw ++ tr_)%list. split.
    - unfold upd_core. apply tx_app; [exact Twi|]. apply tx_tc; [apply tx_w; const|].
      apply tc_app; [exact Tt|].
      change ([KWord "SET"] ++ ts ++ tf ++ tw ++ tr_)%list with ([] ++ [KWord "SET"] ++ ts ++ tf ++ tw ++ tr_)%list.
      apply tc_lead; [const|discriminate|reflexivity|]. apply tx_app; [apply tx_w; const|].
      apply tx_tc; [exact Ts|]. apply tc_app; [exact Tf|]. apply tc_app; assumption.
    - intros n T Hn HT. rewrite !app_length in Hn. cbn [length] in Hn. rewrite <- !app_assoc. cbn [app].
      unfold p_update. rewrite (Gwi n) by (lia || reflexivity). cbn [andthen]. unfold p_keyword. cbn [strip].
      change (String.eqb "UPDATE" "UPDATE") with true. cbn iota.
      rewrite Gt by reflexivity. cbn [andthen strip]. change (String.eqb "SET" "SET") with true. cbn iota.
      pose proof (Fr T HT) as F1. pose proof (Fw _ F1) as F2. pose proof (Ff _ F2) as F3.
      rewrite Gs by (lia || apply (front_comma _ _ F3)). cbn [andthen].
      unfold table_of in Gf. rewrite (Gf n) by (lia || exact F2). cbn [andthen].
      rewrite (Gw n) by (lia || exact F1). cbn [andthen]. rewrite (Gr n) by (lia || exact HT). cbn [andthen].
      destruct b; reflexivity.
  Qed.

  (* Set with columns. *)
  Lemma fold_set : forall cs p, p_mode p <> PAssoc -> exists p', fold_res pairs_set cs p = Ok p'
    /\ p_cols p' = (p_cols p ++ cs)%list /\ p_exprs p' = p_exprs p /\ p_mode p' = (if nonempty cs then PArray else p_mode p).
  Proof.
    induction cs as [|c cs IH]; intros p M.
    - exists p. split; [reflexivity|]. rewrite app_nil_r. split; [reflexivity|]. split; reflexivity.
    - cbn [fold_res]. unfold pairs_set at 1.
      assert (E : match p_mode p with PUnknown => PArray | m => m end = PArray) by (destruct (p_mode p); congruence).
      rewrite E. cbn [bind]. destruct (IH {| p_mode := PArray; p_map := p_map p; p_cols := (p_cols p ++ [c])%list; p_exprs := p_exprs p |}
        ltac:(discriminate)) as (p' & Ep & Ec & Ee & Em). exists p'. split; [exact Ep|]. cbn [p_cols p_exprs p_mode] in *.
      rewrite <- app_assoc in Ec. split; [exact Ec|]. split; [exact Ee|]. cbn [nonempty]. rewrite Em. destruct cs; reflexivity.
  Qed.

  Lemma columns_merge : forall args ns, columns_say args ns -> forall p, p_mode p <> PAssoc -> exists p' cs,
    merge_set p args = Ok p' /\ Forall2 (back write_column name_of any) cs ns
    /\ p_cols p' = (p_cols p ++ cs)%list /\ p_exprs p' = p_exprs p /\ p_mode p' = (if nonempty args then PArray else p_mode p)
    /\ (args <> [] -> ns <> []).
  Proof.
    intros args ns H. induction H as [|x items rest ns C Hi H IH|x rest ns Hx H IH]; intros p M.
    - exists p, []. split; [reflexivity|]. split; [constructor|]. rewrite app_nil_r. repeat (split; [reflexivity|]). congruence.
    - destruct (columns_back [GStr x] _ (columns_string x items [] [] C Hi columns_none)) as (c1 & E1 & F1).
      rewrite app_nil_r in F1.
      assert (Nc : c1 <> []). { intro E. subst c1. inversion F1 as [E|]. destruct C as (N & _). destruct items; [congruence|discriminate]. }
      destruct (fold_set c1 p M) as (p1 & Ep1 & Ec1 & Ee1 & Em1).
      assert (Em1' : p_mode p1 = PArray) by (rewrite Em1; destruct c1; [congruence|reflexivity]).
      destruct (IH p1 ltac:(congruence)) as (p2 & c2 & Ep2 & F2 & Ec2 & Ee2 & Em2 & _).
      exists p2, (c1 ++ c2)%list. split; [|split; [apply Forall2_app; assumption|split; [|split; [congruence|split]]]].
      + unfold merge_set in *. cbn [fold_res]. unfold merge_arg at 1. rewrite E1. cbn [bind]. rewrite Ep1. exact Ep2.
      + rewrite Ec2, Ec1, app_assoc. reflexivity.
      + rewrite Em2, Em1'. destruct (nonempty rest); reflexivity.
      + intros _ E. apply app_eq_nil in E. destruct E as [E _]. destruct C as (N & _). destruct items; [congruence|discriminate].
    - destruct (columns_back [GColumn (lk_column x)] _ (columns_value x [] [] Hx columns_none)) as (c1 & E1 & F1).
      assert (Nc : c1 <> []). { intro E. subst c1. inversion F1. }
      destruct (fold_set c1 p M) as (p1 & Ep1 & Ec1 & Ee1 & Em1).
      assert (Em1' : p_mode p1 = PArray) by (rewrite Em1; destruct c1; [congruence|reflexivity]).
      destruct (IH p1 ltac:(congruence)) as (p2 & c2 & Ep2 & F2 & Ec2 & Ee2 & Em2 & _).
      exists p2, (c1 ++ c2)%list. split; [|split; [|split; [|split; [congruence|split]]]].
      + unfold merge_set in *. cbn [fold_res]. unfold merge_arg at 1. rewrite E1. cbn [bind]. rewrite Ep1. exact Ep2.
      + change (parts_of x :: ns) with ([parts_of x] ++ ns)%list. apply Forall2_app; assumption.
      + rewrite Ec2, Ec1, app_assoc. reflexivity.
      + rewrite Em2, Em1'. destruct (nonempty rest); reflexivity.
      + discriminate.
  Qed.

  Lemma columns_mixed : forall args ns, columns_say args ns -> forall p, args <> [] -> p_mode p = PAssoc ->
    exists x, merge_set p args = Panic x.
  Proof.
    intros args ns H p N M. destruct H as [|x items rest ns C Hi H|x rest ns Hx H]; [congruence| |].
    - destruct (columns_back [GStr x] _ (columns_string x items [] [] C Hi columns_none)) as (c1 & E1 & F1).
      destruct c1 as [|c c1].
      + rewrite app_nil_r in F1. inversion F1 as [X|]. destruct C as (Ni & _). destruct items; [congruence|discriminate].
      + unfold merge_set. cbn [fold_res]. unfold merge_arg at 1. rewrite E1. cbn [bind fold_res].
        unfold pairs_set at 1. rewrite M. eexists. reflexivity.
    - destruct (columns_back [GColumn (lk_column x)] _ (columns_value x [] [] Hx columns_none)) as (c1 & E1 & F1).
      destruct c1 as [|c c1]; [inversion F1|]. unfold merge_set. cbn [fold_res]. unfold merge_arg at 1. rewrite E1.
      cbn [bind fold_res]. unfold pairs_set at 1. rewrite M. eexists. reflexivity.
  Qed.

  Lemma scalars_back : forall args l, Forall2 value_says args l ->
    exists es, map_res new_expression args = Ok es /\ Forall2 scalar_back es l.
  Proof.
    intros args l F. induction F as [|v a args l H F (es & E & S)].
    - exists []. split; [reflexivity|constructor].
    - destruct (says_scalar v a H) as (e & Ee & Se & _). exists (e :: es). cbn [map_res]. rewrite Ee, E.
      split; [reflexivity|constructor; assumption].
  Qed.

  Lemma fold_use : forall args es p, map_res new_expression args = Ok es -> p_mode p = PArray ->
    fold_res (fun p g => do e <- new_expression g; pairs_use p e) args p
    = Ok {| p_mode := PArray; p_map := p_map p; p_cols := p_cols p; p_exprs := (p_exprs p ++ es)%list |}.
  Proof.
    induction args as [|g args IH]; intros es p E M.
    - injection E as <-. rewrite app_nil_r. cbn [fold_res]. destruct p. cbn in *. subst. reflexivity.
    - cbn [map_res] in E. destruct (new_expression g) as [e|] eqn:Eg; [|discriminate]. cbn [bind] in E.
      destruct (map_res new_expression args) as [es'|] eqn:Ea; [|discriminate]. injection E as <-.
      cbn [fold_res]. rewrite Eg. cbn [bind]. unfold pairs_use at 1. rewrite M. cbn [bind].
      rewrite (IH es' _ eq_refl) by reflexivity. cbn [p_map p_cols p_exprs]. rewrite <- app_assoc. reflexivity.
  Qed.

  Lemma set_fields : forall u b p s, upd_back u b -> set_back p s -> upd_back (upd_with_set u p) (put_set s b).
  Proof. intros u b p s [] S. constructor; assumption. Qed.

  Lemma upd_says_back : forall u b, upd_says u b -> upd_back u b.
  Proof.
    intros u b H. induction H as [g t u Hg H|u b u' _ IH Ho H|u b args m l u' _ IH Es Hp H|u b args ns u' _ IH Es Hc H
      |u b args cols s ns u' _ IH Es Hc H|u b args cols vs l u' _ IH Es Hv H|u b g s q cols u' _ IH Es Hs Hq Hf H
      |u b ws l u' _ IH Hw H|u b e f u' _ IH He H|u b e f g u' _ IH He Eq H|u b e f g u' _ IH He Eq H
      |u b g t u' _ IH Hg H|u b args l u' _ IH Hi H|u b c u' _ IH Hc H].
    - unfold lk_update in H. destruct (table_says_back g t Hg) as (tb & _ & Et & Nt & B & _). rewrite Et in H.
      cbn [bind] in H. injection H as <-. constructor; try constructor; try assumption; try reflexivity.
      apply each_empty. discriminate.
    - injection H as <-. pose proof (ub_table _ _ IH) as T. destruct IH; constructor; try assumption. unfold upd_table_back in *.
      cbn [u_only upd_with_only u_table up_table]. destruct (u_only u).
      + destruct T as (t' & E & _). rewrite E in Ho. discriminate.
      + exists (up_table b). split; [reflexivity|]. split; assumption.
    - pose proof (ub_set _ _ IH) as S. rewrite Es in S. destruct (merge_set_back args l _ m Hp S) as (p & E & B).
      destruct args as [|g args]; [discriminate|]. cbn [upd_step] in H. rewrite E in H. cbn [bind] in H. injection H as <-.
      apply set_fields; assumption.
    - pose proof (ub_set _ _ IH) as S. rewrite Es in S. destruct S as (r & R & F). inversion F; subst r.
      assert (Ec : p_cols (u_set u) = []).
      { destruct (p_cols (u_set u)) as [|c cs] eqn:E; [reflexivity|]. pose proof (ri_cols _ _ R c) as I. rewrite E in I.
        exfalso. apply I. left. reflexivity. }
      pose proof (ri_exprs _ _ R) as Ee.
      destruct args as [|g args]; [discriminate|]. cbn [upd_step] in H.
      destruct (ri_mode _ _ R) as [M|[M _]].
      { exfalso. destruct (columns_mixed _ _ Hc (u_set u) ltac:(discriminate) M) as (x & E). rewrite E in H. discriminate. }
      destruct (columns_merge _ _ Hc (u_set u) ltac:(congruence)) as (p & cs & E & Fc & E1 & E2 & E3 & N).
      rewrite E in H. cbn [bind] in H. injection H as <-. apply set_fields; [exact IH|]. constructor.
      + rewrite E3. reflexivity.
      + rewrite E1, Ec. exact Fc.
      + apply N. discriminate.
      + cbn [sources_back]. rewrite E2, Ee. constructor.
    - pose proof (ub_set _ _ IH) as S. rewrite Es in S. destruct S as [M Fc Nc Hs].
      destruct args as [|g args]; [discriminate|]. cbn [upd_step] in H.
      destruct (columns_merge _ _ Hc (u_set u) ltac:(congruence)) as (p & cs & E & Fc' & E1 & E2 & E3 & N).
      rewrite E in H. cbn [bind] in H. injection H as <-. apply set_fields; [exact IH|]. constructor.
      + rewrite E3. reflexivity.
      + rewrite E1. apply Forall2_app; assumption.
      + intro X. apply app_eq_nil in X. tauto.
      + rewrite E2. exact Hs.
    - pose proof (ub_set _ _ IH) as S. rewrite Es in S. destruct S as [M Fc Nc Su]. cbn [sources_back] in Su.
      destruct (scalars_back args l Hv) as (es' & E & Su'). cbn [upd_step] in H. rewrite M in H.
      destruct args as [|g args]; [discriminate|]. rewrite (fold_use _ _ _ E M) in H. cbn [bind] in H. injection H as <-.
      apply set_fields; [exact IH|]. constructor; cbn [p_mode p_cols p_exprs]; try assumption; try reflexivity.
      cbn [sources_back]. apply Forall2_app; assumption.
    - pose proof (ub_set _ _ IH) as S. rewrite Es in S. destruct S as [M Fc Nc Ev]. cbn [sources_back] in Ev.
      assert (Eu : p_exprs (u_set u) = []) by (inversion Ev; reflexivity). cbn [upd_step] in H. rewrite M in H.
      assert (E : map_res new_expression [g] = Ok [ESelect s]) by (cbn [map_res]; rewrite (sub_new _ _ Hs); reflexivity).
      rewrite (fold_use _ _ _ E M) in H. cbn [bind] in H. injection H as <-.
      apply set_fields; [exact IH|]. constructor; cbn [p_mode p_cols p_exprs]; try assumption; try reflexivity.
      exists s. rewrite Eu. split; [reflexivity|]. apply query_back_core; [|exact Hf].
      apply (proj2 (proj2 (proj2 (proj2 (proj2 calls_back))))), Hq.
    - apply (proj1 (proj2 (proj2 (proj2 (proj2 calls_back))))) in Hw. cbn [upd_step] in H. injection H as <-.
      pose proof (ub_with _ _ IH) as W. destruct IH; constructor; try assumption. cbn [u_with upd_with_with up_with].
      replace (if nonempty (u_with u) then u_with u ++ ws else ws)%list with (u_with u ++ ws)%list by (destruct (u_with u); reflexivity).
      apply Forall2_app; assumption.
    - apply (proj1 calls_back) in He. cbn [upd_step] in H. destruct (where_where (u_where u) e) as [wh|] eqn:E; [|discriminate].
      cbn [bind] in H. injection H as <-. pose proof (where_back _ _ _ _ _ (ub_where _ _ IH) He E) as W.
      destruct IH; constructor; try assumption. cbn [up_where put_where u_where upd_with_where].
      destruct (up_where b); exact W.
    - apply (proj1 calls_back) in He. cbn [upd_step] in H. destruct (where_and (u_where u) e) as [wh|] eqn:E; [|discriminate].
      cbn [bind] in H. injection H as <-. pose proof (ub_where _ _ IH) as W. rewrite Eq in W. cbn [opt_back] in W.
      pose proof (where_and_back _ _ _ _ _ W He E). destruct IH; constructor; assumption.
    - apply (proj1 calls_back) in He. cbn [upd_step] in H. destruct (where_or (u_where u) e) as [wh|] eqn:E; [|discriminate].
      cbn [bind] in H. injection H as <-. pose proof (ub_where _ _ IH) as W. rewrite Eq in W. cbn [opt_back] in W.
      pose proof (where_or_back _ _ _ _ _ W He E). destruct IH; constructor; assumption.
    - destruct (from_back [g] [t] (Forall2_cons _ _ Hg (Forall2_nil _))) as (l & E & F). cbn [upd_step] in H.
      destruct (nonempty (u_from u)); [discriminate|]. unfold to_from in H. rewrite E in H. cbn [bind] in H.
      destruct (nonempty l); [|discriminate]. injection H as <-. destruct IH; constructor; assumption.
    - destruct (items_selexprs args l Hi) as (es & E & F). cbn [upd_step] in H.
      destruct (nonempty (u_returning u)); [discriminate|]. rewrite E in H. cbn [bind] in H. injection H as <-.
      destruct IH; constructor; assumption.
    - cbn [upd_step] in H. injection H as <-. destruct IH; constructor; assumption.
  Qed.

  (* ----------------------------------------------------------------------- *)
  (* INSERT                                                                    *)
  (* ----------------------------------------------------------------------- *)

  Definition row_back (es : list expr) (l : list term) : Prop := es <> [] /\ Forall2 operand_back es l.
  Definition rows_back (e : expr) (ls : list (list term)) : Prop :=
    match ls with
    | [] => e = ENil
    | _ => exists rows, e = EArrayList (map EArray rows) /\ Forall2 row_back rows ls
    end.
  Definition conflict_back (l : list column) (a : option conflict_action) (c : option (list name * onconflict)) : Prop :=
    match c with
    | None => l = [] /\ a = None
    | Some (ns, act) =>
      Forall2 (back write_column name_of any) l ns
      /\ match act, a with
         | DoNothing, Some ActNothing => True
         | DoUpdate m, Some (ActUpdate p) => each_back p m /\ m <> []
         | _, _ => False
         end
    end.

  Record ins_back (i : insert) (b : ibody) : Prop := {
    ib_name : no_str (t_name (i_into i)) = false;
    ib_into : back write_table table_of no_as (i_into i) (in_table b);
    ib_columns : Forall2 (back write_column name_of any) (i_columns i) (in_columns b);
    ib_rows : rows_back (i_values i) (in_rows b);
    ib_conflict : conflict_back (i_conflict_target i) (i_conflict_action i) (in_conflict b);
    ib_returning : items_back (i_returning i) (in_returning b);
    ib_comment : one_line (i_comment i) = true }.

  Definition row_of (n : nat) : parser (list term) := p_row (p_query n).

  Lemma row_written : forall es l, row_back es l ->
    back (fun e => w "(" +++ write_expr e +++ w ")") row_of any (EArray es) l.
  Proof.
    intros es l (N & F).
    assert (F' : Forall2 (back write_expr term_of any) es l).
    { clear N. induction F as [|e a es l (_ & _ & ts & T & G & _) F IH]; constructor; [exists ts; split; assumption|exact IH]. }
    destruct (commas_back _ _ write_expr term_of any es l (fun _ => eq_refl) N F') as (ts & T & G).
    exists (KOpen :: ts ++ [KClose])%list. split; [apply tx_parens, T|]. split; [discriminate|].
    intros n rest Hn _. cbn [length] in Hn. rewrite app_length in Hn. cbn [length] in Hn. cbn [app]. rewrite <- app_assoc. cbn [app].
    unfold row_of, p_row. apply (read_parens _ (fun n => p_commas (term_of n)) _ _ _ n rest G); [lia|reflexivity].
  Qed.

  Lemma rows_reads : forall e ls, rows_back e ls ->
    cb (unless (cond_empty e) (w " " +++ write_values e)) (fun n => clause ["VALUES"] [] (p_commas (row_of n))) ls
       ["ON"; "RETURNING"] ["VALUES"; "ON"; "RETURNING"].
  Proof.
    intros e ls H. destruct ls as [|l ls].
    - cbn [rows_back] in H. subst e. apply (cb_none _ (fun n => p_commas (row_of n))); reflexivity.
    - destruct H as (rows & -> & F). set (L := map EArray rows).
      assert (FL : Forall2 (back (fun e => w "(" +++ write_expr e +++ w ")") row_of any) L (l :: ls)).
      { unfold L. clear - F. induction F as [|es x rows xs H F IH]; constructor; [apply row_written, H|exact IH]. }
      assert (NL : nonempty L = true) by (unfold L; destruct rows; [inversion F|reflexivity]).
      assert (E : unless (cond_empty (EArrayList L)) (w " " +++ write_values (EArrayList L))
        = when (nonempty L) (w " " +++ (w "VALUES " +++ sep_by ", " (map (fun e => w "(" +++ write_expr e +++ w ")") L)))).
      { unfold write_values. unfold cond_empty. cbn [is_nil is_empty]. rewrite NL. reflexivity. }
      rewrite E. apply (cb_list _ _ _ row_of any); try reflexivity; [const|exact FL].
  Qed.

  Definition target_toks (ns : list name) (ts : list lexeme) : Prop :=
    forall T, match T with KOpen :: _ => False | _ => True end -> p_names (ts ++ T)%list = Some (ns, T).

  Lemma target_written : forall l ns, Forall2 (back write_column name_of any) l ns ->
    exists ts, tx true (when (nonempty l) (write_target l +++ w " ")) ts /\ target_toks ns ts.
  Proof.
    intros l ns F. destruct l as [|c l].
    - inversion F; subst. exists []. split; [apply tx_eps|]. intros T HT. cbn [app]. unfold p_names.
      destruct T as [|[] T]; try reflexivity. destruct HT.
    - destruct (commas_back _ _ write_column name_of any (c :: l) ns (fun _ => eq_refl) ltac:(discriminate) F) as (ts & T & G).
      exists ((KOpen :: ts ++ [KClose]) ++ [])%list. split.
      + unfold write_target. cbn [nonempty when]. apply tx_const; [apply tx_parens, T|const|discriminate|reflexivity].
      + intros T' _. rewrite app_nil_r. cbn [app]. rewrite <- app_assoc. cbn [app p_names].
        apply (read_parens _ (fun _ => p_commas p_name) _ _ _ (length ts) T' G); [lia|reflexivity].
  Qed.

  Lemma conflict_reads : forall l a c, sort_contract o_sort -> conflict_back l a c ->
    cb (when (negb (conflict_empty a)) (w " " +++ write_conflict l a))
       (fun n => optional ["ON"; "CONFLICT"] (p_conflict (p_query n))) c ["RETURNING"] ["ON"; "RETURNING"].
  Proof.
    intros l a c C H. destruct c as [[ns act]|].
    - destruct H as (F & H). destruct (target_written l ns F) as (tt_ & Tt & Gt). destruct act as [|m].
      + destruct a as [[|p]|]; try destruct H. cbn [conflict_empty action_empty negb when write_conflict].
        rewrite cat_assoc. eapply cb_some; [const|apply tx_app; [exact Tt|apply (tx_w false "DO NOTHING" [KWord "DO"; KWord "NOTHING"]); const]|].
        intros n T Hn HT. unfold p_conflict. rewrite <- app_assoc. rewrite Gt by exact I. reflexivity.
      + destruct a as [[|p]|]; try destruct H. rename H into B, H0 into N.
        destruct (each_written p m C B N) as (E & ts & Ts & (Nt & G) & _).
        cbn [conflict_empty action_empty write_conflict]. rewrite E. cbn [negb when].
        rewrite cat_assoc. eapply cb_some; [const|apply tx_app; [exact Tt|]|].
        { cbn [write_action]. unfold write_set. apply (tx_app _ _ _ [KWord "DO"; KWord "UPDATE"]); [apply tx_w; const|].
          apply (tx_app _ _ _ [KWord "SET"]); [apply tx_w; const|exact Ts]. }
        intros n T Hn HT. unfold p_conflict. rewrite <- app_assoc. rewrite Gt by exact I. cbn [andthen app strip].
        change (String.eqb "DO" "DO") with true. change (String.eqb "NOTHING" "UPDATE") with false. cbn iota.
        unfold p_keyword. cbn [strip]. change (String.eqb "DO" "DO") with true. change (String.eqb "UPDATE" "UPDATE") with true.
        change (String.eqb "SET" "SET") with true. cbn iota. rewrite app_length in Hn. cbn [app length] in Hn.
        unfold assign_of in G. rewrite G by (lia || apply (front_comma _ _ HT)). reflexivity.
    - destruct H as [-> ->]. apply (cb_none _ (fun n ts => read x r from p_conflict (p_query n) ts; Some (Some x, r))); reflexivity.
  Qed.

  Definition ins_core (i : insert) : tr :=
    w "INSERT INTO " +++ (write_table (i_into i)
    +++ (when (nonempty (i_columns i)) (w " (" +++ write_columns (i_columns i) +++ w ")")
    +++ (unless (cond_empty (i_values i)) (w " " +++ write_values (i_values i))
    +++ (when (negb (conflict_empty (i_conflict_action i)))
          (w " " +++ write_conflict (i_conflict_target i) (i_conflict_action i))
    +++ when (nonempty (i_returning i)) (w " " +++ write_returning (i_returning i)))))).

  Lemma columns_reads : forall l ns, Forall2 (back write_column name_of any) l ns ->
    exists ts, tc (when (nonempty l) (w " (" +++ write_columns l +++ w ")")) ts /\ target_toks ns ts
      /\ forall T, no_as T = true -> no_as (ts ++ T)%list = true.
  Proof.
    intros l ns F. destruct l as [|c l].
    - inversion F; subst. exists []. split; [apply tc_eps|]. split; [|intros T H; exact H]. intros T HT. cbn [app]. unfold p_names.
      destruct T as [|[] T]; try reflexivity. destruct HT.
    - destruct (commas_back _ _ write_column name_of any (c :: l) ns (fun _ => eq_refl) ltac:(discriminate) F) as (ts & T & G).
      exists ([KOpen] ++ (ts ++ [KClose]))%list. split; [|split].
      + cbn [nonempty when]. rewrite cat_assoc. apply tc_lead; [const|discriminate|reflexivity|].
        apply tx_const; [exact T|const|discriminate|reflexivity].
      + intros T' _. cbn [app]. rewrite <- app_assoc. cbn [app p_names].
        apply (read_parens _ (fun _ => p_commas p_name) _ _ _ (length ts) T' G); [lia|reflexivity].
      + intros T' _. reflexivity.
  Qed.

  Lemma front_open : forall l T, front l T = true -> match T with KOpen :: _ => False | _ => True end.
  Proof. intros l [|[] T] H; try exact I. discriminate. Qed.

  Lemma ins_reads : forall i b, sort_contract o_sort -> ins_back i b ->
    write_insert i = ins_core i +++ write_comment (i_comment i)
    /\ exists ts, tx false (ins_core i) ts
       /\ forall n T, length ts <= n -> stop T = true -> p_insert (p_query n) (ts ++ T)%list = Some (b, T).
  Proof.
    intros i b C H. split.
    { unfold write_insert, ins_core. rewrite (ib_name _ _ H). rewrite !cat_assoc. reflexivity. }
    destruct (returning_reads _ _ (ib_returning _ _ H)) as (tr_ & Tr & Fr & Gr).
    destruct (conflict_reads _ _ _ C (ib_conflict _ _ H)) as (tk & Tk & Fk & Gk).
    destruct (rows_reads _ _ (ib_rows _ _ H)) as (tv & Tv & Fv & Gv).
    destruct (columns_reads _ _ (ib_columns _ _ H)) as (tl & Tl & Gl & Al).
    destruct (ib_into _ _ H) as (tt_ & Tt & Nt & Gt).
    exists ([KWord "INSERT"; KWord "INTO"] ++ tt_ ++ tl ++ tv ++ tk ++ tr_)%list. split.
    - unfold ins_core. apply tx_app; [apply tx_w; const|]. apply tx_tc; [exact Tt|]. apply tc_app; [exact Tl|].
      apply tc_app; [exact Tv|]. apply tc_app; assumption.
    - intros n T Hn HT. rewrite !app_length in Hn. cbn [length] in Hn. rewrite <- !app_assoc. cbn [app].
      unfold p_insert, p_keyword. cbn [strip]. change (String.eqb "INSERT" "INSERT") with true.
      change (String.eqb "INTO" "INTO") with true. cbn iota.
      pose proof (Fr T HT) as F1. pose proof (Fk _ F1) as F2. pose proof (Fv _ F2) as F3.
      unfold table_of in Gt. rewrite (Gt n) by (lia || (apply Al, (front_as _ _ F3); reflexivity)). cbn [andthen].
      rewrite Gl by apply (front_open _ _ F3). cbn [andthen].
      unfold row_of in Gv. rewrite (Gv n) by (lia || exact F2). cbn [andthen].
      rewrite (Gk n) by (lia || exact F1). cbn [andthen]. rewrite (Gr n) by (lia || exact HT). cbn [andthen].
      destruct b; reflexivity.
  Qed.

  (* What Values and Set store. *)
  Lemma row_values : forall vs l, row_says vs l -> exists es, new_array vs = Ok (EArray es) /\ row_back es l.
  Proof.
    intros vs l (N & S & F). destruct (scalars_back vs l F) as (es & E & Su). exists es. split; [|split].
    - rewrite plain_row by exact S. unfold row_exprs. rewrite E. reflexivity.
    - intro X. subst es. inversion Su. subst. inversion F. congruence.
    - clear - Su. induction Su as [|e a es l H F IH]; constructor; [apply scalar_operand, H|exact IH].
  Qed.

  Lemma values_stored : forall vs l, row_says vs l -> exists e, new_array_list vs = Ok e /\ rows_back e [l].
  Proof.
    intros vs l H. destruct (row_values vs l H) as (es & E & B). destruct H as (Nv & _ & F).
    exists (EArrayList [EArray es]). split.
    - destruct vs as [|v vs]; [congruence|]. unfold new_array_list.
      assert (R : row_elems v = []).
      { inversion F as [|? a ? ? Hb]; subst. destruct Hb as [v t Hb| | |c t Hb]; [|reflexivity|reflexivity|destruct Hb; reflexivity].
        destruct v; try reflexivity; discriminate. }
      unfold to_array_list. rewrite R. cbn [map_res bind nonempty]. rewrite E. reflexivity.
    - exists [es]. split; [reflexivity|]. constructor; [exact B|constructor].
  Qed.
  Lemma batch_stored : forall g rows ls, Rows.batch g rows -> rows <> [] -> Forall2 row_says rows ls ->
    exists e, new_array_list [g] = Ok e /\ rows_back e ls.
  Proof.
    intros g rows ls Hb N F.
    assert (G : exists rs, map_res new_array rows = Ok (map EArray rs) /\ Forall2 row_back rs ls).
    { clear Hb N. induction F as [|vs l rows ls H F (rs & E & G)]; [exists []; split; [reflexivity|constructor]|].
      destruct (row_values vs l H) as (es & E' & B). exists (es :: rs). split.
      - cbn [map_res]. rewrite E'. cbn [bind]. rewrite E. reflexivity.
      - constructor; assumption. }
    destruct G as (rs & E & G). exists (EArrayList (map EArray rs)). split.
    - unfold new_array_list. rewrite (batch_rows g rows Hb), E. cbn [bind].
      destruct rs; [inversion G; subst; inversion F; congruence|reflexivity].
    - destruct ls as [|l ls]; [inversion F; congruence|]. exists rs. split; [reflexivity|exact G].
  Qed.

  Lemma set_stored : forall r m, r <> [] -> Forall2 entry_back r m ->
    Forall2 (back write_column name_of any) (map (fun xe => lk_column (fst xe)) r) (map fst m)
    /\ exists e, new_array_list [GExprs (map snd r)] = Ok e /\ rows_back e [map snd m].
  Proof.
    intros r m N F. split; [|exists (EArrayList [EArray (map snd r)]); split].
    - clear N. induction F as [|[x e] [n a] r m (Hx & En & _) F IH]; constructor; [|exact IH]. cbn [fst snd] in *. subst n.
      apply column_back, Hx.
    - unfold new_array_list, to_array_list. cbn [row_elems map_res bind nonempty]. unfold new_array, to_array. cbn [slice_elems].
      rewrite exprs_back; [reflexivity|]. clear N. induction F as [|xe na r m (_ & _ & (Hn & _)) F IH]; constructor; assumption.
    - exists [map snd r]. split; [reflexivity|]. constructor; [|constructor]. split; [destruct r; [congruence|discriminate]|].
      clear N. induction F as [|xe na r m (_ & _ & Ho) F IH]; constructor; assumption.
  Qed.

  Lemma keys_back : forall gs ns, Forall2 key_says gs ns -> exists cs, map_res to_column gs = Ok cs
    /\ Forall2 (back write_column name_of any) cs ns
    /\ Forall (fun t => match t with GStr _ | GColumn _ => True | _ => False end) gs.
  Proof.
    intros gs ns F. induction F as [|g n gs ns H F (cs & E & G & K)].
    - exists []. split; [reflexivity|]. split; constructor.
    - destruct (key_back g n H) as (x & Ex & Hx & ->). exists (lk_column x :: cs). split; [|split].
      + cbn [map_res]. rewrite Ex, E. reflexivity.
      + constructor; [apply column_back, Hx|exact G].
      + constructor; [destruct H; exact I|exact K].
  Qed.

  Lemma each_some : forall p m, each_back p m -> m <> [] -> pairs_empty p = false.
  Proof.
    intros p m (r & R & F) N. destruct r as [|[x e] r]; [inversion F; congruence|].
    destruct (ri_mode _ _ R) as [M|[_ E]]; [|discriminate]. unfold pairs_empty. rewrite M.
    pose proof (ri_get _ _ R (lk_column x)) as G. cbn [entries map pm_get fst snd] in G. rewrite col_eqb_refl in G.
    destruct (p_map p); [discriminate|reflexivity].
  Qed.

  (* OnConflict on a builder without a conflict clause. *)
  Lemma on_conflict_stored : forall i b gs ns g a i', ins_back i b -> Forall2 key_says gs ns -> Rows.action_of g = Some a ->
    ins_step i (InsOnConflict (gs ++ [g])%list) = Ok i' ->
    exists cs, i' = ins_with_conflict i cs (Some a) /\ Forall2 (back write_column name_of any) cs ns.
  Proof.
    intros i b gs ns g a i' B F Ha H. cbn [ins_step] in H.
    destruct (conflict_empty (i_conflict_action i)) eqn:Ec; [|discriminate].
    assert (Et : i_conflict_target i = []).
    { pose proof (ib_conflict _ _ B) as K. destruct (in_conflict b) as [[ns' act]|]; [|apply K].
      destruct K as (_ & K). destruct act as [|m]; destruct (i_conflict_action i) as [[|p]|]; try destruct K.
      - discriminate.
      - cbn [conflict_empty action_empty] in Ec. rewrite (each_some p m) in Ec by assumption. discriminate. }
    rewrite Et in H. destruct (keys_back gs ns F) as (cs & E & G & K).
    assert (H' : (do ta <- on_conflict_loop (gs ++ [g])%list []; Ok (ins_with_conflict i (fst ta) (Some (snd ta)))) = Ok i')
      by (destruct gs; exact H). clear H.
    destruct (on_conflict_loop (gs ++ [g])%list []) as [[t a']|] eqn:L; [|discriminate]. cbn [bind fst snd] in H'. injection H' as <-.
    assert (X : (a' = a /\ t = cs)%type).
    { assert (Q : forall gs cs t0, map_res to_column gs = Ok cs ->
        Forall (fun t => match t with GStr _ | GColumn _ => True | _ => False end) gs ->
        on_conflict_loop (gs ++ [g])%list t0 = Ok (t, a') -> a' = a /\ t = (t0 ++ cs)%list).
      { clear - Ha. induction gs as [|x gs IH]; intros cs t0 E K L.
        - injection E as <-. rewrite app_nil_r. cbn [app on_conflict_loop] in L. destruct g; try discriminate Ha; injection Ha as <-.
          + injection L as <- <-. split; reflexivity.
          + destruct (nonempty t0); [|discriminate]. injection L as <- <-. split; reflexivity.
        - apply Forall_cons_iff in K. destruct K as [X K]. cbn [map_res] in E. destruct (to_column x) as [c|] eqn:Ex; [|discriminate].
          cbn [bind] in E. destruct (map_res to_column gs) as [cs'|] eqn:Es; [|discriminate]. injection E as <-.
          assert (L' : on_conflict_loop (gs ++ [g])%list (t0 ++ [c])%list = Ok (t, a')).
          { destruct x; try destruct X; cbn [app on_conflict_loop] in L; rewrite Ex in L; exact L. }
          destruct (IH cs' _ eq_refl K L') as [-> ->]. rewrite <- app_assoc. split; reflexivity. }
      apply (Q gs cs [] E K L). }
    destruct X as [-> ->]. exists cs. split; [reflexivity|exact G].
  Qed.

  Lemma ins_says_back : forall i b, sort_contract o_sort -> ins_says i b -> ins_back i b.
  Proof.
    intros i b C H. induction H as [g t i Hg H|i b args ns i' _ IH N Hc H|i b vs l i' _ IH Hr H|i b g rows ls i' _ IH Hb N Hr H
      |i b args l i' _ IH Hp N H|i b gs ns i' _ IH Hk H|i b gs ns args l g i' _ IH Hk Hp N Hg H|i b args l i' _ IH Hi H|i b c i' _ IH Hc H].
    - unfold lk_insert in H. cbn [ins_step new_insert i_into zero_table t_name] in H. change (no_str "") with true in H. cbn iota in H.
      destruct (table_says_back g t Hg) as (tb & _ & Et & Nt & B & Eg).
      assert (E : to_into g = Ok tb).
      { unfold to_into. destruct g; try contradiction; subst tb; cbn [bind]; rewrite Nt; reflexivity. }
      rewrite E in H. cbn [bind] in H. injection H as <-. constructor; try assumption; try constructor; reflexivity.
    - destruct (columns_args_back args ns Hc) as (cs & E & F). cbn [ins_step] in H. destruct args as [|g args]; [congruence|].
      destruct (nonempty (i_columns i)); [discriminate|]. rewrite E in H. cbn [bind] in H. injection H as <-.
      destruct IH; constructor; assumption.
    - destruct (values_stored vs l Hr) as (e & E & R). cbn [ins_step] in H. destruct (cond_empty (i_values i)) as [[]|]; try discriminate.
      cbn [bind] in H. rewrite E in H. cbn [bind] in H. injection H as <-. destruct IH; constructor; assumption.
    - destruct (batch_stored g rows ls Hb N Hr) as (e & E & R). cbn [ins_step] in H. destruct (cond_empty (i_values i)) as [[]|]; try discriminate.
      cbn [bind] in H. rewrite E in H. cbn [bind] in H. injection H as <-. destruct IH; constructor; assumption.
    - cbn [ins_step] in H. destruct (nonempty (i_columns i)); [discriminate|]. destruct (cond_empty (i_values i)) as [[]|]; try discriminate.
      cbn [bind] in H. unfold to_set in H.
      destruct (merge_set_back args l _ [] Hp (each_empty PAssoc ltac:(discriminate))) as (p & E & B). rewrite E in H. cbn [bind] in H.
      destruct (each_values p _ C B (assign_all_nonempty l [] N)) as (r & M & Ep & V & F). rewrite V in H. cbn [bind fst snd] in H.
      assert (Nr : r <> []) by (intro X; subst r; inversion F as [Y|]; apply (assign_all_nonempty l [] N); congruence).
      destruct (set_stored r _ Nr F) as (Fc & e & Ee & R). rewrite Ee in H. cbn [bind] in H. injection H as <-.
      destruct IH; constructor; assumption.
    - destruct (on_conflict_stored i b gs ns lk_do_nothing ActNothing i' IH Hk eq_refl H) as (cs & -> & F).
      destruct IH; constructor; try assumption. split; [exact F|exact I].
    - unfold lk_do_update, to_set in Hg.
      destruct (merge_set_back args l _ [] Hp (each_empty PAssoc ltac:(discriminate))) as (p & E & B). rewrite E in Hg. cbn [bind] in Hg.
      injection Hg as <-.
      destruct (on_conflict_stored i b gs ns (GConflictUpdate p) (ActUpdate p) i' IH Hk eq_refl H) as (cs & -> & F).
      destruct IH; constructor; try assumption. split; [exact F|]. split; [exact B|apply assign_all_nonempty, N].
    - destruct (items_selexprs args l Hi) as (es & E & F). cbn [ins_step] in H.
      destruct (nonempty (i_returning i)); [discriminate|]. rewrite E in H. cbn [bind] in H. injection H as <-.
      destruct IH; constructor; assumption.
    - cbn [ins_step] in H. injection H as <-. destruct IH; constructor; assumption.
  Qed.
End Dml.
