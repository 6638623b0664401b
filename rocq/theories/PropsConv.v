(* C21, C22, C43: conversions of arguments. *)
From Verif Require Import ConvP ClausesP Sort.

(* ------------------------------------------------------------------------- *)
(* C21                                                                         *)
(* ------------------------------------------------------------------------- *)

(* Limit(g) returns only for an integer, sets LIMIT to that very integer and nothing else, and
   the SQL has its decimal form. Unless given as a stmt.Limit, it is positive. *)
Theorem C21_limit_exact {O : Oracle} : forall q g q', typed g -> sel_step q (SelLimit g) = Ok q' ->
  exists z, int_value g = Some z /\ q' = with_limit q z
    /\ ((exists x, g = GLimit x) \/ (0 < z <= 9223372036854775807)%Z)
    /\ (z <> 0%Z -> exists t, dec_value t = Some z /\ In (Some (Ok (lit ("LIMIT " ++ t)))) (select_clauses q')).
Proof.
  intros q g q' T E. cbn [sel_step] in E. destruct (s_limit q =? 0)%Z; [|discriminate E].
  destruct (to_limit g) as [z|] eqn:L; [|discriminate E]. injection E as <-. exists z.
  assert (A : int_value g = Some z /\ ((exists x, g = GLimit x) \/ (0 < z <= 9223372036854775807)%Z)).
  { assert (B : match to_int64 g with
                | None => Panic (PCannotUse "limit")
                | Some z => if (z <=? 0)%Z then Panic (PMsg "loukoum: limit must be a positive integer") else Ok z
                end = Ok z -> int_value g = Some z /\ ((exists x, g = GLimit x) \/ (0 < z <= 9223372036854775807)%Z)).
    { intro E. destruct (to_int64 g) as [z'|] eqn:I; [|discriminate E].
      destruct (Z.leb_spec z' 0); [discriminate E|]. injection E as ->.
      destruct (to_int64_spec g z T I) as [V R]. split; [exact V|right].
      unfold int64_ok in R. apply andb_prop in R. destruct R as [_ U]. apply Z.leb_le in U. lia. }
    unfold to_limit in L. destruct g; try exact (B L). injection L as ->. split; [reflexivity|left; eauto]. }
  destruct A as [V P]. repeat split; [exact V|exact P|]. intro N. exists (string_of_Z z). split; [apply dec_value_Z|].
  unfold select_clauses. cbn [with_limit s_limit]. apply in_or_app. right. apply in_or_app. right.
  do 4 right. left. unfold number_clause. apply Z.eqb_neq in N. rewrite N. reflexivity.
Qed.
Print Assumptions C21_limit_exact.

Theorem C21_offset_exact {O : Oracle} : forall q g q', typed g -> sel_step q (SelOffset g) = Ok q' ->
  exists z, int_value g = Some z /\ q' = with_offset q z
    /\ ((exists x, g = GOffset x) \/ (0 <= z <= 9223372036854775807)%Z)
    /\ (z <> 0%Z -> exists t, dec_value t = Some z /\ In (Some (Ok (lit ("OFFSET " ++ t)))) (select_clauses q')).
Proof.
  intros q g q' T E. cbn [sel_step] in E. destruct (s_offset q =? 0)%Z; [|discriminate E].
  destruct (to_offset g) as [z|] eqn:L; [|discriminate E]. injection E as <-. exists z.
  assert (A : int_value g = Some z /\ ((exists x, g = GOffset x) \/ (0 <= z <= 9223372036854775807)%Z)).
  { assert (B : match to_int64 g with
                | None => Panic (PCannotUse "offset")
                | Some z => if (z <? 0)%Z then Panic (PMsg "loukoum: offset must be a non-negative integer") else Ok z
                end = Ok z -> int_value g = Some z /\ ((exists x, g = GOffset x) \/ (0 <= z <= 9223372036854775807)%Z)).
    { intro E. destruct (to_int64 g) as [z'|] eqn:I; [|discriminate E].
      destruct (Z.ltb_spec z' 0); [discriminate E|]. injection E as ->.
      destruct (to_int64_spec g z T I) as [V R]. split; [exact V|right].
      unfold int64_ok in R. apply andb_prop in R. destruct R as [_ U]. apply Z.leb_le in U. lia. }
    unfold to_offset in L. destruct g; try exact (B L). injection L as ->. split; [reflexivity|left; eauto]. }
  destruct A as [V P]. repeat split; [exact V|exact P|]. intro N. exists (string_of_Z z). split; [apply dec_value_Z|].
  unfold select_clauses. cbn [with_offset s_offset]. apply in_or_app. right. apply in_or_app. right.
  do 5 right. left. unfold number_clause. apply Z.eqb_neq in N. rewrite N. reflexivity.
Qed.
Print Assumptions C21_offset_exact.

(* Every positive integer that fits an int64 is accepted, in every type except uint. *)
Theorem C21_accepted : forall q g z, typed g -> (forall x, g <> GInt KUint x) ->
  (forall x, g <> GLimit x) -> (forall x, g <> GOffset x) ->
  int_value g = Some z -> (0 < z <= 9223372036854775807)%Z ->
  (s_limit q = 0%Z -> sel_step q (SelLimit g) = Ok (with_limit q z))
  /\ (s_offset q = 0%Z -> sel_step q (SelOffset g) = Ok (with_offset q z)).
Proof.
  intros q g z T NU NL NO V R.
  assert (I : to_int64 g = Some z).
  { apply to_int64_complete; try assumption. unfold int64_ok. apply andb_true_intro. split; apply Z.leb_le; lia. }
  assert (L : to_limit g = Ok z).
  { unfold to_limit. destruct g; try (rewrite I; destruct (Z.leb_spec z 0); [lia|reflexivity]). exfalso. eapply NL. reflexivity. }
  assert (F : to_offset g = Ok z).
  { unfold to_offset. destruct g; try (rewrite I; destruct (Z.ltb_spec z 0); [lia|reflexivity]). exfalso. eapply NO. reflexivity. }
  split; intro Z0; cbn [sel_step]; rewrite Z0; cbn [Z.eqb]; [rewrite L|rewrite F]; reflexivity.
Qed.
Print Assumptions C21_accepted.

Example C21_example :
  typed (GInt KUint64 9223372036854775807)
  /\ sel_step new_select (SelLimit (GInt KUint64 9223372036854775807)) = Ok (with_limit new_select 9223372036854775807)
  /\ (exists p, sel_step new_select (SelLimit (GInt KUint64 9223372036854775808)) = Panic p)
  /\ sel_step new_select (SelOffset (GStr "+007")) = Ok (with_offset new_select 7)
  /\ (exists p, sel_step new_select (SelLimit (GStr "9223372036854775808")) = Panic p)
  /\ (exists p, sel_step new_select (SelLimit (GStr "1; DROP TABLE t")) = Panic p).
Proof. repeat split; try (eexists; vm_compute; reflexivity); vm_compute; reflexivity. Qed.

(* Two surprises: uint is not an accepted type, and a stmt.Limit is not checked. *)
Theorem C21_uint_rejected_refuted : exists p, sel_step new_select (SelLimit (GInt KUint 5)) = Panic p.
Proof. eexists. vm_compute. reflexivity. Qed.
Print Assumptions C21_uint_rejected_refuted.
Theorem C21_negative_limit_refuted :
  (do q <- lk_select [GStr "a"]; do q <- sel_run q [SelFrom [GStr "t"]; SelLimit (GLimit (-5)); SelOffset (GOffset (-1))];
   query (O := go_oracle) (StSelect q)) = Ok ("SELECT ""a"" FROM ""t"" LIMIT -5 OFFSET -1", []).
Proof. vm_compute. reflexivity. Qed.
Print Assumptions C21_negative_limit_refuted.

(* ------------------------------------------------------------------------- *)
(* C22                                                                         *)
(* ------------------------------------------------------------------------- *)

(* For strings l1, ..., ln whose comma-separated items are known, and these items without the
   white space around them: one column per item, in order; a panic if one is empty. *)
Theorem C22_columns : forall l items texts, Forall2 comma_items l items -> Forall2 trimmed (concat items) texts ->
  let cols := if existsb (String.eqb "") texts then Panic (PMsg "loukoum: given column is undefined")
              else Ok (map lk_column texts) in
  to_columns (map GStr l) = cols /\ to_columns [GStrs l] = cols
  /\ to_selexprs (map GStr l) = do cs <- cols; Ok (map SColumn cs).
Proof.
  intros l items texts H T cols.
  assert (E : flat_map (split_on ",") l = concat items).
  { clear T. induction H as [|s i l items I _ IH]; [reflexivity|]. apply items_split in I. cbn [flat_map concat]. rewrite IH, <- I. reflexivity. }
  assert (X : existsb (String.eqb "") texts = existsb no_str texts).
  { clear. induction texts as [|t l IH]; [reflexivity|]. cbn [existsb]. rewrite IH. unfold no_str. rewrite String.eqb_sym. reflexivity. }
  assert (C : map_res item_column (flat_map (split_on ",") l) = cols).
  { rewrite E, (item_columns _ _ T), <- X. reflexivity. }
  rewrite to_columns_strings, to_columns_slice, to_selexprs_strings, C. auto.
Qed.
Print Assumptions C22_columns.

(* Items and texts exist for all strings, and are unique. *)
Theorem C22_items_exist : forall s, (exists! items, comma_items s items) /\ (exists! t, trimmed s t).
Proof.
  intro s. split.
  - exists (split_on "," s). split; [apply items_split; reflexivity|]. intros l H. symmetry. apply items_split, H.
  - exists (trim_space s). split; [apply trim_trimmed|]. intros t H. symmetry. apply trimmed_trim, H.
Qed.
Print Assumptions C22_items_exist.

(* The grouping of items into arguments does not matter. *)
Theorem C22_grouping : forall l, l <> [] ->
  to_columns [GStr (join_with "," l)] = to_columns (map GStr l)
  /\ to_columns [GStrs l] = to_columns (map GStr l)
  /\ to_selexprs [GStr (join_with "," l)] = to_selexprs (map GStr l).
Proof.
  intros l N. rewrite to_columns_slice, to_columns_strings, to_selexprs_strings.
  rewrite (to_columns_strings [_] : to_columns [GStr (join_with "," l)] = _).
  rewrite (to_selexprs_strings [_] : to_selexprs [GStr (join_with "," l)] = _).
  cbn [flat_map]. rewrite app_nil_r, split_join by exact N. auto.
Qed.
Print Assumptions C22_grouping.

(* The methods that take columns use that list. *)
Theorem C22_methods {O : Oracle} : forall q i l cols, to_columns l = Ok cols -> cols <> [] -> l <> [] ->
  (s_group_by q = [] -> sel_step q (SelGroupBy l) = Ok (with_group_by q cols)
                        /\ sel_step q (SelDistinctOn l) = Ok (with_distinct_on q cols))
  /\ (i_columns i = [] -> ins_step i (InsColumns l) = Ok (ins_with_columns i cols)).
Proof.
  intros q i l cols E N NL. split; intro H.
  - cbn [sel_step]. rewrite H, E. destruct cols; [contradiction|]. split; reflexivity.
  - destruct l; [contradiction|]. cbn [ins_step]. rewrite H, E. reflexivity.
Qed.
Print Assumptions C22_methods.

Example C22_example :
  Forall2 comma_items ["a , b"; "c"] [["a "; " b"]; ["c"]] /\ Forall2 trimmed ["a "; " b"; "c"] ["a"; "b"; "c"]
  /\ to_columns [GStr "a , b"; GStr "c"] = Ok [lk_column "a"; lk_column "b"; lk_column "c"]
  /\ (exists p, to_columns [GStr "a,,b"] = Panic p).
Proof.
  split; [|split; [|split]].
  - repeat apply Forall2_cons; try apply Forall2_nil; apply items_split; reflexivity.
  - repeat apply Forall2_cons; try apply Forall2_nil;
      match goal with |- trimmed ?s ?t => change (trimmed s (trim_space s)); apply trim_trimmed end.
  - vm_compute. reflexivity.
  - eexists. vm_compute. reflexivity.
Qed.

(* Select([]string{...}) is different: the strings are taken whole. *)
Theorem C22_select_string_slice_refuted :
  (do q <- lk_select [GStrs ["a, b"; ""]]; do q <- sel_run q [SelFrom [GStr "t"]]; query (O := go_oracle) (StSelect q))
  = Ok ("SELECT ""a, b"", """" FROM ""t""", [])
  /\ (exists p, lk_select [GStr "a, b"; GStr ""] = Panic p).
Proof. split; [vm_compute; reflexivity|eexists; vm_compute; reflexivity]. Qed.
Print Assumptions C22_select_string_slice_refuted.
(* Select() asks for a column called *. *)
Theorem C22_select_star_refuted :
  (do q <- lk_select []; do q <- sel_run q [SelFrom [GStr "t"]]; query (O := go_oracle) (StSelect q))
  = Ok ("SELECT ""*"" FROM ""t""", []).
Proof. vm_compute. reflexivity. Qed.
Print Assumptions C22_select_star_refuted.

(* ------------------------------------------------------------------------- *)
(* C43                                                                         *)
(* ------------------------------------------------------------------------- *)

(* A string is a column when it is not blank; it is then the column of that name, trimmed.
   A stmt.Column with a name is taken as it is. Everything else panics. *)
Theorem C43_column : forall g,
  (forall c, to_column g = Ok c ->
     c_name c <> "" /\ ((g = GColumn c) \/ exists s, g = GStr s /\ trimmed s (c_name c) /\ c_alias c = ""))
  /\ (forall s t, g = GStr s -> trimmed s t -> t <> "" -> to_column g = Ok (lk_column t))
  /\ (forall c, g = GColumn c -> c_name c <> "" -> to_column g = Ok c).
Proof.
  intro g. unfold to_column. repeat split.
  - intros N. destruct g; try discriminate H; cbn [bind] in H; destruct (no_str _) eqn:E; try discriminate H;
      injection H as <-; unfold no_str in E; apply String.eqb_neq in E; exact (E N).
  - destruct g; try discriminate H; cbn [bind] in H; destruct (no_str _) eqn:E; try discriminate H; injection H as <-.
    + right. eexists. split; [reflexivity|]. split; [apply trim_trimmed|reflexivity].
    + left. reflexivity.
  - intros s t -> T N. apply trimmed_trim in T. subst t. cbn [bind lk_column c_name]. unfold no_str.
    apply String.eqb_neq in N. rewrite N. reflexivity.
  - intros c -> N. cbn [bind]. unfold no_str. apply String.eqb_neq in N. rewrite N. reflexivity.
Qed.
Print Assumptions C43_column.

(* Tables and INTO: exactly the given name, which is not empty. *)
Theorem C43_table : forall g t, to_table g = Ok t <-> t_name t <> "" /\ (g = GTable t \/ (exists s, g = GStr s /\ t = lk_table s)).
Proof.
  intros g t. unfold to_table. split.
  - intro H. destruct g; try discriminate H; cbn [bind] in H; destruct (no_str _) eqn:E; try discriminate H; injection H as <-;
      unfold no_str in E; apply String.eqb_neq in E; split; eauto.
  - intros [N [->|(s & -> & ->)]]; cbn [bind]; unfold no_str; apply String.eqb_neq in N; rewrite N; reflexivity.
Qed.
Print Assumptions C43_table.
Theorem C43_into : forall g t, to_into g = Ok t <->
  t_name t <> "" /\ (g = GTable t \/ g = GInto t \/ (exists s, g = GStr s /\ t = lk_table s)).
Proof.
  intros g t. unfold to_into. split.
  - intro H. destruct g; try discriminate H; cbn [bind] in H; destruct (no_str _) eqn:E; try discriminate H; injection H as <-;
      unfold no_str in E; apply String.eqb_neq in E; split; eauto.
  - intros [N [->|[->|(s & -> & ->)]]]; cbn [bind]; unfold no_str; apply String.eqb_neq in N; rewrite N; reflexivity.
Qed.
Print Assumptions C43_into.
(* Suffix and prefix: exactly the given text, which is not empty. *)
Theorem C43_suffix_prefix : forall g s,
  (to_suffix g = Ok s <-> s <> "" /\ (g = GStr s \/ g = GSuffix s))
  /\ (to_prefix g = Ok s <-> s <> "" /\ (g = GStr s \/ g = GPrefix s)).
Proof.
  intros g s. unfold to_suffix, to_prefix. repeat split.
  - intros ->. destruct g; try discriminate H; cbn [bind] in H; destruct (no_str _) eqn:E; try discriminate H; injection H as ->; discriminate E.
  - destruct g; try discriminate H; cbn [bind] in H; destruct (no_str _) eqn:E; try discriminate H; injection H as <-; auto.
  - intros [N [->| ->]]; cbn [bind]; unfold no_str; apply String.eqb_neq in N; rewrite N; reflexivity.
  - intros ->. destruct g; try discriminate H; cbn [bind] in H; destruct (no_str _) eqn:E; try discriminate H; injection H as ->; discriminate E.
  - destruct g; try discriminate H; cbn [bind] in H; destruct (no_str _) eqn:E; try discriminate H; injection H as <-; auto.
  - intros [N [->| ->]]; cbn [bind]; unfold no_str; apply String.eqb_neq in N; rewrite N; reflexivity.
Qed.
Print Assumptions C43_suffix_prefix.
Example C43_example : to_column (GStr "  id ") = Ok (lk_column "id") /\ (exists p, to_column (GStr "  ") = Panic p)
  /\ to_table (GStr " t") = Ok (lk_table " t") /\ (exists p, to_into (GStr "") = Panic p).
Proof. repeat split; try (eexists; vm_compute; reflexivity); vm_compute; reflexivity. Qed.

(* FROM is not checked: an empty name, and a stmt.From which is replaced by nothing. *)
Theorem C43_from_refuted :
  (do q <- lk_select [GStr "a"]; do q <- sel_run q [SelFrom [GStr ""]]; query (O := go_oracle) (StSelect q))
  = Ok ("SELECT ""a"" FROM """"", [])
  /\ (do q <- lk_select [GStr "a"]; do q <- sel_run q [SelFrom [GFrom [FTable (lk_table "t")]]]; query (O := go_oracle) (StSelect q))
     = Panic PNilDeref.
Proof. split; vm_compute; reflexivity. Qed.
Print Assumptions C43_from_refuted.
