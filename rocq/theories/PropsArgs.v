(* C58: the slices a program passes to a builder stay its own. *)
From Coq Require Import Lia.
From Verif Require Import Calls CallsP AssignP RowsP PropsClauses Mem Forks MemP ForksP Args ArgsP ArgsInstP ArgsHeldP.
Local Open Scope list_scope.

(* ------------------------------------------------------------------------- *)
(* Specification                                                               *)
(* ------------------------------------------------------------------------- *)

(* No slice of WITH queries: neither a call of With nor an append of the caller. *)
Definition without_withs {N C M} (as_with : C -> option (list withq)) (p : list (acmd N C M)) : Prop :=
  forall c, In c p -> match c with
                      | AWith _ _ | AExtend _ _ => False
                      | ACall _ d => as_with d = None
                      | _ => True
                      end.

(* No assignment to an element of a slice after the slice was passed to a builder. *)
Definition frozen_once_passed {N C M} (p : list (acmd N C M)) : Prop :=
  forall p1 i m k p2, p = p1 ++ APass i m k :: p2 -> forall j x, ~ In (APut k j x) p2.

(* The slices are strings, interface{} values and orders. *)
Definition converted_only {N C M} (p : list (acmd N C M)) : Prop :=
  forall v spare, In (AMake v spare) p -> match v with VNames _ | VAnys _ | VOrders _ => True | _ => False end.

Definition sel_sql (s : shown select) := match s with Built q => Some (query (O := go_oracle) (StSelect q)) | _ => None end.
Definition ins_sql (s : shown insert) := match s with Built q => Some (query (O := go_oracle) (StInsert q)) | _ => None end.
Definition upd_sql (s : shown update) := match s with Built q => Some (query (O := go_oracle) (StUpdate q)) | _ => None end.
Definition del_sql (s : shown delete) := match s with Built q => Some (query (O := go_oracle) (StDelete q)) | _ => None end.

Lemma plain_careful {N C M} : forall as_with (keeps : M -> var -> bool) (p : list (acmd N C M)) vars vers used kept,
  without_withs as_with p ->
  (forall p1 i m k p2, p = p1 ++ APass i m k :: p2 ->
     (forall v, In (Some v) vars \/ (exists spare, In (AMake v spare) p1) -> keeps m v = false)
     \/ (forall j x, ~ In (APut k j x) p2)) ->
  (forall k j x, In k kept -> ~ In (APut k j x) p) ->
  careful_from as_with keeps vars vers used kept p.
Proof.
  intros as_with keeps. induction p as [|c p IH]; intros vars vers used kept W H K; [exact I|].
  assert (W' : without_withs as_with p) by (intros d Hd; apply W; right; exact Hd).
  assert (K' : forall k j x, In k kept -> ~ In (APut k j x) p) by (intros k j x Hk Hp; apply (K k j x Hk); right; exact Hp).
  assert (More : forall o, (forall v, o = Some v -> exists spare, c = AMake v spare) ->
    forall p1 i m k p2, p = p1 ++ APass i m k :: p2 ->
     (forall v, In (Some v) (vars ++ [o]) \/ (exists spare, In (AMake v spare) p1) -> keeps m v = false)
     \/ (forall j x, ~ In (APut k j x) p2)).
  { intros o Ho p1 i m k p2 E. destruct (H (c :: p1) i m k p2) as [A|A]; [rewrite E; reflexivity| |right; exact A].
    left. intros v [Hv | [spare Hv]]; apply A.
    - apply in_app_or in Hv. destruct Hv as [Hv|[Hv|[]]]; [left; exact Hv|right]. subst o.
      destruct (Ho v eq_refl) as (spare & ->). exists spare. left. reflexivity.
    - right. exists spare. right. exact Hv. }
  assert (Same : forall p1 i m k p2, p = p1 ++ APass i m k :: p2 ->
     (forall v, In (Some v) vars \/ (exists spare, In (AMake v spare) p1) -> keeps m v = false)
     \/ (forall j x, ~ In (APut k j x) p2)).
  { intros p1 i m k p2 E. destruct (H (c :: p1) i m k p2) as [A|A]; [rewrite E; reflexivity| |right; exact A].
    left. intros v [Hv | [spare Hv]]; apply A; [left; exact Hv|right; exists spare; right; exact Hv]. }
  pose proof (W c (or_introl eq_refl)) as Wc.
  destruct c as [a|i d|i m k|i k|v spare|k ws|k j x|i]; cbn [careful_from]; try contradiction Wc.
  - apply IH; [exact W'|apply More; discriminate|exact K'].
  - rewrite Wc. apply IH; [exact W'|apply More; discriminate|exact K'].
  - apply IH; [exact W'|apply More; discriminate|].
    destruct (nth k vars None) as [v|] eqn:Ev; [|exact K']. destruct (keeps m v) eqn:Ek; [|exact K'].
    intros k' j x [<-|Hk']; [|apply K'; exact Hk'].
    destruct (H [] i m k p eq_refl) as [A|A]; [|apply A].
    rewrite A in Ek; [discriminate Ek|]. left. rewrite <- Ev. apply nth_In.
    destruct (Nat.lt_ge_cases k (length vars)) as [L|L]; [exact L|]. rewrite nth_overflow in Ev by exact L. discriminate Ev.
  - apply IH; [exact W'| |exact K']. apply More. intros v' E. injection E as <-. exists spare. reflexivity.
  - split; [|apply IH; assumption]. intro Hk. apply (K k j x Hk). left. reflexivity.
  - apply IH; assumption.
Qed.

Lemma frozen_careful {N C M} : forall as_with (keeps : M -> var -> bool) (p : list (acmd N C M)),
  without_withs as_with p -> frozen_once_passed p -> careful_from as_with keeps [] [] [] [] p.
Proof.
  intros as_with keeps p W F. apply plain_careful; [exact W| |intros k j x []].
  intros p1 i m k p2 E. right. exact (F p1 i m k p2 E).
Qed.

Lemma converted_careful {N C M} : forall as_with (keeps : M -> var -> bool) (p : list (acmd N C M)),
  (forall m v, match v with VNames _ | VAnys _ | VOrders _ => keeps m v = false | _ => True end) ->
  without_withs as_with p -> converted_only p -> careful_from as_with keeps [] [] [] [] p.
Proof.
  intros as_with keeps p Kn W F. apply plain_careful; [exact W| |intros k j x []].
  intros p1 i m k p2 E. left. intros v [[]|[spare Hv]]. specialize (Kn m v). specialize (F v spare).
  rewrite E in F. specialize (F (in_or_app _ _ _ (or_introl Hv))). destruct v; try contradiction F; exact Kn.
Qed.

(* ------------------------------------------------------------------------- *)
(* C58                                                                         *)
(* ------------------------------------------------------------------------- *)

(* Programs that make slices, pass them to builders, assign their elements, append to slices of
   WITH queries and print. If no element is assigned once a builder keeps the slice, and no
   version of a slice of WITH queries is extended twice, the program prints what it would print
   if every call took the values its arguments have at that time. Missing: programs that do one
   of the two, which the refutations below show to print something else. *)
Theorem C58_select_partial : forall g p, sel_careful p -> sel_arg_memory g p = sel_arg_values p.
Proof. exact select_arguments. Qed.
Print Assumptions C58_select_partial.
Theorem C58_insert_partial {O : Oracle} : forall g p, ins_careful p -> ins_arg_memory g p = ins_arg_values p.
Proof. exact insert_arguments. Qed.
Print Assumptions C58_insert_partial.
Theorem C58_update_partial : forall g p, upd_careful p -> upd_arg_memory g p = upd_arg_values p.
Proof. exact update_arguments. Qed.
Print Assumptions C58_update_partial.
Theorem C58_delete_partial : forall g p, del_careful p -> del_arg_memory g p = del_arg_values p.
Proof. exact delete_arguments. Qed.
Print Assumptions C58_delete_partial.

(* Without WITH queries it is enough that a slice is not assigned after it was passed. *)
Theorem C58_select_frozen : forall g p, without_withs sel_as_with p -> frozen_once_passed p ->
  sel_arg_memory g p = sel_arg_values p.
Proof. intros g p W F. apply select_arguments, frozen_careful; assumption. Qed.
Print Assumptions C58_select_frozen.
Theorem C58_insert_frozen {O : Oracle} : forall g p, without_withs (fun _ => None) p -> frozen_once_passed p ->
  ins_arg_memory g p = ins_arg_values p.
Proof. intros g p W F. apply insert_arguments, frozen_careful; assumption. Qed.
Print Assumptions C58_insert_frozen.
Theorem C58_update_frozen : forall g p, without_withs upd_as_with p -> frozen_once_passed p ->
  upd_arg_memory g p = upd_arg_values p.
Proof. intros g p W F. apply update_arguments, frozen_careful; assumption. Qed.
Print Assumptions C58_update_frozen.
Theorem C58_delete_frozen : forall g p, without_withs (fun _ => None) p -> frozen_once_passed p ->
  del_arg_memory g p = del_arg_values p.
Proof. intros g p W F. apply delete_arguments, frozen_careful; assumption. Qed.
Print Assumptions C58_delete_frozen.

(* Slices of strings, of interface{} values and of orders are copied: the program may assign
   their elements whenever it wants. *)
Theorem C58_select_copied : forall g p, without_withs sel_as_with p -> converted_only p ->
  sel_arg_memory g p = sel_arg_values p.
Proof. intros g p W F. apply select_arguments, converted_careful; [intros [] []; exact I || reflexivity|assumption..]. Qed.
Print Assumptions C58_select_copied.
Theorem C58_insert_copied {O : Oracle} : forall g p, without_withs (fun _ => None) p -> converted_only p ->
  ins_arg_memory g p = ins_arg_values p.
Proof. intros g p W F. apply insert_arguments, converted_careful; [intros [] []; exact I || reflexivity|assumption..]. Qed.
Print Assumptions C58_insert_copied.
Theorem C58_update_copied : forall g p, without_withs upd_as_with p -> converted_only p ->
  upd_arg_memory g p = upd_arg_values p.
Proof. intros g p W F. apply update_arguments, converted_careful; [intros [] []; exact I || reflexivity|assumption..]. Qed.
Print Assumptions C58_update_copied.
Theorem C58_delete_copied : forall g p, without_withs (fun _ => None) p -> converted_only p ->
  del_arg_memory g p = del_arg_values p.
Proof. intros g p W F. apply delete_arguments, converted_careful; [intros [] []; exact I || reflexivity|assumption..]. Qed.
Print Assumptions C58_delete_copied.

(* The other direction: no call changes the elements of the caller's slices, in any program
   whose slices of WITH queries are extended by builders only. *)
Theorem C58_select_held : forall g p, no_extend p -> Forall2 same_held (sel_arg_memory g p) (sel_arg_values p).
Proof. exact select_held. Qed.
Print Assumptions C58_select_held.
Theorem C58_insert_held {O : Oracle} : forall g p, no_extend p -> Forall2 same_held (ins_arg_memory g p) (ins_arg_values p).
Proof. exact insert_held. Qed.
Print Assumptions C58_insert_held.
Theorem C58_update_held : forall g p, no_extend p -> Forall2 same_held (upd_arg_memory g p) (upd_arg_values p).
Proof. exact update_held. Qed.
Print Assumptions C58_update_held.
Theorem C58_delete_held : forall g p, no_extend p -> Forall2 same_held (del_arg_memory g p) (del_arg_values p).
Proof. exact delete_held. Qed.
Print Assumptions C58_delete_held.

(* Passing a variable is calling the method of that name with what the variable holds. *)
Theorem C58_select_passing : forall g a spare v,
  let passed m := sel_arg_memory g [ANew a; AMake v spare; APass 0 m 1; AShow 2] in
  let called c := sel_arg_memory g [ANew a; ACall 0 c; AShow 1] in
  passed SMDistinctOn = called (SelDistinctOn (as_args v))
  /\ passed SMColumns = called (SelColumns (as_args v))
  /\ passed SMFrom = called (SelFrom (as_args v))
  /\ passed SMJoin = called (SelJoin (as_args v))
  /\ passed SMGroupBy = called (SelGroupBy (as_args v))
  /\ (forall l, v = VOrders l -> passed SMOrderBy = called (SelOrderBy l)).
Proof.
  intros g a spare v passed called.
  repeat split; try (intros l E); unfold passed, called;
    rewrite !C58_select_partial by (cbn; destruct v; cbn; tauto); cbn; destruct (lk_select a); try rewrite E; reflexivity.
Qed.
Print Assumptions C58_select_passing.

Theorem C58_insert_passing {O : Oracle} : forall g a spare v,
  let passed m := ins_arg_memory g [ANew a; AMake v spare; APass 0 m 1; AShow 2] in
  let called c := ins_arg_memory g [ANew a; ACall 0 c; AShow 1] in
  passed IMColumns = called (InsColumns (as_args v))
  /\ passed IMValues = called (InsValues (as_args v))
  /\ passed IMReturning = called (InsReturning (as_args v))
  /\ passed IMOnConflict = called (InsOnConflict (as_args v))
  /\ passed IMSet = called (InsSet (as_args v)).
Proof.
  intros g a spare v passed called.
  repeat split; unfold passed, called;
    rewrite !C58_insert_partial by (cbn; destruct v; cbn; tauto); cbn; destruct (to_into a); reflexivity.
Qed.
Print Assumptions C58_insert_passing.

Theorem C58_update_passing : forall g a spare v,
  let passed m := upd_arg_memory g [ANew a; AMake v spare; APass 0 m 1; AShow 2] in
  let called c := upd_arg_memory g [ANew a; ACall 0 c; AShow 1] in
  passed UMSet = called (UpdSet (as_args v))
  /\ passed UMUsing = called (UpdUsing (as_args v))
  /\ passed UMReturning = called (UpdReturning (as_args v)).
Proof.
  intros g a spare v passed called.
  repeat split; unfold passed, called;
    rewrite !C58_update_partial by (cbn; destruct v; cbn; tauto); cbn; destruct (lk_update a); reflexivity.
Qed.
Print Assumptions C58_update_passing.

Theorem C58_delete_passing : forall g a spare v,
  let passed m := del_arg_memory g [ANew a; AMake v spare; APass 0 m 1; AShow 2] in
  let called c := del_arg_memory g [ANew a; ACall 0 c; AShow 1] in
  passed DMFrom = called (DelFrom (as_args v))
  /\ passed DMUsing = called (DelUsing (as_args v))
  /\ passed DMReturning = called (DelReturning (as_args v)).
Proof.
  intros g a spare v passed called.
  repeat split; unfold passed, called;
    rewrite !C58_delete_partial by (cbn; destruct v; cbn; tauto); cbn; destruct (lk_delete a); reflexivity.
Qed.
Print Assumptions C58_delete_passing.

(* ------------------------------------------------------------------------- *)
(* What the code does otherwise                                                *)
(* ------------------------------------------------------------------------- *)

Definition acol (s : string) : column := {| c_name := s; c_alias := "" |}.
Definition awq (s : string) : withq := {| wq_name := s; wq_sub := ERaw s |}.

(* columns := []Column{a}; q := Select("n").From("t").GroupBy(columns); columns[0] = b *)
Theorem C58_group_by_refuted : forall g,
  let p := [AMake (VColumns [acol "a"]) 0; ANew [GStr "n"]; ACall 1 (SelFrom [GStr "t"]); APass 2 SMGroupBy 0; AShow 3;
            APut 0 0 (XColumn (acol "b")); AShow 3] in
  map sel_sql (sel_arg_memory g p) = [Some (Ok ("SELECT ""n"" FROM ""t"" GROUP BY ""a""", [])); Some (Ok ("SELECT ""n"" FROM ""t"" GROUP BY ""b""", []))]
  /\ map sel_sql (sel_arg_values p) = [Some (Ok ("SELECT ""n"" FROM ""t"" GROUP BY ""a""", [])); Some (Ok ("SELECT ""n"" FROM ""t"" GROUP BY ""a""", []))].
Proof. intros g. split; vm_compute; reflexivity. Qed.
Print Assumptions C58_group_by_refuted.

(* The same with DistinctOn. The assigned column may be empty, which DistinctOn refuses. *)
Theorem C58_distinct_on_refuted : forall g,
  let p := [AMake (VColumns [acol "a"]) 0; ANew [GStr "n"]; ACall 1 (SelFrom [GStr "t"]); APass 2 SMDistinctOn 0; AShow 3;
            APut 0 0 (XColumn (acol "")); AShow 3] in
  map sel_sql (sel_arg_memory g p) = [Some (Ok ("SELECT DISTINCT ON (""a"") ""n"" FROM ""t""", [])); Some (Ok ("SELECT DISTINCT ON ("""") ""n"" FROM ""t""", []))]
  /\ forall q, exists e, sel_step q (SelDistinctOn [GColumns [acol ""]]) = Panic e.
Proof.
  intros g. split; [vm_compute; reflexivity|]. intros q. cbn. destruct (s_group_by q); eexists; reflexivity.
Qed.
Print Assumptions C58_distinct_on_refuted.

(* Columns with a []SelectExpression: two queries made from one slice. *)
Theorem C58_columns_refuted : forall g,
  let p := [AMake (VItems [SColumn (acol "a")]) 0; ANew [GStr "n"]; APass 1 SMColumns 0; APut 0 0 (XItem (SRaw "now()"));
            ANew [GStr "n"]; APass 3 SMColumns 0; AShow 2; AShow 4] in
  map sel_sql (sel_arg_memory g p) = [Some (Ok ("SELECT now()", [])); Some (Ok ("SELECT now()", []))]
  /\ map sel_sql (sel_arg_values p) = [Some (Ok ("SELECT ""a""", [])); Some (Ok ("SELECT now()", []))].
Proof. intros g. split; vm_compute; reflexivity. Qed.
Print Assumptions C58_columns_refuted.

Theorem C58_insert_columns_refuted : forall g,
  let p := [AMake (VColumns [acol "a"]) 0; ANew (GStr "t"); APass 1 IMColumns 0; ACall 2 (InsValues [GInt KInt 1]);
            APut 0 0 (XColumn (acol "b")); AShow 3] in
  map ins_sql (ins_arg_memory (O := go_oracle) g p) = [Some (Ok ("INSERT INTO ""t"" (""b"") VALUES ($1)", [GInt KInt 1]))]
  /\ map ins_sql (ins_arg_values (O := go_oracle) p) = [Some (Ok ("INSERT INTO ""t"" (""a"") VALUES ($1)", [GInt KInt 1]))].
Proof. intros g. split; vm_compute; reflexivity. Qed.
Print Assumptions C58_insert_columns_refuted.

Theorem C58_insert_returning_refuted : forall g,
  let p := [AMake (VItems [SColumn (acol "a")]) 0; ANew (GStr "t"); ACall 1 (InsValues [GInt KInt 1]); APass 2 IMReturning 0;
            APut 0 0 (XItem (SColumn (acol "b"))); AShow 3] in
  map ins_sql (ins_arg_memory (O := go_oracle) g p) = [Some (Ok ("INSERT INTO ""t"" VALUES ($1) RETURNING ""b""", [GInt KInt 1]))]
  /\ map ins_sql (ins_arg_values (O := go_oracle) p) = [Some (Ok ("INSERT INTO ""t"" VALUES ($1) RETURNING ""a""", [GInt KInt 1]))].
Proof. intros g. split; vm_compute; reflexivity. Qed.
Print Assumptions C58_insert_returning_refuted.

Theorem C58_update_returning_refuted : forall g,
  let p := [AMake (VItems [SColumn (acol "a")]) 0; ANew (GStr "t"); ACall 1 (UpdSet [GPair (GStr "c") (GInt KInt 1)]); APass 2 UMReturning 0;
            APut 0 0 (XItem (SColumn (acol "b"))); AShow 3] in
  map upd_sql (upd_arg_memory g p) = [Some (Ok ("UPDATE ""t"" SET ""c"" = $1 RETURNING ""b""", [GInt KInt 1]))]
  /\ map upd_sql (upd_arg_values p) = [Some (Ok ("UPDATE ""t"" SET ""c"" = $1 RETURNING ""a""", [GInt KInt 1]))].
Proof. intros g. split; vm_compute; reflexivity. Qed.
Print Assumptions C58_update_returning_refuted.

Theorem C58_delete_returning_refuted : forall g,
  let p := [AMake (VItems [SColumn (acol "a")]) 0; ANew (GStr "t"); APass 1 DMReturning 0; APut 0 0 (XItem (SColumn (acol "b"))); AShow 2] in
  map del_sql (del_arg_memory g p) = [Some (Ok ("DELETE FROM ""t"" RETURNING ""b""", []))]
  /\ map del_sql (del_arg_values p) = [Some (Ok ("DELETE FROM ""t"" RETURNING ""a""", []))].
Proof. intros g. split; vm_compute; reflexivity. Qed.
Print Assumptions C58_delete_returning_refuted.

(* withs := []WithQuery{a}; q := Select("n").With(withs...); withs[0] = b *)
Theorem C58_with_refuted : forall g,
  let p := [AMake (VWiths [awq "a"]) 0; ANew [GStr "n"]; AWith 1 0; APut 0 0 (XWith (awq "b")); AShow 2] in
  map sel_sql (sel_arg_memory g p) = [Some (Ok ("WITH b AS (b) SELECT ""n""", []))]
  /\ map sel_sql (sel_arg_values p) = [Some (Ok ("WITH a AS (a) SELECT ""n""", []))].
Proof. intros g. split; vm_compute; reflexivity. Qed.
Print Assumptions C58_with_refuted.

(* Two builders with one slice that has room, and no assignment: the second call of With on one
   changes the query of the other. Neither builder is the receiver of two calls. *)
Theorem C58_shared_withs_refuted : forall g,
  let p := [AMake (VWiths [awq "a"]) 1; ANew [GStr "x"]; AWith 1 0; ANew [GStr "y"]; AWith 3 0;
            ACall 2 (SelWith [awq "b"]); AShow 5; ACall 4 (SelWith [awq "c"]); AShow 5] in
  map sel_sql (sel_arg_memory g p)
  = [Some (Ok ("WITH a AS (a), b AS (b) SELECT ""x""", [])); Some (Ok ("WITH a AS (a), c AS (c) SELECT ""x""", []))]
  /\ map sel_sql (sel_arg_values p)
  = [Some (Ok ("WITH a AS (a), b AS (b) SELECT ""x""", [])); Some (Ok ("WITH a AS (a), b AS (b) SELECT ""x""", []))].
Proof. intros g. split; vm_compute; reflexivity. Qed.
Print Assumptions C58_shared_withs_refuted.
Theorem C58_update_withs_refuted : forall g,
  let p := [AMake (VWiths [awq "a"]) 1; ANew (GStr "t"); AWith 1 0; ANew (GStr "u"); AWith 3 0;
            ACall 2 (UpdWith [awq "b"]); ACall 4 (UpdWith [awq "c"]); ACall 5 (UpdSet [GPair (GStr "k") (GInt KInt 1)]); AShow 7] in
  map upd_sql (upd_arg_memory g p) = [Some (Ok ("WITH a AS (a), c AS (c) UPDATE ""t"" SET ""k"" = $1", [GInt KInt 1]))]
  /\ map upd_sql (upd_arg_values p) = [Some (Ok ("WITH a AS (a), b AS (b) UPDATE ""t"" SET ""k"" = $1", [GInt KInt 1]))].
Proof. intros g. split; vm_compute; reflexivity. Qed.
Print Assumptions C58_update_withs_refuted.

(* The caller appends to its slice after the builder did: the query changes. The other way
   round, the call of With changes the slice of the caller. *)
Theorem C58_extended_refuted : forall g,
  let p := [AMake (VWiths [awq "a"]) 1; ANew [GStr "x"]; AWith 1 0; ACall 2 (SelWith [awq "b"]); AExtend 0 [awq "c"]; AShow 3] in
  let p' := [AMake (VWiths [awq "a"]) 1; ANew [GStr "x"]; AWith 1 0; AExtend 0 [awq "c"]; ACall 2 (SelWith [awq "b"]); AShow 3] in
  map sel_sql (sel_arg_memory g p) = [Some (Ok ("WITH a AS (a), c AS (c) SELECT ""x""", []))]
  /\ map sel_sql (sel_arg_values p) = [Some (Ok ("WITH a AS (a), b AS (b) SELECT ""x""", []))]
  /\ sel_arg_memory g p' = [Held (VWiths [awq "a"; awq "b"])]
  /\ sel_arg_values p' = [Held (VWiths [awq "a"; awq "c"])].
Proof. intros g. cbv zeta. split; [vm_compute; reflexivity|]. split; [vm_compute; reflexivity|]. split; vm_compute; reflexivity. Qed.
Print Assumptions C58_extended_refuted.

(* ------------------------------------------------------------------------- *)
(* Cases                                                                       *)
(* ------------------------------------------------------------------------- *)

Ltac absent := let H := fresh in intro H; cbn in H; repeat (destruct H as [H|H]); try discriminate H; try contradiction H.

(* One slice of columns for two queries, assigned between two uses of another slice, and WITH
   queries that two builders extend in turn. *)
Definition tidy : list sel_acmd :=
  [AMake (VColumns [acol "a"; acol "b"]) 0; AMake (VNames ["c"; "d"]%string) 0; AMake (VWiths [awq "v"]) 3;
   ANew [GStr "x"]; AWith 3 2; ACall 4 (SelFrom [GStr "t"]); APass 5 SMGroupBy 0; APass 6 SMColumns 1;
   APut 1 0 (XName "e"); AShow 7; ACall 7 (SelWith [awq "w"]); ANew [GStr "y"]; APass 9 SMDistinctOn 0; AWith 10 2;
   APass 11 SMColumns 1; AShow 8; AShow 12; AShow 1; AShow 2].
Example C58_select_example : sel_careful tidy
  /\ map sel_sql (sel_arg_memory go_growth tidy)
     = [Some (Ok ("WITH v AS (v) SELECT ""c"", ""d"" FROM ""t"" GROUP BY ""a"", ""b""", []));
        Some (Ok ("WITH v AS (v), w AS (w) SELECT ""c"", ""d"" FROM ""t"" GROUP BY ""a"", ""b""", []));
        Some (Ok ("WITH v AS (v) SELECT DISTINCT ON (""a"", ""b"") ""e"", ""d""", [])); None; None].
Proof.
  split; [|vm_compute; reflexivity]. unfold sel_careful. cbn. repeat split; absent.
Qed.

(* A slice of names reused for two queries. *)
Definition reused : list sel_acmd :=
  [AMake (VNames ["a"; "b"]%string) 0; ANew [GStr "x"]; APass 1 SMGroupBy 0; APut 0 0 (XName "c"); APass 2 SMColumns 0;
   APut 0 1 (XName "d"); AShow 3; AShow 0].
Example C58_copied_example : without_withs sel_as_with reused /\ converted_only reused
  /\ map sel_sql (sel_arg_memory go_growth reused) = [Some (Ok ("SELECT ""c"", ""b"" GROUP BY ""a"", ""b""", [])); None]
  /\ nth 1 (sel_arg_memory go_growth reused) Nothing = Held (VNames ["c"; "d"]%string).
Proof.
  split; [|split; [|split; vm_compute; reflexivity]].
  - intros c H. cbn in H. repeat (destruct H as [<-|H]; [exact I || reflexivity|]). destruct H.
  - intros v n H. cbn in H. repeat (destruct H as [H|H]; [try discriminate H; injection H as <- <-; exact I|]). destruct H.
Qed.

Definition shared_columns : list ins_acmd :=
  [AMake (VColumns [acol "a"]) 0; APut 0 0 (XColumn (acol "b")); ANew (GStr "t"); APass 1 IMColumns 0; ANew (GStr "u"); APass 3 IMColumns 0;
   ACall 2 (InsValues [GInt KInt 1]); ACall 4 (InsValues [GInt KInt 2]); AShow 5; AShow 6].
Example C58_frozen_example : without_withs (fun _ => None) shared_columns /\ frozen_once_passed shared_columns
  /\ map ins_sql (ins_arg_memory (O := go_oracle) go_growth shared_columns)
     = [Some (Ok ("INSERT INTO ""t"" (""b"") VALUES ($1)", [GInt KInt 1])); Some (Ok ("INSERT INTO ""u"" (""b"") VALUES ($1)", [GInt KInt 2]))].
Proof.
  split; [|split; [|vm_compute; reflexivity]].
  - intros c H. cbn in H. repeat (destruct H as [<-|H]; [exact I || reflexivity|]). destruct H.
  - intros p1 i m k p2 E j x H.
    do 11 (destruct p1 as [|? p1]; [try discriminate E; injection E as <- <- <- <-; revert H; absent
                                  |injection E as _ E || discriminate E]).
Qed.
Example C58_insert_example : ins_careful shared_columns.
Proof. unfold ins_careful. cbn. repeat split; absent. Qed.
Example C58_update_example :
  let p : list upd_acmd := [AMake (VItems [SColumn (acol "a")]) 0; AMake (VWiths [awq "v"]) 1; ANew (GStr "t"); AWith 2 1;
    ACall 3 (UpdSet [GPair (GStr "k") (GInt KInt 1)]); APass 4 UMReturning 0; ACall 5 (UpdWith [awq "w"]); AShow 6; AShow 1] in
  upd_careful p /\ no_extend p
  /\ map upd_sql (upd_arg_memory go_growth p) = [Some (Ok ("WITH v AS (v), w AS (w) UPDATE ""t"" SET ""k"" = $1 RETURNING ""a""", [GInt KInt 1])); None].
Proof.
  cbv zeta. split; [|split; [|vm_compute; reflexivity]].
  - unfold upd_careful. cbn. repeat split; absent.
  - intros c H. cbn in H. repeat (destruct H as [<-|H]; [exact I|]). destruct H.
Qed.
Example C58_delete_example :
  let p : list del_acmd := [AMake (VItems [SColumn (acol "a")]) 0; ANew (GStr "t"); APut 0 0 (XItem (SColumn (acol "b"))); APass 1 DMReturning 0; AShow 2] in
  del_careful p /\ map del_sql (del_arg_memory go_growth p) = [Some (Ok ("DELETE FROM ""t"" RETURNING ""b""", []))].
Proof.
  cbv zeta. split; [|vm_compute; reflexivity]. unfold del_careful. cbn. repeat split; absent.
Qed.
Example C58_passing_example :
  let p : list sel_acmd := [ANew [GStr "n"]; ACall 0 (SelFrom [GStr "a"]); AMake (VAnys [GStr "b"; GStr "ON b.x = a.x"]) 0;
    APass 1 SMJoin 2; AMake (VNames ["n"; "m"]) 0; APass 3 SMGroupBy 4; AShow 5] in
  map sel_sql (sel_arg_memory go_growth p)
  = [Some (Ok ("SELECT ""n"" FROM ""a"" INNER JOIN ""b"" ON ""b"".""x"" = ""a"".""x"" GROUP BY ""n"", ""m""", []))].
Proof. vm_compute. reflexivity. Qed.
