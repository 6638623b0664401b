(* C19: what the panic of a repeated call says. *)
From Verif Require Import CallsP Sort PropsCalls.

(* The clause, as the message of the panic calls it. *)
Definition sel_words (o : sel_once) : string :=
  match o with
  | OnceFrom => "from" | OnceGroupBy => "group by" | OnceHaving => "having" | OnceLimit => "limit" | OnceOffset => "offset"
  end.
Definition ins_words (o : ins_once) : string :=
  match o with
  | OnceInto => "into" | OnceColumns => "columns" | OnceValues => "values" | OnceInsReturning => "returning" | OnceConflict => "on conflict"
  end.
Definition upd_words (o : upd_once) : string := match o with OnceUpdFrom => "from" | OnceUpdReturning => "returning" end.
Definition del_words (o : del_once) : string :=
  match o with OnceDelFrom => "from" | OnceDelUsing => "using" | OnceDelReturning => "returning" end.
Definition refusal (builder clause : string) : panic := PMsg ("loukoum: " ++ builder ++ " builder has " ++ clause ++ " clause already defined").

Lemma nonempty_some : forall A (l : list A), l <> [] -> nonempty l = true.
Proof. intros A [|x l] H; [congruence|reflexivity]. Qed.

Theorem C19_select_refusal : forall o q c, sel_once_of c = Some o -> sel_has o q -> sel_step q c = Panic (refusal "select" (sel_words o)).
Proof.
  intros o q c E H. destruct c; try discriminate; injection E as <-; cbn [sel_has sel_step sel_words] in *.
  - rewrite (nonempty_some _ _ H). reflexivity.
  - rewrite (nonempty_some _ _ H). reflexivity.
  - rewrite H. reflexivity.
  - destruct (s_limit q =? 0)%Z eqn:Z; [apply Z.eqb_eq in Z; congruence|reflexivity].
  - destruct (s_offset q =? 0)%Z eqn:Z; [apply Z.eqb_eq in Z; congruence|reflexivity].
Qed.

(* Set on an Insert is refused for its columns first. *)
Theorem C19_insert_refusal {O : Oracle} : forall o i c, In o (ins_once_of c) -> ins_has o i -> (ins_has OnceColumns i -> o <> OnceValues) ->
  ins_step i c = Panic (refusal "insert" (ins_words o)).
Proof.
  intros o i c E H N. destruct c as [g|args|args|args|s|args|args]; try contradiction; cbn [ins_once_of] in E.
  - destruct E as [<-|[]]. cbn [ins_has ins_step ins_words] in *. destruct (t_name (i_into i)); [congruence|reflexivity].
  - destruct args; [contradiction|]. destruct E as [<-|[]]. cbn [ins_has ins_step] in *. rewrite (nonempty_some _ _ H). reflexivity.
  - destruct E as [<-|[]]. cbn [ins_has ins_step] in *. rewrite H. reflexivity.
  - destruct E as [<-|[]]. cbn [ins_has ins_step] in *. rewrite (nonempty_some _ _ H). reflexivity.
  - destruct E as [<-|[]]. cbn [ins_has ins_step] in *. rewrite H. reflexivity.
  - destruct E as [<-|[<-|[]]]; cbn [ins_has ins_step] in *.
    + rewrite (nonempty_some _ _ H). reflexivity.
    + destruct (i_columns i) as [|x l] eqn:Ec; [cbn [nonempty]; rewrite H; reflexivity|]. exfalso. apply N; [discriminate|reflexivity].
Qed.

Theorem C19_update_refusal : forall o u c, upd_once_of c = Some o -> upd_has o u -> upd_step u c = Panic (refusal "update" (upd_words o)).
Proof.
  intros o u c E H. destruct c; try discriminate; injection E as <-; cbn [upd_has upd_step upd_words] in *; rewrite (nonempty_some _ _ H); reflexivity.
Qed.

Theorem C19_delete_refusal : forall o d c, del_once_of c = Some o -> del_has o d -> del_step d c = Panic (refusal "delete" (del_words o)).
Proof.
  intros o d c E H. destruct c; try discriminate; injection E as <-; cbn [del_has del_step del_words] in *; rewrite (nonempty_some _ _ H); reflexivity.
Qed.

(* Not every message names its clause: DistinctOn after GroupBy is told that there is a DISTINCT ON, and
   GroupBy without columns that a join is missing. *)
Theorem C19_other_messages_refuted :
  sel_run new_select [SelGroupBy [GStr "a"]; SelDistinctOn [GStr "b"]] = Panic (refusal "select" "distinct on")
  /\ sel_run new_select [SelGroupBy []] = Panic (PMsg "loukoum: given join clause is undefined").
Proof. split; vm_compute; reflexivity. Qed.
Print Assumptions C19_select_refusal.
Print Assumptions C19_insert_refusal.
Print Assumptions C19_update_refusal.
Print Assumptions C19_delete_refusal.
Print Assumptions C19_other_messages_refuted.

(* Select("a").From("t").From("u"), Insert("t").Set(...).Set(...), Update("t").From("a").From("b"), Delete("t").From("u") *)
Example C19_refusal_ex :
  sel_run new_select [SelFrom [GStr "t"]; SelFrom [GStr "u"]] = Panic (PMsg "loukoum: select builder has from clause already defined")
  /\ sel_run new_select [SelLimit (GInt KInt 5); SelLimit (GInt KInt 5)] = Panic (PMsg "loukoum: select builder has limit clause already defined")
  /\ ins_run (O := go_oracle) new_insert [InsSet [GPair (GStr "a") (GInt KInt 1)]; InsSet [GPair (GStr "b") (GInt KInt 1)]]
     = Panic (PMsg "loukoum: insert builder has columns clause already defined")
  /\ ins_run (O := go_oracle) new_insert [InsValues [GInt KInt 1]; InsSet [GPair (GStr "b") (GInt KInt 1)]]
     = Panic (PMsg "loukoum: insert builder has values clause already defined")
  /\ del_run new_delete [DelFrom [GStr "t"]; DelUsing [GStr "u"]; DelUsing [GStr "v"]] = Panic (PMsg "loukoum: delete builder has using clause already defined").
Proof. repeat split; vm_compute; reflexivity. Qed.
