(* C63: Query(), NamedQuery() and String() are the same statement, and do the same to a database
   that takes the literal of a value for the value. *)
From Verif Require Import AssignP Sort.
From Verif Require Import LiteralP GrammarDmlP GrammarReadP PropsGrammar PropsGrammarDml PropsGrammarText.

(* ------------------------------------------------------------------------- *)
(* The same statement                                                          *)
(* ------------------------------------------------------------------------- *)

(* Whatever a Select says with literals, the text of Query() with its arguments and the text of
   NamedQuery() with its are read as one query, and the text of String() as this query with the
   literals in the place of the arguments. *)
Theorem C63_select_same {O : Oracle} : forall e s b, sel_says (m := Inline e) s b -> q_items b <> [] ->
  exists b' t1 v1 t2 v2 t3, with_literals e b' b
    /\ query (StSelect s) = Ok (t1, v1) /\ read_query (numbered v1) t1 = Some (Query b')
    /\ named_query (StSelect s) = Ok (t2, v2) /\ read_query (named v2) t2 = Some (Query b')
    /\ to_string (StSelect s) = Ok t3 /\ read_query (no_args e) t3 = Some (Query b).
Proof.
  intros e s b H N. destruct (sel_link e s b H) as (b' & H' & R).
  assert (N' : q_items b' <> []).
  { destruct R as [? ? ? ? ? i i' ? ? ? ? ? ? ? ? ? ? ? ? _ I _ _ _]. cbn in *. destruct I; [exact N|discriminate]. }
  destruct (C49_select_read_back s b' H' N') as (t1 & v1 & Q1 & R1).
  destruct (C53_select_named_read_back s b' H' N') as (t2 & v2 & Q2 & R2).
  destruct (C54_select_text_read_back e s b H N) as (t3 & Q3 & R3).
  exists b', t1, v1, t2, v2, t3. repeat (split; [assumption|]). assumption.
Qed.
Print Assumptions C63_select_same.

Theorem C63_delete_same {O : Oracle} : forall e d b, del_says (m := Inline e) d b ->
  exists b' t1 v1 t2 v2 t3, delete_with_literals e b' b
    /\ query (StDelete d) = Ok (t1, v1) /\ read_delete (numbered v1) t1 = Some b'
    /\ named_query (StDelete d) = Ok (t2, v2) /\ read_delete (named v2) t2 = Some b'
    /\ to_string (StDelete d) = Ok t3 /\ read_delete (no_args e) t3 = Some b.
Proof.
  intros e s b H. destruct (del_link e s b H) as (b' & H' & R).
  destruct (C50_delete_read_back s b' H') as (t1 & v1 & Q1 & R1).
  destruct (C53_delete_named_read_back s b' H') as (t2 & v2 & Q2 & R2).
  destruct (C54_delete_text_read_back e s b H) as (t3 & Q3 & R3).
  exists b', t1, v1, t2, v2, t3. repeat (split; [assumption|]). assumption.
Qed.
Print Assumptions C63_delete_same.

Theorem C63_update_same {O : Oracle} : forall e u b, sort_contract o_sort -> upd_says (m := Inline e) u b ->
  assigns_something (up_set b) ->
  exists b' t1 v1 t2 v2 t3, update_with_literals e b' b
    /\ query (StUpdate u) = Ok (t1, v1) /\ read_update (numbered v1) t1 = Some b'
    /\ named_query (StUpdate u) = Ok (t2, v2) /\ read_update (named v2) t2 = Some b'
    /\ to_string (StUpdate u) = Ok t3 /\ read_update (no_args e) t3 = Some b.
Proof.
  intros e s b C H N. destruct (upd_link e s b H) as (b' & H' & R).
  assert (N' : assigns_something (up_set b')).
  { destruct R as [? ? ? ? ? ? ? ? ? ? _ RS _ _]. cbn in *. destruct RS as [l l' F|cols l l' F|]; [| |exact N]; destruct F; exact N || exact I. }
  destruct (C51_update_read_back s b' C H' N') as (t1 & v1 & Q1 & R1).
  destruct (C53_update_named_read_back s b' C H' N') as (t2 & v2 & Q2 & R2).
  destruct (C54_update_text_read_back e s b C H N) as (t3 & Q3 & R3).
  exists b', t1, v1, t2, v2, t3. repeat (split; [assumption|]). assumption.
Qed.
Print Assumptions C63_update_same.

Theorem C63_insert_same {O : Oracle} : forall e i b, sort_contract o_sort -> ins_says (m := Inline e) i b ->
  exists b' t1 v1 t2 v2 t3, insert_with_literals e b' b
    /\ query (StInsert i) = Ok (t1, v1) /\ read_insert (numbered v1) t1 = Some b'
    /\ named_query (StInsert i) = Ok (t2, v2) /\ read_insert (named v2) t2 = Some b'
    /\ to_string (StInsert i) = Ok t3 /\ read_insert (no_args e) t3 = Some b.
Proof.
  intros e s b C H. destruct (ins_link e s b H) as (b' & H' & R).
  destruct (C52_insert_read_back s b' C H') as (t1 & v1 & Q1 & R1).
  destruct (C53_insert_named_read_back s b' C H') as (t2 & v2 & Q2 & R2).
  destruct (C54_insert_text_read_back e s b C H) as (t3 & Q3 & R3).
  exists b', t1, v1, t2, v2, t3. repeat (split; [assumption|]). assumption.
Qed.
Print Assumptions C63_insert_same.

(* ------------------------------------------------------------------------- *)
(* The same effect                                                             *)
(* ------------------------------------------------------------------------- *)

Theorem C63_select_effect {O : Oracle} : forall (g : engine) e, takes_literals g e ->
  forall (db : database g) s b, sel_says (m := Inline e) s b -> q_items b <> [] ->
  exists t1 v1 t2 v2 t3 out, query (StSelect s) = Ok (t1, v1) /\ run_select db t1 v1 = out
    /\ named_query (StSelect s) = Ok (t2, v2) /\ carry_out_select db (named v2) t2 = out
    /\ to_string (StSelect s) = Ok t3 /\ carry_out_select db (no_args e) t3 = out.
Proof.
  intros g e L db s b H N. destruct (C63_select_same e s b H N) as (b' & t1 & v1 & t2 & v2 & t3 & R & Q1 & R1 & Q2 & R2 & Q3 & R3).
  exists t1, v1, t2, v2, t3, (exec_select db b'). unfold run_select, carry_out_select. rewrite R1, R2, R3, (same_select e L db b' b R).
  repeat (split; [assumption || reflexivity|]). reflexivity.
Qed.
Print Assumptions C63_select_effect.

Theorem C63_delete_effect {O : Oracle} : forall (g : engine) e, takes_literals g e ->
  forall (db : database g) d b, del_says (m := Inline e) d b ->
  exists t1 v1 t2 v2 t3 out, query (StDelete d) = Ok (t1, v1) /\ run_delete db t1 v1 = out
    /\ named_query (StDelete d) = Ok (t2, v2) /\ carry_out_delete db (named v2) t2 = out
    /\ to_string (StDelete d) = Ok t3 /\ carry_out_delete db (no_args e) t3 = out.
Proof.
  intros g e L db s b H. destruct (C63_delete_same e s b H) as (b' & t1 & v1 & t2 & v2 & t3 & R & Q1 & R1 & Q2 & R2 & Q3 & R3).
  exists t1, v1, t2, v2, t3, (exec_delete db b'). unfold run_delete, carry_out_delete. rewrite R1, R2, R3, (same_delete e L db b' b R).
  repeat (split; [assumption || reflexivity|]). reflexivity.
Qed.
Print Assumptions C63_delete_effect.

Theorem C63_update_effect {O : Oracle} : forall (g : engine) e, sort_contract o_sort -> takes_literals g e ->
  forall (db : database g) u b, upd_says (m := Inline e) u b -> assigns_something (up_set b) ->
  exists t1 v1 t2 v2 t3 out, query (StUpdate u) = Ok (t1, v1) /\ run_update db t1 v1 = out
    /\ named_query (StUpdate u) = Ok (t2, v2) /\ carry_out_update db (named v2) t2 = out
    /\ to_string (StUpdate u) = Ok t3 /\ carry_out_update db (no_args e) t3 = out.
Proof.
  intros g e C L db s b H N. destruct (C63_update_same e s b C H N) as (b' & t1 & v1 & t2 & v2 & t3 & R & Q1 & R1 & Q2 & R2 & Q3 & R3).
  exists t1, v1, t2, v2, t3, (exec_update db b'). unfold run_update, carry_out_update. rewrite R1, R2, R3, (same_update e L db b' b R).
  repeat (split; [assumption || reflexivity|]). reflexivity.
Qed.
Print Assumptions C63_update_effect.

Theorem C63_insert_effect {O : Oracle} : forall (g : engine) e, sort_contract o_sort -> takes_literals g e ->
  forall (db : database g) i b, ins_says (m := Inline e) i b ->
  exists t1 v1 t2 v2 t3 out, query (StInsert i) = Ok (t1, v1) /\ run_insert db t1 v1 = out
    /\ named_query (StInsert i) = Ok (t2, v2) /\ carry_out_insert db (named v2) t2 = out
    /\ to_string (StInsert i) = Ok t3 /\ carry_out_insert db (no_args e) t3 = out.
Proof.
  intros g e C L db s b H. destruct (C63_insert_same e s b C H) as (b' & t1 & v1 & t2 & v2 & t3 & R & Q1 & R1 & Q2 & R2 & Q3 & R3).
  exists t1, v1, t2, v2, t3, (exec_insert db b'). unfold run_insert, carry_out_insert. rewrite R1, R2, R3, (same_insert e L db b' b R).
  repeat (split; [assumption || reflexivity|]). reflexivity.
Qed.
Print Assumptions C63_insert_effect.

(* ------------------------------------------------------------------------- *)
(* Examples                                                                    *)
(* ------------------------------------------------------------------------- *)

(* A database that takes literals for values: integers by their value, times by their text, nil
   pointers for NULL. *)
Fixpoint normal (v : gval) : gval :=
  match v with
  | GInt _ z => GInt KInt64 z
  | GTime t => GStr (time_text t)
  | GNilValuer => GNil
  | GValuer u => normal u
  | _ => v
  end.
Definition ex_cmp (o : string) (x y : gval) : option bool :=
  match o, x, y with
  | "=", GInt _ a, GInt _ b => Some (a =? b)%Z
  | ">", GInt _ a, GInt _ b => Some (b <? a)%Z
  | "=", GStr a, GStr b => Some (String.eqb a b)
  | _, _, _ => None
  end.
Definition exf : engine := {|
  datum := gval; null := GNil; number := fun n => GInt KInt64 (Z.of_nat n); boolean := GBool;
  enter := normal; compares := ex_cmp; call := fun f _ _ => GStr f;
  default_of := fun _ _ => GNil; clash := fun _ _ _ _ => false; sort_rows := fun _ rows => rows;
  subquery := fun db q _ => match q with Query b => map (fun r => [r "id"]) (db (tb_name (hd {| tb_only := false; tb_name := []; tb_alias := [] |} (q_from b)))) end |}.

Lemma exf_literals : forall e, takes_literals exf e.
Proof.
  intro e. split; [|split].
  - intro v. induction v; cbn [literal_says]; intros u H; try discriminate H; try (injection H as <-; reflexivity).
    + destruct (_ && _); [|discriminate H]. injection H as <-. reflexivity.
    + cbn [enter exf normal] in *. apply IHv, H.
  - intro v. induction v; cbn [literal_says]; intro H; try discriminate H; try reflexivity.
    + destruct (_ && _); discriminate H.
    + apply IHv, H.
  - intros db q q' r [b b' R]. destruct R. reflexivity.
Qed.

Definition one (id : Z) (name : gval) : row exf :=
  fun c => if String.eqb c "id" then GInt KInt64 id else if String.eqb c "name" then name else GNil.
Definition folk : database exf := fun t =>
  match t with
  | ["users"] => [one 1 (GStr "a"); one 2 (GStr "b"); one 3 GNil]
  | _ => []
  end.

Section Examples.
  #[local] Existing Instance go_oracle.

  (* Delete("users").Where(Condition("id").Equal(int8(2))).Or(Condition("name").Equal("a")) *)
  Definition two : expr := EInfix (lk_condition (GStr "id")) (Some "=") (EValue (GInt KInt8 2)).
  Definition called_a : expr := EInfix (lk_condition (GStr "name")) (Some "=") (EValue (GStr "a")).
  Definition removal : delete := match (do d <- lk_delete (GStr "users"); del_run d [DelWhere two; DelOr called_a]) with
                                 | Ok d => d | Panic _ => new_delete end.
  Definition removal_body : dbody := {|
    de_from := [{| tb_only := false; tb_name := ["users"]; tb_alias := [] |}]; de_using := [];
    de_where := Some (FOr (FCmp (MName ["id"]) "=" (MVal (GInt KInt64 2))) (FCmp (MName ["name"]) "=" (MVal (GStr "a"))));
    de_returning := [] |}.
  Lemma removal_says : forall e, del_says (m := Inline e) removal removal_body.
  Proof.
    intro e. set (d0 := match lk_delete (GStr "users") with Ok d => d | Panic _ => new_delete end).
    set (d1 := match del_step d0 (DelWhere two) with Ok d => d | Panic _ => new_delete end).
    set (b0 := {| de_from := de_from removal_body; de_using := []; de_where := None; de_returning := [] |}).
    set (f := FCmp (MName ["id"]) "=" (MVal (GInt KInt64 2)) : formula).
    set (b1 := {| de_from := de_from b0; de_using := de_using b0; de_where := opt_and f (de_where b0); de_returning := de_returning b0 |}).
    refine (del_or d1 b1 called_a (FCmp (MName ["name"]) "=" (MVal (GStr "a"))) f removal _ _ _ _).
    - refine (del_where d0 b0 two f d1 _ _ _).
      + apply (del_new (GStr "users")); [apply (table_string "users"); reflexivity|reflexivity].
      + apply (says_cmp "id" OpEqual (GInt KInt8 2) (MVal (GInt KInt64 2))); [reflexivity| |reflexivity].
        apply operand_value, value_bound. reflexivity.
      + reflexivity.
    - apply (says_cmp "name" OpEqual (GStr "a") (MVal (GStr "a"))); [reflexivity| |reflexivity].
      apply operand_value, value_bound. destruct e; reflexivity.
    - reflexivity.
    - reflexivity.
  Qed.
  Example C63_delete_ex : forall e, del_says (m := Inline e) removal removal_body /\ takes_literals exf e
    /\ query (StDelete removal) = Ok ("DELETE FROM ""users"" WHERE ((""id"" = $1) OR (""name"" = $2))", [GInt KInt8 2; GStr "a"])
    /\ to_string (StDelete removal) = Ok "DELETE FROM ""users"" WHERE ((""id"" = 2) OR (""name"" = 'a'))"
    /\ option_map (fun x => map (fun r => r "id") (snd x ["users"]))
         (carry_out_delete folk (no_args e) "DELETE FROM ""users"" WHERE ((""id"" = 2) OR (""name"" = 'a'))") = Some [GInt KInt64 3].
  Proof.
    intro e. split; [apply removal_says|]. split; [apply exf_literals|]. split; [vm_compute; reflexivity|].
    split; [vm_compute; reflexivity|]. destruct e; vm_compute; reflexivity.
  Qed.

  (* The condition on strings is needed. Delete("users").Where(Condition("name").Equal(v)) with
     this v removes nothing when v is an argument. The text of String() has other conditions for
     a database that does not take a backslash for an escape, and removes every row. *)
  Definition crafted : string := "') OR (""id"" > 0) --".
  Definition crafted_delete : delete :=
    match (do d <- lk_delete (GStr "users");
           del_run d [DelWhere (EInfix (lk_condition (GStr "name")) (Some "=") (EValue (GStr crafted)))]) with
    | Ok d => d | Panic _ => new_delete end.
  Theorem C63_unescaped_literal_refuted :
    (exists t1 v1, query (StDelete crafted_delete) = Ok (t1, v1)
      /\ option_map (fun x => map (fun r => r "id") (snd x ["users"])) (run_delete folk t1 v1)
         = Some [GInt KInt64 1; GInt KInt64 2; GInt KInt64 3])
    /\ (exists t3, to_string (StDelete crafted_delete) = Ok t3
      /\ option_map (fun x => map (fun r => r "id") (snd x ["users"])) (carry_out_delete folk (no_args false) t3) = Some []
      /\ option_map (fun x => map (fun r => r "id") (snd x ["users"])) (carry_out_delete folk (no_args true) t3)
         = Some [GInt KInt64 1; GInt KInt64 2; GInt KInt64 3]).
  Proof.
    split.
    - eexists. eexists. split; [vm_compute; reflexivity|]. vm_compute. reflexivity.
    - eexists. split; [vm_compute; reflexivity|]. split; vm_compute; reflexivity.
  Qed.
  Print Assumptions C63_unescaped_literal_refuted.
End Examples.

(* The Select, the Update and the Insert of C54. *)
Example C63_select_ex : forall e, sel_says (O := go_oracle) (m := Inline e) tq5 tb5 /\ q_items tb5 <> [].
Proof. intro e. split; [apply TQ5|discriminate]. Qed.
Example C63_update_ex : upd_says (O := go_oracle) (m := Inline true) tu1 tz1 /\ assigns_something (up_set tz1)
  /\ sort_contract (o_sort (Oracle := go_oracle)).
Proof. split; [apply C54_update_ex|]. split; [exact I|exact insertion_contract]. Qed.
Example C63_insert_ex : forall e, ins_says (O := go_oracle) (m := Inline e) ti1 tj1.
Proof. intro e. apply C54_insert_ex. Qed.
