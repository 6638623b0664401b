(* C72: bytes, maps and valuers given as values are read when the statement is sent. *)
From Verif Require Import Ast Write Api Parser Build Sql SubstP Sort Buffers BuffersP.

(* Whatever a program does (calls, writes to what it has given, statements sent, in any order), each
   statement that it sends is the one that it would have built just then with what its references
   lead to at that moment. *)
Theorem C72_select {O : Oracle} : forall items es M,
  sent sel_step StSelect (lk_select items) M es
  = rebuilt sel_step StSelect now_sel (fun M => lk_select (map (now_item M) items)) [] M es.
Proof.
  intros items es M. rewrite <- (sent_rebuilt sel_step StSelect now_sel (fun M => subst_select (content M)) sel_step_now (fun _ _ => eq_refl) es _ [] M (lk_select items)).
  - destruct (lk_select items); reflexivity.
  - clear. intro M. unfold lk_select. rewrite <- (sel_step_now M new_select (SelColumns items)). reflexivity.
Qed.
Print Assumptions C72_select.

Theorem C72_insert {O : Oracle} : forall g es M,
  sent ins_step StInsert (lk_insert g) M es = rebuilt ins_step StInsert now_ins (fun _ => lk_insert g) [] M es.
Proof.
  intros g es M. rewrite <- (sent_rebuilt ins_step StInsert now_ins now_insert ins_step_now (fun _ _ => eq_refl) es _ [] M (lk_insert g)).
  - destruct (lk_insert g); reflexivity.
  - clear. intro M. exact (ins_step_now M new_insert (InsInto g)).
Qed.
Print Assumptions C72_insert.

Theorem C72_update {O : Oracle} : forall g es M,
  sent upd_step StUpdate (lk_update g) M es = rebuilt upd_step StUpdate now_upd (fun _ => lk_update g) [] M es.
Proof.
  intros g es M. rewrite <- (sent_rebuilt upd_step StUpdate now_upd now_update upd_step_now (fun _ _ => eq_refl) es _ [] M (lk_update g)).
  - destruct (lk_update g); reflexivity.
  - clear. intro M. unfold lk_update. destruct (to_table g); reflexivity.
Qed.
Print Assumptions C72_update.

Theorem C72_delete {O : Oracle} : forall g es M,
  sent del_step StDelete (lk_delete g) M es = rebuilt del_step StDelete now_del (fun _ => lk_delete g) [] M es.
Proof.
  intros g es M. rewrite <- (sent_rebuilt del_step StDelete now_del now_delete del_step_now (fun _ _ => eq_refl) es _ [] M (lk_delete g)).
  - destruct (lk_delete g); reflexivity.
  - clear. intro M. unfold lk_delete. exact (del_step_now M new_delete (DelFrom [g])).
Qed.
Print Assumptions C72_delete.

(* The conditions, WITH queries and ON CONFLICT actions given to those calls: made with a
   reference or made with what it leads to, they differ only in that value. *)
Theorem C72_constructors : forall M,
  (forall l o g, cmp_expr (now_expr M l) o (now_operand M g) = rmap (now_expr M) (cmp_expr l o g))
  /\ (forall l gs, expr_in (now_expr M l) (map (now_slice M) gs) = rmap (now_expr M) (expr_in l gs))
  /\ (forall l gs, expr_not_in (now_expr M l) (map (now_slice M) gs) = rmap (now_expr M) (expr_not_in l gs))
  /\ (forall id a b, ident_between id (now_operand M a) (now_operand M b) = rmap (now_expr M) (ident_between id a b))
  /\ (forall id a b, ident_not_between id (now_operand M a) (now_operand M b) = rmap (now_expr M) (ident_not_between id a b))
  /\ (forall g, lk_exists (now_operand M g) = rmap (now_expr M) (lk_exists g))
  /\ (forall g, lk_not_exists (now_operand M g) = rmap (now_expr M) (lk_not_exists g))
  /\ (forall a b, lk_and (now_expr M a) (now_expr M b) = now_expr M (lk_and a b) /\ lk_or (now_expr M a) (now_expr M b) = now_expr M (lk_or a b))
  /\ (forall a b, infix_and (now_expr M a) (now_expr M b) = now_expr M (infix_and a b) /\ infix_or (now_expr M a) (now_expr M b) = now_expr M (infix_or a b))
  /\ (forall n g, lk_with n (now_operand M g) = rmap (now_with M) (lk_with n g))
  /\ (forall gs, lk_do_update (map (now_pair M) gs) = rmap (now_action M) (lk_do_update gs))
  /\ (forall a, now_expr M (lk_value (reference a)) = lk_value (as_value (M a)) /\ now_operand M (reference a) = as_value (M a)).
Proof.
  intro M. repeat apply conj.
  - intros l o g. unfold cmp_expr, infix_wrapped, infix_plain. destruct (cmp_wraps o);
      (apply rmap_bind with (f := now_expr M); [apply operand_now|]; intro e; cbn [rmap]; rewrite ?wrapper_now; reflexivity).
  - intros l gs. apply rmap_bind with (f := now_expr M); [apply array_now|reflexivity].
  - intros l gs. apply rmap_bind with (f := now_expr M); [apply array_now|reflexivity].
  - intros id a b. apply rmap_bind with (f := now_expr M); [apply operand_now|]. intro e. apply rmap_bind with (f := now_expr M); [apply operand_now|reflexivity].
  - intros id a b. apply rmap_bind with (f := now_expr M); [apply operand_now|]. intro e. apply rmap_bind with (f := now_expr M); [apply operand_now|reflexivity].
  - intro g. apply rmap_bind with (f := now_expr M); [apply operand_now|reflexivity].
  - intro g. apply rmap_bind with (f := now_expr M); [apply operand_now|reflexivity].
  - intros a b. split; reflexivity.
  - intros a b. unfold infix_and, infix_or. rewrite wrapper_now. split; reflexivity.
  - intros n g. apply rmap_bind with (f := now_expr M); [apply operand_now|reflexivity].
  - intro gs. apply rmap_bind with (f := subst_pairs (content M)); [apply to_set_now|reflexivity].
  - intro a. split; reflexivity.
Qed.
Print Assumptions C72_constructors.

(* What is written to them changes no text of Query() and NamedQuery(), and no panic of
   the builder. *)
Definition text_sent (m : message) : option (res string) :=
  match m with Positional r => Some (rmap fst r) | Named r => Some (rmap fst r) | Plain _ => None end.
Definition is_fill {C} (e : event C) : bool := match e with Fill _ _ => true | _ => false end.

Theorem C72_text {O : Oracle} : forall B C (step : B -> C -> res B) statement b M M' es,
  map text_sent (sent step statement b M es) = map text_sent (sent step statement b M' (filter (fun e => negb (is_fill e)) es)).
Proof.
  intros B C step statement b M M' es. revert b M. induction es as [|[c|a t|fm] es IH]; intros b M; [reflexivity| | |]; cbn [sent filter is_fill negb map].
  - apply IH.
  - apply IH.
  - f_equal; [|apply IH]. destruct b as [b|]; [|destruct fm; reflexivity]. destruct fm; cbn [bind rendered_now text_sent]; [| |reflexivity].
    + destruct (query (statement b)) as [[t vs]|]; reflexivity.
    + destruct (named_query (statement b)) as [[t vs]|]; reflexivity.
Qed.
Print Assumptions C72_text.

(* No copy is made: a Delete that was to remove the row of one key removes the row of another one
   that the caller reads into the same buffer afterwards. *)
Theorem C72_copied_refuted :
  let key := reference "key" in
  let calls := match cmp_expr (lk_condition (GStr "id")) OpEqual key with Ok e => [Call (DelWhere e)] | Panic _ => [] end in
  let M a := Bytes (if String.eqb a "key" then "one"%string else ""%string) in
  sent (O := go_oracle) del_step StDelete (lk_delete (GStr "t")) M (calls ++ [Send ByQuery; Fill "key" (Bytes "two"); Send ByQuery; Send ByString])%list
  = [Positional (Ok ("DELETE FROM ""t"" WHERE (""id"" = $1)", [GBytes "one"])); Positional (Ok ("DELETE FROM ""t"" WHERE (""id"" = $1)", [GBytes "two"]));
     Plain (Ok "DELETE FROM ""t"" WHERE (""id"" = decode('74776f', 'hex'))")]%string.
Proof. vm_compute. reflexivity. Qed.
Print Assumptions C72_copied_refuted.

(* The same with a batch of rows, and with a map. *)
Example C72_insert_ex :
  let M a := Bytes (if String.eqb a "a" then "x"%string else "y"%string) in
  sent (O := go_oracle) (ins_step (O := go_oracle)) StInsert (lk_insert (O := go_oracle) (GStr "t")) M
    [Call (InsColumns [GStr "k, v"]); Call (InsValues [GAnyss [[reference "a"; GInt KInt 1]; [reference "b"; GInt KInt 2]]]); Fill "b" (Bytes "z"); Send ByNamedQuery]
  = [Named (Ok ("INSERT INTO ""t"" (""k"", ""v"") VALUES (:arg_1, :arg_2), (:arg_3, :arg_4)",
      [("arg_1", GBytes "x"); ("arg_2", GInt KInt 1); ("arg_3", GBytes "z"); ("arg_4", GInt KInt 2)]))]%string.
Proof. vm_compute. reflexivity. Qed.

Example C72_update_ex :
  let M a := Bytes ""%string in
  sent (O := go_oracle) upd_step StUpdate (lk_update (GStr "t")) M
    [Call (UpdSet [GMapAny [("k"%string, reference "a")]]); Fill "a" (Bytes "new"); Send ByQuery; Fill "a" (Bytes "newer"); Call (UpdWhere (ERaw "true")); Send ByQuery]
  = [Positional (Ok ("UPDATE ""t"" SET ""k"" = $1", [GBytes "new"])); Positional (Ok ("UPDATE ""t"" SET ""k"" = $1 WHERE true", [GBytes "newer"]))]%string.
Proof. vm_compute. reflexivity. Qed.

(* A map given as a value, and a pointer to a driver.Valuer. *)
Example C72_delete_ex :
  let M a := if String.eqb a "attrs" then Entries [("k", "1")] else Gives (GInt KInt 7) in
  let cond c o g := match cmp_expr (lk_condition (GStr c)) o g with Ok e => [Call (DelWhere e)] | Panic _ => [] end in
  sent (O := go_oracle) del_step StDelete (lk_delete (GStr "t")) M
    (cond "attrs" OpContains (reference "attrs") ++ cond "id" OpEqual (reference "id") ++ [Send ByQuery; Fill "attrs" (Entries []); Fill "id" Fails; Send ByQuery; Send ByString])%list
  = [Positional (Ok ("DELETE FROM ""t"" WHERE ((""attrs"" @> $1) AND (""id"" = $2))", [GMapStr [("k", "1")]; GValuer (GInt KInt 7)]));
     Positional (Ok ("DELETE FROM ""t"" WHERE ((""attrs"" @> $1) AND (""id"" = $2))", [GMapStr []; GValuerErr]));
     Plain (Panic (PMsg "loukoum: was not able to retrieve valuer value"))]%string.
Proof. vm_compute. reflexivity. Qed.
