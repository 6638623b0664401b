(* Specification: what UPDATE, DELETE and INSERT do to the tables, with WITH, FROM, USING and
   subqueries.

   A meaning for the statements of GrammarDml.v over the databases of Meaning.v. Subqueries mean what
   they mean there, in the row in which they stand; they see the tables as they were before the
   statement. Of several rows of FROM with which a row meets the conditions, the first is taken;
   PostgreSQL takes any of them. In DO UPDATE the row that could not be inserted is in scope as EXCLUDED;
   a name without a table stands for the row in its way, where PostgreSQL refuses it as ambiguous. The
   engine decides about defaults and constraints. None is an error. Nothing here looks at builders. *)
From Verif Require Export Meaning EffectApi.

(* The constraints of the tables. *)
Record rules (g : basis) := {
  rdefault : name -> string -> bdatum g;
  (* a new row cannot stand beside a row of a table, because of a constraint on these columns; of any
     constraint if there are none *)
  rclash : name -> list string -> brow g -> brow g -> bool }.
Arguments rdefault {g}. Arguments rclash {g}.

Section Changes.
  Context (g : basis).

  Definition put_table (db : tabledb g) (t : name) (rows : list (brow g)) : tabledb g :=
    fun t' => if name_eqb t t' then (fst (db t), rows) else db t'.

  (* A row of a table beside rows of other tables. *)
  Definition next_to (db : tabledb g) (t : tableref) (r : brow g) (sc : bscope g) : bnaming g :=
    names_in nothing (with_row db t r :: sc).
  (* The combinations of rows of the other tables; one, without tables. *)
  Definition others (db : tabledb g) (ts : list tableref) : list (bscope g) := bfrom g means db nothing [] ts.
  Definition partner (db : tabledb g) (t : tableref) (ts : list tableref) (w : option formula) (r : brow g) : option (bscope g) :=
    find (fun sc => bchosen g means db w (next_to db t r sc)) (others db ts).

  (* RETURNING: no aggregates. *)
  Definition returning (db : tabledb g) (l : list item) (v : bnaming g) : list (bdatum g) := bitems g means db l (v, [v]).
  Definition may_return (l : list item) : bool := negb (aggregated l).
  Definition return_all (db : tabledb g) (l : list item) (vs : list (bnaming g)) : list (list (bdatum g)) :=
    match l with [] => [] | _ => map (returning db l) vs end.

  (* ----------------------------------------------------------------------- *)
  (* UPDATE                                                                    *)
  (* ----------------------------------------------------------------------- *)

  Definition bwrite (r : brow g) (l : list (string * bdatum g)) : brow g :=
    fun c => match lookup_col c l with Some v => v | None => r c end.
  Definition bassigned (db : tabledb g) (s : setting) (v : bnaming g) : option (list (string * bdatum g)) :=
    match s with
    | SetEach l =>
      if settable (map fst l) then Some (map (fun nt => (column_of (fst nt), bterm g means db v (snd nt))) l) else None
    | SetList cols (SValues vs) =>
      if settable cols && Nat.eqb (List.length cols) (List.length vs)
      then Some (combine (map column_of cols) (map (bterm g means db v) vs)) else None
    | SetList cols (SQuery q) =>
      if settable cols then
        match means q db v with
        | [] => Some (map (fun c => (column_of c, bnull g)) cols)
        | [vs] => if Nat.eqb (List.length cols) (List.length vs) then Some (combine (map column_of cols) vs) else None
        | _ => None
        end
      else None
    end.

  (* A row with what it becomes, and the rows of the other tables if it is changed. *)
  Definition changed (db : tabledb g) (b : ubody) (r : brow g) : option (brow g * option (bscope g)) :=
    match partner db (up_table b) (up_from b) (up_where b) r with
    | None => Some (r, None)
    | Some sc => option_map (fun l => (bwrite r l, Some sc)) (bassigned db (up_set b) (next_to db (up_table b) r sc))
    end.
  (* A name of WITH cannot be updated. *)
  Definition named_with (l : list (string * squery)) (t : name) : bool := existsb (fun w => name_eqb [fst w] t) l.
  Definition bupdate (db0 : tabledb g) (b : ubody) : option (list (list (bdatum g)) * tabledb g) :=
    let db := with_tables g means query_columns (up_with b) db0 nothing in
    let t := tb_name (up_table b) in
    if named_with (up_with b) t || negb (may_return (up_returning b)) then None else
    match all_some (map (changed db b) (snd (db0 t))) with
    | Some l => Some (return_all db (up_returning b)
                        (flat_map (fun x => match snd x with Some sc => [next_to db (up_table b) (fst x) sc] | None => [] end) l),
                      put_table db0 t (map fst l))
    | None => None
    end.

  (* ----------------------------------------------------------------------- *)
  (* DELETE                                                                    *)
  (* ----------------------------------------------------------------------- *)

  Definition goes (db : tabledb g) (t : tableref) (b : dbody) (r : brow g) : bool :=
    match partner db t (de_using b) (de_where b) r with Some _ => true | None => false end.
  Definition bdelete (db : tabledb g) (b : dbody) : option (list (list (bdatum g)) * tabledb g) :=
    match de_from b with
    | [t] =>
      if negb (may_return (de_returning b)) then None else
      Some (return_all db (de_returning b)
              (flat_map (fun r => match partner db t (de_using b) (de_where b) r with
                                  | Some sc => [next_to db t r sc] | None => [] end) (snd (db (tb_name t)))),
            put_table db (tb_name t) (filter (fun r => negb (goes db t b r)) (snd (db (tb_name t)))))
    | _ => None
    end.

  (* ----------------------------------------------------------------------- *)
  (* INSERT                                                                    *)
  (* ----------------------------------------------------------------------- *)

  Context (k : rules g).
  Definition bfresh (t : name) : brow g := fun c => rdefault k t c.
  Definition bnew (db : tabledb g) (t : name) (cols : list name) (vs : list term) : option (brow g) :=
    if settable cols && Nat.eqb (List.length cols) (List.length vs)
    then Some (bwrite (bfresh t) (combine (map column_of cols) (map (bterm g means db nothing) vs))) else None.
  (* The row that could not be inserted. *)
  Definition excluded (db : tabledb g) (t : name) (new : brow g) : bscope g :=
    [({| tb_only := false; tb_name := ["excluded"]; tb_alias := [] |}, fst (db t), new)].
  Definition bclash (db : tabledb g) (t : tableref) (con : option (list name * onconflict)) : option (list string * on_clash (brow g)) :=
    match con with
    | None => Some ([], Fails)
    | Some (cols, DoNothing) => Some (map column_of cols, LeavesOut)
    | Some (cols, DoUpdate l) =>
      if settable (map fst l) then
        Some (map column_of cols,
              Rewrites (fun new old : brow g => bwrite old (map (fun nt =>
                (column_of (fst nt), bterm g means db (next_to db t old (excluded db (tb_name t) new)) (snd nt))) l)))
      else None
    end.
  Definition binsert (db : tabledb g) (b : ibody) : option (list (list (bdatum g)) * tabledb g) :=
    let t := tb_name (in_table b) in
    match bclash db (in_table b) (in_conflict b), all_some (map (bnew db t (in_columns b)) (in_rows b)) with
    | Some (unique, what), Some news =>
      if negb (may_return (in_returning b)) then None else
      match add_to (fun new old : brow g => rclash k t unique old new) what news (snd (db t)) with
      | Some (rows, written) =>
        Some (return_all db (in_returning b) (map (fun r => next_to db (in_table b) r []) written), put_table db t rows)
      | None => None
      end
    | _, _ => None
    end.

  (* Texts with their arguments. *)
  Definition send_update (db : tabledb g) (text : string) (args : list gval) : option (list (list (bdatum g)) * tabledb g) :=
    match read_update (numbered args) text with Some b => bupdate db b | None => None end.
  Definition send_delete (db : tabledb g) (text : string) (args : list gval) : option (list (list (bdatum g)) * tabledb g) :=
    match read_delete (numbered args) text with Some b => bdelete db b | None => None end.
  Definition send_insert (db : tabledb g) (text : string) (args : list gval) : option (list (list (bdatum g)) * tabledb g) :=
    match read_insert (numbered args) text with Some b => binsert db b | None => None end.
End Changes.
Arguments send_update {g}. Arguments send_delete {g}. Arguments send_insert {g}. Arguments partner {g}. Arguments others {g}.
Arguments next_to {g}. Arguments put_table {g}. Arguments bupdate {g}. Arguments bdelete {g}. Arguments binsert {g}.
Arguments bassigned {g}. Arguments bwrite {g}. Arguments changed {g}. Arguments return_all {g}. Arguments returning {g}.
Arguments goes {g}. Arguments bnew {g}. Arguments excluded {g}. Arguments bclash {g}. Arguments bfresh {g}.

(* Query() gives a text and arguments, and the database answers to them with rows and its new
   tables. *)
Section Sent.
  Context {O : Oracle} {g : basis}.
  Definition updates (db : tabledb g) (u : update) (out : list (list (bdatum g))) (db' : tabledb g) : Prop :=
    exists text values, query (StUpdate u) = Ok (text, values) /\ send_update db text values = Some (out, db').
  Definition removes (db : tabledb g) (d : delete) (out : list (list (bdatum g))) (db' : tabledb g) : Prop :=
    exists text values, query (StDelete d) = Ok (text, values) /\ send_delete db text values = Some (out, db').
  Definition inserts (k : rules g) (db : tabledb g) (i : insert) (out : list (list (bdatum g))) (db' : tabledb g) : Prop :=
    exists text values, query (StInsert i) = Ok (text, values) /\ send_insert k db text values = Some (out, db').
End Sent.

(* ------------------------------------------------------------------------- *)
(* Programs                                                                    *)
(* ------------------------------------------------------------------------- *)

(* Set(pairs and maps...)..., or Set(columns...).Using(values or a subquery) *)
Inductive sets := SetPairs (l : list (list gval)) | SetUsing (cols vs : list gval).
Definition set_calls (s : sets) : list upd_call :=
  match s with SetPairs l => map UpdSet l | SetUsing cols vs => [UpdSet cols; UpdUsing vs] end.

(* Update(table).With(ws...).Set(...).From(other).Where(...)....Returning(ret...); calls without
   arguments left out *)
Record change := {
  ch_table : gval;
  ch_with : list withq;
  ch_set : sets;
  ch_from : option gval;
  ch_conditions : conditions;
  ch_returning : list gval }.
Definition change_calls (c : change) : list upd_call :=
  (unless_none UpdWith (ch_with c) ++ set_calls (ch_set c)
   ++ match ch_from c with None => [] | Some t => [UpdFrom t] end
   ++ upd_conditions (ch_conditions c) ++ unless_none UpdReturning (ch_returning c))%list.
Definition change_update (c : change) : res update := do u <- lk_update (ch_table c); upd_run u (change_calls c).

(* Delete(table).Using(others...).Where(...)....Returning(ret...) *)
Record removal := { rm_table : gval; rm_using : list gval; rm_conditions : conditions; rm_returning : list gval }.
Definition removal_delete (c : removal) : res delete :=
  do d <- lk_delete (rm_table c);
  del_run d (unless_none DelUsing (rm_using c) ++ del_conditions (rm_conditions c) ++ unless_none DelReturning (rm_returning c))%list.

(* What the programs say. *)
Section Says.
  Context {O : Oracle}.
  #[local] Existing Instance Bound.

  (* The columns with their values; or the columns with a subquery. *)
  Inductive set_says : sets -> list (name * term) -> Prop :=
  | set_pairs l ls : Forall2 pairs_say l ls -> set_says (SetPairs l) (List.concat ls)
  | set_values cols ns vs ts : columns_say cols ns -> Forall2 value_says vs ts -> List.length ns = List.length ts ->
      no_repeat (map column_of ns) = true -> set_says (SetUsing cols vs) (combine ns ts).
  Definition returning_says (ret : list gval) (l : list item) : Prop :=
    match ret with [] => l = [] | _ => args_say ret l /\ l <> [] end.
  Definition from_says (f : option gval) (ts : list tableref) : Prop :=
    match f with None => ts = [] | Some x => exists t, table_says x t /\ ts = [t] end.
End Says.
