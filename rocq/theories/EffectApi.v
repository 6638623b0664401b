(* Specification: programs on one table, as calls of the API, and the conditions and assignments
   that they give. Continues Effect.v. *)
From Verif Require Export Effect.

(* Where(e).And(e1).Or(e2).Where(e3)... or no condition at all. *)
Inductive linked := ByWhere | ByAnd | ByOr.
Definition conditions : Type := option (expr * list (linked * expr)).

Definition sel_conditions (c : conditions) : list sel_call :=
  match c with
  | None => []
  | Some (e, l) => SelWhere e :: map (fun x => match fst x with
                     ByWhere => SelWhere (snd x) | ByAnd => SelAnd (snd x) | ByOr => SelOr (snd x) end) l
  end.
Definition del_conditions (c : conditions) : list del_call :=
  match c with
  | None => []
  | Some (e, l) => DelWhere e :: map (fun x => match fst x with
                     ByWhere => DelWhere (snd x) | ByAnd => DelAnd (snd x) | ByOr => DelOr (snd x) end) l
  end.
Definition upd_conditions (c : conditions) : list upd_call :=
  match c with
  | None => []
  | Some (e, l) => UpdWhere e :: map (fun x => match fst x with
                     ByWhere => UpdWhere (snd x) | ByAnd => UpdAnd (snd x) | ByOr => UpdOr (snd x) end) l
  end.

(* A call that is left out when it has no arguments. *)
Definition unless_none {A B} (f : list A -> B) (l : list A) : list B :=
  match l with [] => [] | _ => [f l] end.

(* Select(args...).From(table).Where(...)...OrderBy(os...).Limit(n).Offset(k) *)
Inductive window := Everything | First (n : Z) | Page (n k : Z).
Definition window_calls (p : window) : list sel_call :=
  match p with
  | Everything => []
  | First n => [SelLimit (GInt KInt64 n)]
  | Page n k => [SelLimit (GInt KInt64 n); SelOffset (GInt KInt64 k)]
  end.
Definition window_ok (p : window) : Prop :=
  match p with
  | Everything => True
  | First n => (0 < n)%Z /\ int_ok KInt64 n = true
  | Page n k => (0 < n)%Z /\ int_ok KInt64 n = true /\ (0 <= k)%Z /\ int_ok KInt64 k = true
  end.
Definition in_window {A} (p : window) (l : list A) : list A :=
  match p with
  | Everything => l
  | First n => firstn (Z.to_nat n) l
  | Page n k => firstn (Z.to_nat n) (skipn (Z.to_nat k) l)
  end.

Definition select_program (args : list gval) (table : gval) (c : conditions) (os : list order) (p : window)
  : res select :=
  do s <- lk_select args;
  sel_run s (SelFrom [table] :: sel_conditions c ++ unless_none SelOrderBy os ++ window_calls p)%list.

(* Delete(table).Where(...)...Returning(ret...) *)
Definition delete_program (table : gval) (c : conditions) (ret : list gval) : res delete :=
  do d <- lk_delete table; del_run d (del_conditions c ++ unless_none DelReturning ret)%list.

(* Update(table).Set(...).Set(...)...Where(...)...Returning(ret...) *)
Definition update_program (table : gval) (sets : list (list gval)) (c : conditions) (ret : list gval) : res update :=
  do u <- lk_update table;
  upd_run u (map UpdSet sets ++ upd_conditions c ++ unless_none UpdReturning ret)%list.
(* Update(table).Set(columns...).Using(values...)... *)
Definition using_program (table : gval) (cols vs : list gval) (c : conditions) (ret : list gval) : res update :=
  do u <- lk_update table;
  upd_run u (UpdSet cols :: UpdUsing vs :: upd_conditions c ++ unless_none UpdReturning ret)%list.

(* Insert(table).Set(args...).OnConflict(...).Returning(ret...) *)
Definition insert_set_program {O : Oracle} (table : gval) (args : list gval) (con ret : list gval) : res insert :=
  do i <- lk_insert table;
  ins_run i (InsSet args :: unless_none InsOnConflict con ++ unless_none InsReturning ret)%list.
(* Insert(table).Columns(cols...).Values([][]T{...}).OnConflict(...).Returning(ret...) *)
Definition insert_rows_program {O : Oracle} (table : gval) (cols : list gval) (rows : gval) (con ret : list gval) : res insert :=
  do i <- lk_insert table;
  ins_run i (InsColumns cols :: InsValues [rows] :: unless_none InsOnConflict con ++ unless_none InsReturning ret)%list.

(* ------------------------------------------------------------------------- *)
(* What the conditions and assignments say                                     *)
(* ------------------------------------------------------------------------- *)

Definition formulas : Type := option (formula * list (linked * formula)).

Section Says.
  Context {O : Oracle}.
  #[local] Existing Instance Bound.

  Definition conditions_say (c : conditions) (fs : formulas) : Prop :=
    match c, fs with
    | None, None => True
    | Some (e, l), Some (f, l') => says e f /\ Forall2 (fun x y => fst x = fst y /\ says (snd x) (snd y)) l l'
    | _, _ => False
    end.

  (* The conditions are taken one after the other, from the left. *)
  Definition meets {g} (db : database g) (fs : formulas) (r : row g) : bool :=
    match fs with
    | None => true
    | Some (f, l) =>
      is_true (fold_left (fun a x => match fst x with
                 | ByOr => or3 a (truth_of db r (snd x))
                 | _ => and3 a (truth_of db r (snd x)) end) l (truth_of db r f))
    end.

  (* No subquery. *)
  Definition no_sub_term (a : term) : bool := match a with MSub _ => false | _ => true end.
  Fixpoint no_sub (f : formula) : bool :=
    match f with
    | FCmp a _ b => no_sub_term a && no_sub_term b
    | FIn _ a vs => no_sub_term a && forallb no_sub_term vs
    | FBetween _ a x y => no_sub_term a && no_sub_term x && no_sub_term y
    | FInSub _ _ _ | FExists _ _ => false
    | FAnd x y | FOr x y => no_sub x && no_sub y
    end.
  Definition no_subs (fs : formulas) : bool :=
    match fs with None => true | Some (f, l) => no_sub f && forallb (fun x => no_sub (snd x)) l end.

  (* Items without aggregates. *)
  Definition plain_items (l : list item) : bool := negb (counts l).

  (* The arguments of OnConflict: nothing, "a", "b", DoNothing(), or "a", "b", DoUpdate(args...). *)
  Inductive on_conflict_says : list gval -> option (list name * option (list (name * term))) -> Prop :=
  | conflict_none : on_conflict_says [] None
  | conflict_nothing targets ns : Forall2 key_says targets ns ->
      on_conflict_says (targets ++ [lk_do_nothing])%list (Some (ns, None))
  | conflict_update targets ns args l x : Forall2 key_says targets ns -> pairs_say args l -> l <> [] ->
      lk_do_update args = Ok x ->
      on_conflict_says (targets ++ [x])%list (Some (ns, Some l)).

  (* The last of the assignments to a column. *)
  Definition last_value (c : string) (l : list (name * term)) : option term :=
    fold_left (fun o na => if String.eqb c (column_of (fst na)) then Some (snd na) else o) l None.
  (* Columns named without their table. *)
  Definition simple_names (l : list (name * term)) : bool := forallb (fun na => simple (fst na)) l.
End Says.

(* ------------------------------------------------------------------------- *)
(* What the database answers                                                   *)
(* ------------------------------------------------------------------------- *)

Section Answers.
  Context {O : Oracle} {g : engine}.

  (* Query() gives a text and arguments, and the database answers to them. *)
  Definition select_answers (db : database g) (s : select) (out : list (list (datum g))) : Prop :=
    exists text values, query (StSelect s) = Ok (text, values) /\ run_select db text values = Some out.
  Definition delete_answers (db : database g) (d : delete) (out : list (list (datum g))) (db' : database g) : Prop :=
    exists text values, query (StDelete d) = Ok (text, values) /\ run_delete db text values = Some (out, db').
  Definition update_answers (db : database g) (u : update) (out : list (list (datum g))) (db' : database g) : Prop :=
    exists text values, query (StUpdate u) = Ok (text, values) /\ run_update db text values = Some (out, db').
  Definition insert_answers (db : database g) (i : insert) (out : list (list (datum g))) (db' : database g) : Prop :=
    exists text values, query (StInsert i) = Ok (text, values) /\ run_insert db text values = Some (out, db').
  Definition insert_fails (db : database g) (i : insert) : Prop :=
    exists text values, query (StInsert i) = Ok (text, values) /\ run_insert db text values = None.

  (* The data of items without aggregates. *)
  Definition datum_of (db : database g) (r : row g) (i : item) : datum g :=
    match i with
    | ItName n _ => r (column_of n)
    | ItExists n q => boolean g (xorb n (match subquery g db q r with [] => false | _ => true end))
    | ItAgg _ _ _ _ => null g
    end.
  Definition data (db : database g) (l : list item) (r : row g) : list (datum g) := map (datum_of db r) l.

  (* The rows that Returning(ret...) shows: none without the call. *)
  Definition returned (db : database g) (ret : list gval) (l : list item) (rows : list (row g)) : list (list (datum g)) :=
    match ret with [] => [] | _ => map (data db l) rows end.
End Answers.
