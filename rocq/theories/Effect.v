(* Specification: what a database does with a statement on one table.

   A statement is read from its text and its arguments (Grammar.v, GrammarDml.v) and carried out
   on the rows of a table. An engine says what is left to PostgreSQL: the data that arguments
   become, comparisons, functions, defaults, unique constraints, the order of rows, subqueries.
   Nothing here looks at builders.

   Left out: joins, USING, FROM in UPDATE, WITH, DISTINCT, GROUP BY, HAVING, aggregates other than
   COUNT of all rows, prefixes and suffixes: a statement that has them is not carried out. Types
   and errors of evaluation are left out too: engine functions are total. Tables do not inherit
   from each other, so ONLY has no effect. *)
From Verif Require Export GrammarDml AddRows.

Record engine := {
  datum : Type;
  null : datum;
  number : nat -> datum;                             (* a count *)
  boolean : bool -> datum;
  enter : gval -> datum;                             (* an argument *)
  compares : string -> datum -> datum -> option bool; (* x OP y; None is unknown *)
  call : string -> list lexeme -> (string -> datum) -> datum;   (* f(...), given a row *)
  default_of : name -> string -> datum;              (* of a column of a table *)
  (* a new row cannot stand beside a row of a table, because of a constraint on these columns;
     of any constraint if there are none *)
  clash : name -> list string -> (string -> datum) -> (string -> datum) -> bool;
  sort_rows : list (string * string) -> list (string -> datum) -> list (string -> datum);
  (* the rows of a subquery, given the tables and the row it stands beside *)
  subquery : (name -> list (string -> datum)) -> squery -> (string -> datum) -> list (list datum) }.

Section Effect.
  Context (g : engine).

  (* A row gives the data of its columns; a database gives the rows of its tables. *)
  Definition row : Type := string -> datum g.
  Definition database : Type := name -> list row.

  Definition name_eqb (a b : name) : bool := if list_eq_dec string_dec a b then true else false.
  Definition replace (db : database) (t : name) (rows : list row) : database :=
    fun t' => if name_eqb t t' then rows else db t'.

  (* The column that a name stands for: the part after the last dot. *)
  Definition column_of (n : name) : string := last n "".

  (* ----------------------------------------------------------------------- *)
  (* Conditions                                                                *)
  (* ----------------------------------------------------------------------- *)

  Definition not3 (a : option bool) : option bool := option_map negb a.
  Definition and3 (a b : option bool) : option bool :=
    match a, b with
    | Some false, _ | _, Some false => Some false
    | Some true, Some true => Some true
    | _, _ => None
    end.
  Definition or3 (a b : option bool) : option bool :=
    match a, b with
    | Some true, _ | _, Some true => Some true
    | Some false, Some false => Some false
    | _, _ => None
    end.
  Definition negated (n : bool) (a : option bool) : option bool := if n then not3 a else a.

  Definition the_value (l : list (list (datum g))) : datum g := hd (null g) (hd [] l).

  Definition datum_in (db : database) (r : row) (a : term) : datum g :=
    match a with
    | MNull => null g
    | MVal v => enter g v
    | MName n => r (column_of n)
    | MSub q => the_value (subquery g db q r)
    | MCall f ts => call g f ts r
    end.

  (* x = one of l *)
  Definition among (x : datum g) (l : list (datum g)) : option bool :=
    fold_right (fun y o => or3 (compares g "=" x y) o) (Some false) l.

  Fixpoint truth_of (db : database) (r : row) (f : formula) : option bool :=
    match f with
    | FCmp a o b => compares g o (datum_in db r a) (datum_in db r b)
    | FIn n a vs => negated n (among (datum_in db r a) (map (datum_in db r) vs))
    | FInSub n a q => negated n (among (datum_in db r a) (map (hd (null g)) (subquery g db q r)))
    | FBetween n a x y => negated n (and3 (compares g ">=" (datum_in db r a) (datum_in db r x))
                                          (compares g "<=" (datum_in db r a) (datum_in db r y)))
    | FExists n q => negated n (Some (match subquery g db q r with [] => false | _ => true end))
    | FAnd x y => and3 (truth_of db r x) (truth_of db r y)
    | FOr x y => or3 (truth_of db r x) (truth_of db r y)
    end.

  (* WHERE keeps the rows of which the condition is true; without WHERE, all. *)
  Definition is_true (a : option bool) : bool := match a with Some true => true | _ => false end.
  Definition chosen (db : database) (w : option formula) (r : row) : bool :=
    match w with None => true | Some f => is_true (truth_of db r f) end.

  (* ----------------------------------------------------------------------- *)
  (* SELECT and RETURNING                                                      *)
  (* ----------------------------------------------------------------------- *)

  Definition item_value (db : database) (r : row) (i : item) : option (datum g) :=
    match i with
    | ItName n _ => Some (r (column_of n))
    | ItExists n q => Some (boolean g (xorb n (match subquery g db q r with [] => false | _ => true end)))
    | ItAgg _ _ _ _ => None
    end.

  Fixpoint all_some {A} (l : list (option A)) : option (list A) :=
    match l with
    | [] => Some []
    | Some a :: r => option_map (cons a) (all_some r)
    | None :: _ => None
    end.
  Definition items_value (db : database) (l : list item) (r : row) : option (list (datum g)) :=
    all_some (map (item_value db r) l).

  (* The given items of the given rows; COUNT of all rows is one row. *)
  Definition shown_rows (db : database) (l : list item) (rows : list row) : option (list (list (datum g))) :=
    match l with
    | [ItAgg f false x _] => if (String.eqb f "COUNT" && String.eqb x "*")%bool
                             then Some [[number g (List.length rows)]] else None
    | _ => all_some (map (items_value db l) rows)
    end.

  (* RETURNING cannot count. *)
  Definition returns (db : database) (l : list item) (rows : list row) : option (list (list (datum g))) :=
    match l with
    | [] => Some []
    | _ => all_some (map (items_value db l) rows)
    end.

  Definition in_sql_order (o : list (string * string)) (rows : list row) : list row :=
    match o with [] => rows | _ => sort_rows g o rows end.
  Definition skip_rows (n : option N) (rows : list row) : list row :=
    match n with None => rows | Some k => skipn (N.to_nat k) rows end.
  Definition take_rows {A} (n : option N) (rows : list A) : list A :=
    match n with None => rows | Some k => firstn (N.to_nat k) rows end.

  (* The rows of a query on one table, before its items are computed; a count comes before LIMIT
     and OFFSET, so a query that counts must not have them. *)
  Definition counts (l : list item) : bool := existsb (fun i => match i with ItAgg _ _ _ _ => true | _ => false end) l.
  Definition exec_select (db : database) (b : body) : option (list (list (datum g))) :=
    match b with
    | {| q_prefix := []; q_with := []; q_distinct_on := []; q_distinct := false; q_items := l;
         q_from := [t]; q_joins := []; q_where := w; q_group_by := []; q_having := None;
         q_order_by := o; q_limit := n; q_offset := k; q_suffix := [] |} =>
      let rows := in_sql_order o (filter (chosen db w) (db (tb_name t))) in
      if counts l
      then match o, n, k with [], None, None => shown_rows db l rows | _, _, _ => None end
      else shown_rows db l (take_rows n (skip_rows k rows))
    | _ => None
    end.

  (* ----------------------------------------------------------------------- *)
  (* DELETE                                                                    *)
  (* ----------------------------------------------------------------------- *)

  (* What is returned, and the tables afterwards. *)
  Definition exec_delete (db : database) (b : dbody) : option (list (list (datum g)) * database) :=
    match de_from b, de_using b with
    | [t], [] =>
      let rows := db (tb_name t) in
      match returns db (de_returning b) (filter (chosen db (de_where b)) rows) with
      | Some out => Some (out, replace db (tb_name t) (filter (fun r => negb (chosen db (de_where b) r)) rows))
      | None => None
      end
    | _, _ => None
    end.

  (* ----------------------------------------------------------------------- *)
  (* UPDATE                                                                    *)
  (* ----------------------------------------------------------------------- *)

  (* Assigned columns are named without their table, each at most once. *)
  Definition simple (n : name) : bool := match n with [_] => true | _ => false end.
  Fixpoint no_repeat (l : list string) : bool :=
    match l with [] => true | x :: r => negb (existsb (String.eqb x) r) && no_repeat r end.
  Definition settable (cols : list name) : bool :=
    forallb simple cols && no_repeat (map column_of cols).

  Fixpoint lookup_col {A} (c : string) (l : list (string * A)) : option A :=
    match l with [] => None | (x, a) :: r => if String.eqb c x then Some a else lookup_col c r end.
  Definition overwrite (r : row) (l : list (string * datum g)) : row :=
    fun c => match lookup_col c l with Some v => v | None => r c end.

  (* The columns of SET with the data they get, computed from the row as it was. *)
  Definition assigned (db : database) (s : setting) (r : row) : option (list (string * datum g)) :=
    match s with
    | SetEach l =>
      if settable (map fst l) then Some (map (fun nt => (column_of (fst nt), datum_in db r (snd nt))) l) else None
    | SetList cols (SValues vs) =>
      if settable cols && Nat.eqb (List.length cols) (List.length vs)
      then Some (combine (map column_of cols) (map (datum_in db r) vs)) else None
    | SetList cols (SQuery q) =>
      if settable cols then
        match subquery g db q r with
        | [] => Some (map (fun c => (column_of c, null g)) cols)
        | [vs] => if Nat.eqb (List.length cols) (List.length vs) then Some (combine (map column_of cols) vs) else None
        | _ => None
        end
      else None
    end.

  Definition updated (db : database) (w : option formula) (s : setting) (r : row) : option row :=
    if chosen db w r then option_map (overwrite r) (assigned db s r) else Some r.

  Definition exec_update (db : database) (b : ubody) : option (list (list (datum g)) * database) :=
    match up_with b, up_from b with
    | [], [] =>
      let t := tb_name (up_table b) in
      match all_some (map (updated db (up_where b) (up_set b)) (db t)),
            all_some (map (updated db (up_where b) (up_set b)) (filter (chosen db (up_where b)) (db t))) with
      | Some rows, Some changed =>
        match returns db (up_returning b) changed with
        | Some out => Some (out, replace db t rows)
        | None => None
        end
      | _, _ => None
      end
    | _, _ => None
    end.

  (* ----------------------------------------------------------------------- *)
  (* INSERT                                                                    *)
  (* ----------------------------------------------------------------------- *)

  Definition fresh (t : name) : row := fun c => default_of g t c.

  (* A row of VALUES: the columns that are not named get their defaults. *)
  Definition new_row (db : database) (t : name) (cols : list name) (vs : list term) : option row :=
    if settable cols && Nat.eqb (List.length cols) (List.length vs)
    then Some (overwrite (fresh t) (combine (map column_of cols) (map (datum_in db (fresh t)) vs))) else None.

  (* What is done about a clash, and with the constraints on which columns; with any constraint if there are
     none. DO UPDATE writes the row in the way. *)
  Definition on_clash_with (db : database) (con : option (list name * onconflict)) : option (list string * on_clash row) :=
    match con with
    | None => Some ([], Fails)
    | Some (cols, DoNothing) => Some (map column_of cols, LeavesOut)
    | Some (cols, DoUpdate l) =>
      if settable (map fst l) then
        Some (map column_of cols,
              Rewrites (fun _ old : row => overwrite old (map (fun nt => (column_of (fst nt), datum_in db old (snd nt))) l)))
      else None
    end.

  Definition exec_insert (db : database) (b : ibody) : option (list (list (datum g)) * database) :=
    let t := tb_name (in_table b) in
    match in_columns b, in_rows b with
    | [], _ | _, [] => None
    | cols, vss =>
      match all_some (map (new_row db t cols) vss), on_clash_with db (in_conflict b) with
      | Some rs, Some (unique, what) =>
        match add_to (fun new old : row => clash g t unique old new) what rs (db t) with
        | Some (rows, written) =>
          match returns db (in_returning b) written with
          | Some out => Some (out, replace db t rows)
          | None => None
          end
        | None => None
        end
      | _, _ => None
      end
    end.

  (* ----------------------------------------------------------------------- *)
  (* Texts                                                                     *)
  (* ----------------------------------------------------------------------- *)

  (* What the database does with a text and its arguments. *)
  Definition run_select (db : database) (text : string) (args : list gval) : option (list (list (datum g))) :=
    match read_query (numbered args) text with Some (Query b) => exec_select db b | None => None end.
  Definition run_delete (db : database) (text : string) (args : list gval) :=
    match read_delete (numbered args) text with Some b => exec_delete db b | None => None end.
  Definition run_update (db : database) (text : string) (args : list gval) :=
    match read_update (numbered args) text with Some b => exec_update db b | None => None end.
  Definition run_insert (db : database) (text : string) (args : list gval) :=
    match read_insert (numbered args) text with Some b => exec_insert db b | None => None end.
End Effect.
Arguments replace {g}. Arguments truth_of {g}. Arguments chosen {g}. Arguments datum_in {g}.
Arguments run_select {g}. Arguments run_delete {g}. Arguments run_update {g}. Arguments run_insert {g}.
Arguments exec_select {g}. Arguments exec_delete {g}. Arguments exec_update {g}. Arguments exec_insert {g}.
Arguments shown_rows {g}. Arguments returns {g}. Arguments overwrite {g}. Arguments fresh {g}. Arguments items_value {g}.
Arguments in_sql_order {g}. Arguments skip_rows {g}. Arguments assigned {g}. Arguments updated {g}.
Arguments on_clash_with {g}. Arguments new_row {g}. Arguments among {g}.
