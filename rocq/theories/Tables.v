(* Specification: what a database does with statements on several tables: SELECT with several
   tables in FROM and with joins, DELETE with USING.

   As Effect.v, but a condition is evaluated on a row of every table in scope, and a name may say
   which table it means. Nothing here looks at builders. Left out as in Effect.v: WITH, DISTINCT,
   GROUP BY, HAVING, aggregates other than COUNT of all rows, prefixes and suffixes. A name that is
   ambiguous, or that no table in scope has, is an error in PostgreSQL; here it is the first
   column of that name, or NULL. *)
From Verif Require Export EffectApi.

Record world := {
  wdatum : Type;
  wnull : wdatum;
  wnumber : nat -> wdatum;
  wboolean : bool -> wdatum;
  wenter : gval -> wdatum;
  wcompares : string -> wdatum -> wdatum -> option bool;
  wcall : string -> list lexeme -> (name -> wdatum) -> wdatum;
  wcolumn : name -> string -> bool;                  (* the table has the column *)
  wsort : list (string * string) -> list (name -> wdatum) -> list (name -> wdatum);
  (* the rows of a subquery, given the tables and what names stand for outside of it *)
  wsubquery : (name -> list (string -> wdatum)) -> squery -> (name -> wdatum) -> list (list wdatum) }.

Section Tables.
  Context (g : world).

  Definition wrow : Type := string -> wdatum g.
  Definition tables : Type := name -> list wrow.
  (* A row of each table in scope. *)
  Definition scope : Type := list (tableref * wrow).

  (* The table is called q: by its alias, or by its name, with or without its schema. *)
  Definition is_called (q : name) (t : tableref) : bool :=
    match tb_alias t with
    | [] => name_eqb q (tb_name t) || name_eqb q [last (tb_name t) ""]
    | a => name_eqb q a
    end.

  (* What names stand for. *)
  Definition naming : Type := name -> wdatum g.
  Definition found (o : option (tableref * wrow)) (c : string) : wdatum g :=
    match o with Some tr => snd tr c | None => wnull g end.
  Definition named_in (sc : scope) : naming := fun n =>
    match n with
    | [c] => found (find (fun tr => wcolumn g (tb_name (fst tr)) c) sc) c
    | _ => found (find (fun tr => is_called (removelast n) (fst tr)) sc) (last n "")
    end.

  (* ----------------------------------------------------------------------- *)
  (* Conditions and items                                                      *)
  (* ----------------------------------------------------------------------- *)

  Definition wvalue (l : list (list (wdatum g))) : wdatum g := hd (wnull g) (hd [] l).
  Definition wdatum_in (db : tables) (v : naming) (a : term) : wdatum g :=
    match a with
    | MNull => wnull g
    | MVal x => wenter g x
    | MName n => v n
    | MSub q => wvalue (wsubquery g db q v)
    | MCall f ts => wcall g f ts v
    end.
  Definition wamong (x : wdatum g) (l : list (wdatum g)) : option bool :=
    fold_right (fun y o => or3 (wcompares g "=" x y) o) (Some false) l.
  Definition some_row (l : list (list (wdatum g))) : bool := match l with [] => false | _ => true end.

  Fixpoint wtruth (db : tables) (v : naming) (f : formula) : option bool :=
    match f with
    | FCmp a o b => wcompares g o (wdatum_in db v a) (wdatum_in db v b)
    | FIn n a vs => negated n (wamong (wdatum_in db v a) (map (wdatum_in db v) vs))
    | FInSub n a q => negated n (wamong (wdatum_in db v a) (map (hd (wnull g)) (wsubquery g db q v)))
    | FBetween n a x y => negated n (and3 (wcompares g ">=" (wdatum_in db v a) (wdatum_in db v x))
                                          (wcompares g "<=" (wdatum_in db v a) (wdatum_in db v y)))
    | FExists n q => negated n (Some (some_row (wsubquery g db q v)))
    | FAnd x y => and3 (wtruth db v x) (wtruth db v y)
    | FOr x y => or3 (wtruth db v x) (wtruth db v y)
    end.
  Definition wchosen (db : tables) (w : option formula) (v : naming) : bool :=
    match w with None => true | Some f => is_true (wtruth db v f) end.

  Definition witem (db : tables) (v : naming) (i : item) : option (wdatum g) :=
    match i with
    | ItName n _ => Some (v n)
    | ItExists n q => Some (wboolean g (xorb n (some_row (wsubquery g db q v))))
    | ItAgg _ _ _ _ => None
    end.
  Definition witems (db : tables) (l : list item) (v : naming) : option (list (wdatum g)) :=
    all_some (map (witem db v) l).

  (* ----------------------------------------------------------------------- *)
  (* FROM                                                                      *)
  (* ----------------------------------------------------------------------- *)

  (* Every row of left with every row of the table. *)
  Definition beside (t : tableref) (rows : list wrow) (sc : scope) : list scope :=
    map (fun r => (sc ++ [(t, r)])%list) rows.

  Definition no_row : wrow := fun _ => wnull g.
  Definition no_rows (ts : list tableref) : scope := map (fun t => (t, no_row)) ts.

  (* left JOIN t ON f: INNER keeps the pairs of which the condition is true; LEFT keeps, too, the
     rows of left that have no partner, with NULLs; RIGHT the rows of t that have none. *)
  Definition on (db : tables) (f : formula) (sc : scope) : bool := is_true (wtruth db (named_in sc) f).
  Definition partners (db : tables) (t : tableref) (f : formula) (sc : scope) : list scope :=
    filter (on db f) (beside t (db (tb_name t)) sc).
  Definition joined_with (db : tables) (ts : list tableref) (kw : list string) (t : tableref) (f : formula)
    (left : list scope) : list scope :=
    match kw with
    | "LEFT" :: _ =>
      flat_map (fun sc => match partners db t f sc with [] => [(sc ++ [(t, no_row)])%list] | l => l end) left
    | "RIGHT" :: _ =>
      flat_map (partners db t f) left
      ++ map (fun r => (no_rows ts ++ [(t, r)])%list)
           (filter (fun r => negb (existsb (fun sc => on db f (sc ++ [(t, r)])%list) left)) (db (tb_name t)))
    | _ => flat_map (partners db t f) left
    end.

  (* Joins are carried out one after the other. *)
  Fixpoint all_joined (db : tables) (ts : list tableref) (js : list (list string * tableref * formula))
    (left : list scope) : list scope :=
    match js with
    | [] => left
    | (kw, t, f) :: rest => all_joined db (ts ++ [t])%list rest (joined_with db ts kw t f left)
    end.

  (* FROM a, b, c JOIN ...: the joins belong to the last table; then every combination. *)
  Fixpoint from_clause (db : tables) (ts : list tableref) (js : list (list string * tableref * formula)) : list scope :=
    match ts with
    | [] => []
    | [t] => all_joined db [t] js (map (fun r => [(t, r)]) (db (tb_name t)))
    | t :: rest => flat_map (fun r => map (cons (t, r)) (from_clause db rest js)) (db (tb_name t))
    end.

  (* ----------------------------------------------------------------------- *)
  (* SELECT and DELETE                                                         *)
  (* ----------------------------------------------------------------------- *)

  Definition sorted_by (o : list (string * string)) (l : list naming) : list naming :=
    match o with [] => l | _ => wsort g o l end.
  Definition cut_to (n : option N) (k : option N) (l : list naming) : list naming :=
    take_rows n (match k with None => l | Some k => skipn (N.to_nat k) l end).

  Definition wselect (db : tables) (b : body) : option (list (list (wdatum g))) :=
    match b with
    | {| q_prefix := []; q_with := []; q_distinct_on := []; q_distinct := false; q_items := l;
         q_from := ts; q_joins := js; q_where := w; q_group_by := []; q_having := None;
         q_order_by := o; q_limit := n; q_offset := k; q_suffix := [] |} =>
      let rows := filter (wchosen db w) (map named_in (from_clause db ts js)) in
      match l with
      | [ItAgg f false x _] =>
        if (String.eqb f "COUNT" && String.eqb x "*")%bool
        then match o, n, k with [], None, None => Some [[wnumber g (List.length rows)]] | _, _, _ => None end
        else None
      | _ => all_some (map (witems db l) (cut_to n k (sorted_by o rows)))
      end
    | _ => None
    end.

  Definition wreplace (db : tables) (t : name) (rows : list wrow) : tables :=
    fun t' => if name_eqb t t' then rows else db t'.

  (* DELETE FROM t USING ...: the rows of t for which some combination of rows of the other tables
     makes the condition true. *)
  Definition removed (db : tables) (t : tableref) (us : list tableref) (w : option formula) (r : wrow) : bool :=
    existsb (fun sc => wchosen db w (named_in ((t, r) :: sc)))
            (match us with [] => [[]] | _ => from_clause db us [] end).
  Definition wdelete (db : tables) (b : dbody) : option tables :=
    match de_from b, de_returning b with
    | [t], [] => Some (wreplace db (tb_name t) (filter (fun r => negb (removed db t (de_using b) (de_where b) r)) (db (tb_name t))))
    | _, _ => None
    end.

  Definition answer_select (db : tables) (text : string) (args : list gval) : option (list (list (wdatum g))) :=
    match read_query (numbered args) text with Some (Query b) => wselect db b | None => None end.
  Definition answer_delete (db : tables) (text : string) (args : list gval) : option tables :=
    match read_delete (numbered args) text with Some b => wdelete db b | None => None end.
End Tables.
Arguments named_in {g}. Arguments wtruth {g}. Arguments wchosen {g}. Arguments from_clause {g}. Arguments all_joined {g}.
Arguments joined_with {g}. Arguments partners {g}. Arguments beside {g}. Arguments on {g}. Arguments sorted_by {g}.
Arguments answer_select {g}. Arguments answer_delete {g}. Arguments wselect {g}. Arguments wdelete {g}.
Arguments removed {g}. Arguments witems {g}. Arguments no_row {g}. Arguments no_rows {g}. Arguments cut_to {g}. Arguments wdatum_in {g}.
Arguments wreplace {g}.

(* ------------------------------------------------------------------------- *)
(* Programs                                                                    *)
(* ------------------------------------------------------------------------- *)

(* Join(table, on), Join(table, on, types.LeftJoin), Join("LEFT JOIN t ON a = b") *)
Inductive join_arg :=
| JoinOn (table : gval) (c : expr)
| JoinAs (table : gval) (c : expr) (kw : list string)
| JoinText (text : string).
Definition join_call (j : join_arg) : sel_call :=
  match j with
  | JoinOn t c => SelJoin [t; GExpr c]
  | JoinAs t c kw => SelJoin [t; GExpr c; GJoinType (spaced kw)]
  | JoinText x => SelJoin [GStr x]
  end.

(* Select(args...).From(tables...).Join(...)....Where(...)...OrderBy(os...).Limit(n).Offset(k) *)
Definition join_program (args tables : list gval) (js : list join_arg) (c : conditions) (os : list order) (p : window)
  : res select :=
  do s <- lk_select args;
  sel_run s (SelFrom tables :: map join_call js ++ sel_conditions c ++ unless_none SelOrderBy os ++ window_calls p)%list.

(* Delete(table).Using(others...).Where(...)... *)
Definition using_delete_program (table : gval) (others : list gval) (c : conditions) : res delete :=
  do d <- lk_delete table; del_run d (DelUsing others :: del_conditions c)%list.

Section Says.
  Context {O : Oracle}.

  Inductive join_arg_says : join_arg -> list string * tableref * formula -> Prop :=
  | says_join_on g t c f : table_says g t -> on_says c f -> join_arg_says (JoinOn g c) (["INNER"; "JOIN"], t, f)
  | says_join_as g t c f kw : table_says g t -> on_says c f -> In kw join_types -> join_arg_says (JoinAs g c kw) (kw, t, f)
  | says_join_text ls txt kw t e rest : In kw join_types ->
      JoinSpec.writes_join ls (spaced kw) t e rest -> Scan.layout false ls txt ->
      plain_name t = true -> forallb plain_equality (e :: map snd rest) = true ->
      join_arg_says (JoinText txt) (kw, {| tb_only := false; tb_name := parts_of t; tb_alias := [] |}, chain_formula e rest).

  (* The conditions, one after the other, from the left. *)
  Definition wmeets {g} (db : tables g) (fs : formulas) (v : naming g) : bool :=
    match fs with
    | None => true
    | Some (f, l) =>
      is_true (fold_left (fun a x => match fst x with
                 | ByOr => or3 a (wtruth db v (snd x))
                 | _ => and3 a (wtruth db v (snd x)) end) l (wtruth db v f))
    end.

  Definition wdatum_of {g} (db : tables g) (v : naming g) (i : item) : wdatum g :=
    match i with
    | ItName n _ => v n
    | ItExists n q => wboolean g (xorb n (some_row g (wsubquery g db q v)))
    | ItAgg _ _ _ _ => wnull g
    end.
  Definition wdata {g} (db : tables g) (l : list item) (v : naming g) : list (wdatum g) := map (wdatum_of db v) l.

  Definition selects {g} (db : tables g) (s : select) (out : list (list (wdatum g))) : Prop :=
    exists text values, query (StSelect s) = Ok (text, values) /\ answer_select db text values = Some out.
  Definition deletes {g} (db : tables g) (d : delete) (db' : tables g) : Prop :=
    exists text values, query (StDelete d) = Ok (text, values) /\ answer_delete db text values = Some db'.
End Says.
