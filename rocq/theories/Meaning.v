(* Specification: what a SELECT answers, with its subqueries, WITH, joins, groups and all.

   A meaning for the statements of Grammar.v, in the order of the SQL standard: WITH, FROM with
   joins, WHERE, GROUP BY, HAVING, the items, ORDER BY, DISTINCT ON, DISTINCT, OFFSET, LIMIT.
   Subqueries have the same meaning, in the row in which they stand. Nothing here looks at builders.

   The engine decides what values, operators, functions, the other aggregates and sort orders mean,
   and what a statement with a prefix or suffix (EXPLAIN, FOR UPDATE, ...) answers. A name that
   PostgreSQL would refuse as ambiguous or unknown is here the first column of that name, or NULL;
   a column that is neither grouped nor aggregated has its value in the first row of the group, NULL if
   there is none. *)
From Verif Require Export Tables.

Record basis := {
  bdatum : Type;
  bnull : bdatum;
  bis_null : bdatum -> bool;
  bsame : bdatum -> bdatum -> bool;                  (* not distinct: NULL is the same as NULL *)
  bnumber : nat -> bdatum;
  bboolean : bool -> bdatum;
  benter : gval -> bdatum;
  bcompares : string -> bdatum -> bdatum -> option bool;
  bcall : string -> list lexeme -> (name -> bdatum) -> bdatum;
  baggregate : string -> bool -> list bdatum -> bdatum;    (* MAX, MIN, SUM: values other than NULL *)
  bsort : list string -> list (list bdatum) -> list nat;   (* directions and keys: the places of the rows, in order *)
  bother : squery -> (name -> bdatum) -> list (list bdatum) }.

Section Meaning.
  Context (g : basis).

  Definition brow : Type := string -> bdatum g.
  (* A table: its columns and its rows. *)
  Definition btable : Type := (list string * list brow)%type.
  Definition tabledb : Type := name -> btable.
  Definition bnaming : Type := name -> bdatum g.
  Definition bscope : Type := list (tableref * list string * brow).

  Definition called_so (q : name) (t : tableref) : bool :=
    match tb_alias t with
    | [] => name_eqb q (tb_name t) || name_eqb q [last (tb_name t) ""]
    | a => name_eqb q a
    end.
  Definition has_col (cs : list string) (c : string) : bool := existsb (String.eqb c) cs.

  (* A name stands for a column of a table in scope, or for what it stands for outside. *)
  Definition names_in (outer : bnaming) (sc : bscope) : bnaming := fun n =>
    match n with
    | [c] => match find (fun x => has_col (snd (fst x)) c) sc with Some (_, r) => r c | None => outer n end
    | _ => match find (fun x => called_so (removelast n) (fst (fst x))) sc with
           | Some (_, r) => r (last n "") | None => outer n end
    end.

  Definition no_values : brow := fun _ => bnull g.

  (* ----------------------------------------------------------------------- *)
  (* Groups, duplicates                                                        *)
  (* ----------------------------------------------------------------------- *)

  Fixpoint same_values (a b : list (bdatum g)) : bool :=
    match a, b with
    | [], [] => true
    | x :: a', y :: b' => bsame g x y && same_values a' b'
    | _, _ => false
    end.

  (* The first of each key. *)
  Fixpoint firsts {A} (key : A -> list (bdatum g)) (l : list A) : list A :=
    match l with
    | [] => []
    | x :: l' => x :: filter (fun y => negb (same_values (key x) (key y))) (firsts key l')
    end.

  Definition groups (key : bnaming -> list (bdatum g)) (l : list bnaming) : list (bnaming * list bnaming) :=
    map (fun v => (v, filter (fun u => same_values (key v) (key u)) l)) (firsts key l).

  (* ----------------------------------------------------------------------- *)
  (* Statements, given the meaning of their subqueries                         *)
  (* ----------------------------------------------------------------------- *)

  Section Nodes.
    Context {Q : Type} (sub : Q -> tabledb -> bnaming -> list (list (bdatum g))) (columns : Q -> list string).

    Definition bvalue (l : list (list (bdatum g))) : bdatum g := hd (bnull g) (hd [] l).
    Definition bterm (db : tabledb) (v : bnaming) (a : term_ Q) : bdatum g :=
      match a with
      | MNull => bnull g
      | MVal x => benter g x
      | MName n => v n
      | MSub q => bvalue (sub q db v)
      | MCall f ts => bcall g f ts v
      end.
    Definition bamong (x : bdatum g) (l : list (bdatum g)) : option bool :=
      fold_right (fun y o => or3 (bcompares g "=" x y) o) (Some false) l.
    Definition any_row (l : list (list (bdatum g))) : bool := match l with [] => false | _ => true end.

    Fixpoint btruth (db : tabledb) (v : bnaming) (f : formula_ Q) : option bool :=
      match f with
      | FCmp a o b => bcompares g o (bterm db v a) (bterm db v b)
      | FIn n a vs => negated n (bamong (bterm db v a) (map (bterm db v) vs))
      | FInSub n a q => negated n (bamong (bterm db v a) (map (hd (bnull g)) (sub q db v)))
      | FBetween n a x y => negated n (and3 (bcompares g ">=" (bterm db v a) (bterm db v x))
                                            (bcompares g "<=" (bterm db v a) (bterm db v y)))
      | FExists n q => negated n (Some (any_row (sub q db v)))
      | FAnd x y => and3 (btruth db v x) (btruth db v y)
      | FOr x y => or3 (btruth db v x) (btruth db v y)
      end.
    Definition bchosen (db : tabledb) (w : option (formula_ Q)) (v : bnaming) : bool :=
      match w with None => true | Some f => is_true (btruth db v f) end.

    (* FROM and joins, as in Tables.v *)
    Definition with_row (db : tabledb) (t : tableref) (r : brow) : tableref * list string * brow := (t, fst (db (tb_name t)), r).
    Definition on_true (db : tabledb) (outer : bnaming) (f : formula_ Q) (sc : bscope) : bool :=
      is_true (btruth db (names_in outer sc) f).
    Definition bpartners (db : tabledb) (outer : bnaming) (t : tableref) (f : formula_ Q) (sc : bscope) : list bscope :=
      filter (on_true db outer f) (map (fun r => (sc ++ [with_row db t r])%list) (snd (db (tb_name t)))).
    Definition bjoin (db : tabledb) (outer : bnaming) (ts : list tableref) (kw : list string) (t : tableref) (f : formula_ Q)
      (left : list bscope) : list bscope :=
      match kw with
      | "LEFT" :: _ =>
        flat_map (fun sc => match bpartners db outer t f sc with
                            | [] => [(sc ++ [with_row db t no_values])%list] | l => l end) left
      | "RIGHT" :: _ =>
        flat_map (bpartners db outer t f) left
        ++ map (fun r => (map (fun t => with_row db t no_values) ts ++ [with_row db t r])%list)
             (filter (fun r => negb (existsb (fun sc => on_true db outer f (sc ++ [with_row db t r])%list) left)) (snd (db (tb_name t))))
      | _ => flat_map (bpartners db outer t f) left
      end.
    Fixpoint bjoins (db : tabledb) (outer : bnaming) (ts : list tableref) (js : list (list string * tableref * formula_ Q))
      (left : list bscope) : list bscope :=
      match js with
      | [] => left
      | (kw, t, f) :: rest => bjoins db outer (ts ++ [t])%list rest (bjoin db outer ts kw t f left)
      end.
    Definition bfrom (db : tabledb) (outer : bnaming) (js : list (list string * tableref * formula_ Q))
      : list tableref -> list bscope :=
      fix from ts :=
        match ts with
        | [] => [[]]
        | [t] => bjoins db outer [t] js (map (fun r => [with_row db t r]) (snd (db (tb_name t))))
        | t :: rest => flat_map (fun r => map (cons (with_row db t r)) (from rest)) (snd (db (tb_name t)))
        end.

    (* Items: of one row, or of a group with its first row. *)
    Definition aggregate (f : string) (d : bool) (x : string) (members : list bnaming) : bdatum g :=
      let values := filter (fun v => negb (bis_null g v)) (map (fun v => v [x]) members) in
      let values := if d then firsts (fun v => [v]) values else values in
      if String.eqb f "COUNT"
      then bnumber g (if String.eqb x "*" then List.length members else List.length values)
      else baggregate g f d values.
    Definition bitem (db : tabledb) (gr : bnaming * list bnaming) (i : item_ Q) : bdatum g :=
      match i with
      | ItName n _ => fst gr n
      | ItAgg f d x _ => aggregate f d x (snd gr)
      | ItExists n q => bboolean g (xorb n (any_row (sub q db (fst gr))))
      end.
    Definition bitems (db : tabledb) (l : list (item_ Q)) (gr : bnaming * list bnaming) : list (bdatum g) := map (bitem db gr) l.
    Definition item_column (i : item_ Q) : string :=
      match i with
      | ItName n [] => last n ""
      | ItName _ a => last a ""
      | ItAgg f _ _ a =>
        if String.eqb a "" then
          match f with "COUNT" => "count" | "MAX" => "max" | "MIN" => "min" | "SUM" => "sum" | _ => f end
        else a
      | ItExists _ _ => "exists"
      end.
    Definition aggregated (l : list (item_ Q)) : bool :=
      existsb (fun i => match i with ItAgg _ _ _ _ => true | _ => false end) l.

    Fixpoint column_value (cs : list string) (ds : list (bdatum g)) (c : string) : option (bdatum g) :=
      match cs, ds with
      | x :: cs', d :: ds' => if String.eqb c x then Some d else column_value cs' ds' c
      | _, _ => None
      end.
    (* ORDER BY means the items first. *)
    Definition over_items (cs : list string) (ds : list (bdatum g)) (v : bnaming) : bnaming := fun n =>
      match n with
      | [c] => match column_value cs ds c with Some d => d | None => v n end
      | _ => v n
      end.
    Definition as_row (cs : list string) (ds : list (bdatum g)) : brow := fun c =>
      match column_value cs ds c with Some d => d | None => bnull g end.

    (* WITH x AS (q), ...: tables of these names, the earlier ones in scope of the later. *)
    Fixpoint with_tables (l : list (string * Q)) (db : tabledb) (outer : bnaming) : tabledb :=
      match l with
      | [] => db
      | (x, q) :: rest =>
        with_tables rest
          (fun t => if name_eqb [x] t then (columns q, map (as_row (columns q)) (sub q db outer)) else db t) outer
      end.

    (* Without GROUP BY, an aggregate makes one group of all the rows, or of none. *)
    Definition no_row (db : tabledb) (outer : bnaming) (ts : list tableref) : bnaming :=
      names_in outer (map (fun t => with_row db t no_values) ts).
    Definition grouped (ns : list name) (l : list (item_ Q)) (blank : bnaming) (rows : list bnaming)
      : list (bnaming * list bnaming) :=
      match ns with
      | [] => if aggregated l then [(hd blank rows, rows)] else map (fun v => (v, [v])) rows
      | _ => groups (fun v => map v ns) rows
      end.
    Definition bsorted (o : list (string * string)) (l : list (bnaming * list (bdatum g))) : list (bnaming * list (bdatum g)) :=
      match o with
      | [] => l
      | _ => flat_map (fun i => match nth_error l i with Some x => [x] | None => [] end)
               (bsort g (map snd o) (map (fun x => map (fun c => fst x [fst c]) o) l))
      end.
    Definition bskip {A} (k : option N) (l : list A) : list A :=
      match k with None => l | Some k => skipn (N.to_nat k) l end.
    Definition btake {A} (n : option N) (l : list A) : list A :=
      match n with None => l | Some n => firstn (N.to_nat n) l end.

    Definition body_rows (b : body_ Q) (db0 : tabledb) (outer : bnaming) : list (list (bdatum g)) :=
      let db := with_tables (q_with b) db0 outer in
      let rows := filter (bchosen db (q_where b)) (map (names_in outer) (bfrom db outer (q_joins b) (q_from b))) in
      let kept := filter (fun gr => bchosen db (q_having b) (fst gr)) (grouped (q_group_by b) (q_items b)
                      (no_row db outer (q_from b ++ map (fun j => snd (fst j)) (q_joins b))) rows) in
      let shown := map (fun gr => let ds := bitems db (q_items b) gr in
                                  (over_items (map item_column (q_items b)) ds (fst gr), ds)) kept in
      let sorted := bsorted (q_order_by b) shown in
      let distinct_on := match q_distinct_on b with [] => sorted | ns => firsts (fun x => map (fst x) ns) sorted end in
      let all := map snd distinct_on in
      let distinct := if q_distinct b then firsts (fun x => x) all else all in
      btake (q_limit b) (bskip (q_offset b) distinct).
  End Nodes.

  Definition query_columns (q : squery) : list string := match q with Query b => map item_column (q_items b) end.

  Fixpoint means (q : squery) (db : tabledb) (outer : bnaming) {struct q} : list (list (bdatum g)) :=
    match q with
    | Query b =>
      match q_prefix b, q_suffix b with
      | [], [] => body_rows means query_columns b db outer
      | _, _ => bother g q outer
      end
    end.

  (* The answer to a text with its arguments. *)
  Definition nothing : bnaming := fun _ => bnull g.
  Definition answer (db : tabledb) (text : string) (args : list gval) : option (list (list (bdatum g))) :=
    match read_query (numbered args) text with Some q => Some (means q db nothing) | None => None end.
End Meaning.
Arguments names_in {g}. Arguments means {g}. Arguments btruth {g Q}. Arguments bamong {g}. Arguments firsts {g A}.
Arguments same_values {g}. Arguments answer {g}. Arguments nothing {g}. Arguments as_row {g}. Arguments with_row {g}.
Arguments bvalue {g}. Arguments any_row {g}. Arguments groups {g}. Arguments column_value {g}.

(* ------------------------------------------------------------------------- *)
(* Programs                                                                    *)
(* ------------------------------------------------------------------------- *)

(* Query() gives a text and arguments, and the database answers to them. *)
Definition responds {O : Oracle} {g} (db : tabledb g) (s : select) (out : list (list (bdatum g))) : Prop :=
  exists text values, query (StSelect s) = Ok (text, values) /\ answer db text values = Some out.

(* Select(args...).With(ws...).From(froms...).Join(...)...Where(...)...GroupBy(gs...).Having(h)
   .OrderBy(os...).Limit(n).Offset(k) with Distinct() or without,
   with DistinctOn(ds...) or without; calls without arguments left out *)
Record program := {
  pr_args : list gval;
  pr_distinct : bool;
  pr_distinct_on : list gval;
  pr_with : list withq;
  pr_from : list gval;
  pr_joins : list join_arg;
  pr_conditions : conditions;
  pr_group_by : list gval;
  pr_having : option expr;
  pr_order_by : list order;
  pr_window : window }.
Definition program_calls (p : program) : list sel_call :=
  ((if pr_distinct p then [SelDistinct] else []) ++ unless_none SelDistinctOn (pr_distinct_on p)
   ++ unless_none SelWith (pr_with p) ++ SelFrom (pr_from p)
   :: map join_call (pr_joins p) ++ sel_conditions (pr_conditions p) ++ unless_none SelGroupBy (pr_group_by p)
   ++ (match pr_having p with None => [] | Some e => [SelHaving e] end)
   ++ unless_none SelOrderBy (pr_order_by p) ++ window_calls (pr_window p))%list.
Definition program_select (p : program) : res select :=
  do s <- lk_select (pr_args p); sel_run s (program_calls p).

(* What the program says. *)
Definition window_first (p : window) : option N :=
  match p with Everything => None | First n | Page n _ => Some (Z.to_N n) end.
Definition window_skip (p : window) : option N :=
  match p with Page _ k => if (k =? 0)%Z then None else Some (Z.to_N k) | _ => None end.
Definition all_conditions (fs : formulas) : option formula :=
  match fs with
  | None => None
  | Some (f, l) => Some (fold_left (fun a x => match fst x with ByOr => FOr a (snd x) | _ => FAnd a (snd x) end) l f)
  end.

Section Says.
  Context {O : Oracle}.
  #[local] Existing Instance Bound.
  Record program_says (p : program) (b : body) : Prop := {
    ps_args : pr_args p <> [] /\ args_say (pr_args p) (q_items b) /\ q_items b <> [];
    ps_distinct : q_distinct b = pr_distinct p;
    ps_distinct_on : match pr_distinct_on p with [] => q_distinct_on b = [] | ds => columns_args ds (q_distinct_on b) end;
    ps_with : withs_say (pr_with p) (q_with b);
    ps_from : Forall2 table_says (pr_from p) (q_from b);
    ps_joins : Forall2 join_arg_says (pr_joins p) (q_joins b);
    ps_where : exists fs, conditions_say (pr_conditions p) fs /\ q_where b = all_conditions fs;
    ps_group_by : match pr_group_by p with [] => q_group_by b = [] | gs => columns_args gs (q_group_by b) end;
    ps_having : match pr_having p, q_having b with
                | None, None => True | Some e, Some f => says e f | _, _ => False end;
    ps_order_by : Forall2 order_says (pr_order_by p) (q_order_by b);
    ps_limit : window_ok (pr_window p) /\ q_limit b = window_first (pr_window p) /\ q_offset b = window_skip (pr_window p);
    ps_rest : q_prefix b = [] /\ q_suffix b = [] }.
End Says.
