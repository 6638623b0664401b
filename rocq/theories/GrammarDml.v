(* Specification: reading INSERT, UPDATE and DELETE with their arguments, and what the calls
   of the API say in these statements. Continues Grammar.v and GrammarApi.v. *)
From Verif Require Export GrammarApi Sort.
From Verif Require Rows.

(* ------------------------------------------------------------------------- *)
(* Statements                                                                  *)
(* ------------------------------------------------------------------------- *)

(* What stands right of SET (a, b) = *)
Inductive sources := SValues (l : list term) | SQuery (q : squery).

Inductive setting :=
| SetEach (l : list (name * term))            (* a = x, b = y *)
| SetList (cols : list name) (s : sources).   (* (a, b) = (x, y) *)

(* DO NOTHING, DO UPDATE SET ... *)
Inductive onconflict := DoNothing | DoUpdate (l : list (name * term)).

Record ibody := {
  in_table : tableref; in_columns : list name; in_rows : list (list term);
  in_conflict : option (list name * onconflict); in_returning : list item }.
Record ubody := {
  up_with : list (string * squery); up_table : tableref; up_set : setting;
  up_from : list tableref; up_where : option formula; up_returning : list item }.
Record dbody := {
  de_from : list tableref; de_using : list tableref; de_where : option formula;
  de_returning : list item }.

(* ------------------------------------------------------------------------- *)
(* Parser                                                                      *)
(* ------------------------------------------------------------------------- *)

Definition p_op (o : string) : parser unit :=
  fun ts => match ts with KOp x :: r => if String.eqb o x then Some (tt, r) else None | _ => None end.

Definition p_keyword {A} (kw : list string) (p : parser A) : parser A :=
  fun ts => match strip kw ts with Some r => p r | None => None end.

(* A list of names in parentheses, if there is a parenthesis. *)
Definition p_names : parser (list name) :=
  fun ts => match ts with KOpen :: _ => p_parens (p_commas p_name) ts | _ => Some ([], ts) end.

Section DmlParts.
  Context (pq : parser squery).

  (* a = x *)
  Definition p_assign : parser (name * term) :=
    fun ts => read n r from p_name ts; read u r1 from p_op "=" r; read a r2 from p_term pq r1;
              Some ((n, a), r2).

  (* ( x, y ) or ( SELECT ... ) *)
  Definition p_sources : parser sources :=
    fun ts =>
      match ts with
      | KOpen :: r =>
        match p_commas (p_scalar pq) r with
        | Some (vs, KClose :: r1) => Some (SValues vs, r1)
        | _ => read q r1 from p_parens pq ts; Some (SQuery q, r1)
        end
      | _ => None
      end.

  Definition p_setting : parser setting :=
    fun ts =>
      match ts with
      | KOpen :: _ =>
        read cols r from p_parens (p_commas p_name) ts; read u r1 from p_op "=" r;
        read s r2 from p_sources r1; Some (SetList cols s, r2)
      | _ => read l r from p_commas p_assign ts; Some (SetEach l, r)
      end.

  Definition p_row : parser (list term) := p_parens (p_commas (p_term pq)).

  (* After ON CONFLICT *)
  Definition p_conflict : parser (list name * onconflict) :=
    fun ts =>
      read cols r from p_names ts;
      match strip ["DO"; "NOTHING"] r with
      | Some r1 => Some ((cols, DoNothing), r1)
      | None => read l r1 from p_keyword ["DO"; "UPDATE"; "SET"] (p_commas p_assign) r;
                Some ((cols, DoUpdate l), r1)
      end.

  Definition p_returning : parser (list item) := clause ["RETURNING"] [] (p_commas (p_item pq)).

  Definition p_insert : parser ibody :=
    p_keyword ["INSERT"; "INTO"] (fun ts =>
      read t ts from p_table ts;
      read cols ts from p_names ts;
      read rows ts from clause ["VALUES"] [] (p_commas p_row) ts;
      read con ts from optional ["ON"; "CONFLICT"] p_conflict ts;
      read ret ts from p_returning ts;
      Some ({| in_table := t; in_columns := cols; in_rows := rows; in_conflict := con;
               in_returning := ret |}, ts)).

  Definition p_update : parser ubody :=
    fun ts =>
      read wi ts from clause ["WITH"] [] (p_commas (p_with pq)) ts;
      p_keyword ["UPDATE"] (fun ts =>
        read t ts from p_table ts;
        read s ts from p_keyword ["SET"] p_setting ts;
        read fr ts from clause ["FROM"] [] (p_commas p_table) ts;
        read wh ts from optional ["WHERE"] (Grammar.p_cond pq) ts;
        read ret ts from p_returning ts;
        Some ({| up_with := wi; up_table := t; up_set := s; up_from := fr; up_where := wh;
                 up_returning := ret |}, ts)) ts.

  Definition p_delete : parser dbody :=
    p_keyword ["DELETE"; "FROM"] (fun ts =>
      read fr ts from p_commas p_table ts;
      read us ts from clause ["USING"] [] (p_commas p_table) ts;
      read wh ts from optional ["WHERE"] (Grammar.p_cond pq) ts;
      read ret ts from p_returning ts;
      Some ({| de_from := fr; de_using := us; de_where := wh; de_returning := ret |}, ts)).
End DmlParts.

(* A statement with its arguments. *)
Definition read_insert (E : env) (text : string) : option ibody :=
  whole (fun ts => p_insert (p_query (length ts)) ts) E text.
Definition read_update (E : env) (text : string) : option ubody :=
  whole (fun ts => p_update (p_query (length ts)) ts) E text.
Definition read_delete (E : env) (text : string) : option dbody :=
  whole (fun ts => p_delete (p_query (length ts)) ts) E text.

(* ------------------------------------------------------------------------- *)
(* What the calls say                                                          *)
(* ------------------------------------------------------------------------- *)

(* Assignments are kept in the order of the column names; a column keeps its last value. *)
Definition dotted_name (n : name) : string := join_with "." n.
Fixpoint assign (n : name) (a : term) (m : list (name * term)) : list (name * term) :=
  match m with
  | [] => [(n, a)]
  | (n', a') :: m' =>
    if String.eqb (dotted_name n) (dotted_name n') then (n, a) :: m'
    else if str_ltb (dotted_name n) (dotted_name n') then (n, a) :: m
    else (n', a') :: assign n a m'
  end.
Definition assign_all (m : list (name * term)) (l : list (name * term)) : list (name * term) :=
  fold_left (fun m na => assign (fst na) (snd na) m) l m.

(* A comment without line breaks. *)
Definition one_line (c : string) : bool := forallb (fun a => negb (newline a)) (list_ascii_of_string c).

Section DmlSays.
  Context {O : Oracle} {m : view}.

  (* The key of an assignment, a target of ON CONFLICT: "a", Column("a"). *)
  Inductive key_says : gval -> name -> Prop :=
  | key_string x : plain_name (trim_space x) = true -> key_says (GStr x) (parts_of (trim_space x))
  | key_column x : plain_name x = true -> key_says (GColumn (lk_column x)) (parts_of x).

  (* The assigned value: a value, a call, a column or a subquery. *)
  Inductive source_says : gval -> term -> Prop :=
  | source_value v a : value_says v a -> source_says v a
  | source_column x : plain_name x = true -> source_says (GExpr (lk_condition (GStr x))) (MName (parts_of x))
  | source_sub g s b : sub_arg s g -> sel_says s b -> finished s b -> source_says g (MSub (Query b)).

  Definition entry_says (kv : gval * gval) (na : name * term) : Prop :=
    key_says (fst kv) (fst na) /\ source_says (snd kv) (snd na).

  (* The arguments of Set and DoUpdate: Pair(k, v), Map{...}, map[string]interface{}{...}; the
     entries of a map in the order in which Go visits them. *)
  Inductive pairs_say : list gval -> list (name * term) -> Prop :=
  | pairs_none : pairs_say [] []
  | pairs_pair k v na rest l : entry_says (k, v) na -> pairs_say rest l -> pairs_say (GPair k v :: rest) (na :: l)
  | pairs_map kvs nas rest l : Forall2 entry_says kvs nas -> pairs_say rest l ->
      pairs_say (GMap kvs :: rest) (nas ++ l)%list
  | pairs_any kvs nas rest l : Forall2 entry_says (map (fun kv => (GStr (fst kv), snd kv)) kvs) nas ->
      pairs_say rest l -> pairs_say (GMapAny kvs :: rest) (nas ++ l)%list.

  (* A Delete builder. *)
  Inductive del_says : delete -> dbody -> Prop :=
  | del_new g t d : table_says g t -> lk_delete g = Ok d ->
      del_says d {| de_from := [t]; de_using := []; de_where := None; de_returning := [] |}
  | del_using d b args ts d' : del_says d b -> Forall2 table_says args ts ->
      del_step d (DelUsing args) = Ok d' ->
      del_says d' {| de_from := de_from b; de_using := ts; de_where := de_where b; de_returning := de_returning b |}
  | del_where d b e f d' : del_says d b -> says e f -> del_step d (DelWhere e) = Ok d' ->
      del_says d' {| de_from := de_from b; de_using := de_using b; de_where := opt_and f (de_where b);
                     de_returning := de_returning b |}
  | del_and d b e f g d' : del_says d b -> says e f -> de_where b = Some g -> del_step d (DelAnd e) = Ok d' ->
      del_says d' {| de_from := de_from b; de_using := de_using b; de_where := Some (FAnd g f);
                     de_returning := de_returning b |}
  | del_or d b e f g d' : del_says d b -> says e f -> de_where b = Some g -> del_step d (DelOr e) = Ok d' ->
      del_says d' {| de_from := de_from b; de_using := de_using b; de_where := Some (FOr g f);
                     de_returning := de_returning b |}
  | del_returning d b args l d' : del_says d b -> args_say args l -> del_step d (DelReturning args) = Ok d' ->
      del_says d' {| de_from := de_from b; de_using := de_using b; de_where := de_where b; de_returning := l |}
  | del_comment d b c d' : del_says d b -> one_line c = true -> del_step d (DelComment c) = Ok d' ->
      del_says d' b.

  (* An Update builder. *)
  Definition put_set (s : setting) (b : ubody) : ubody :=
    {| up_with := up_with b; up_table := up_table b; up_set := s; up_from := up_from b;
       up_where := up_where b; up_returning := up_returning b |}.
  Definition put_where (f : formula) (b : ubody) : ubody :=
    {| up_with := up_with b; up_table := up_table b; up_set := up_set b; up_from := up_from b;
       up_where := Some f; up_returning := up_returning b |}.

  Inductive upd_says : update -> ubody -> Prop :=
  | upd_new g t u : table_says g t -> lk_update g = Ok u ->
      upd_says u {| up_with := []; up_table := t; up_set := SetEach []; up_from := []; up_where := None;
                    up_returning := [] |}
  (* Only, on a table that is not yet an ONLY table *)
  | upd_only u b u' : upd_says u b -> tb_only (up_table b) = false -> upd_step u UpdOnly = Ok u' ->
      upd_says u' {| up_with := up_with b;
                     up_table := {| tb_only := true; tb_name := tb_name (up_table b); tb_alias := tb_alias (up_table b) |};
                     up_set := up_set b; up_from := up_from b; up_where := up_where b;
                     up_returning := up_returning b |}
  (* Set with pairs and maps: later assignments win *)
  | upd_set u b args m l u' : upd_says u b -> up_set b = SetEach m -> pairs_say args l ->
      upd_step u (UpdSet args) = Ok u' -> upd_says u' (put_set (SetEach (assign_all m l)) b)
  (* Set with columns, then Using *)
  | upd_columns u b args ns u' : upd_says u b -> up_set b = SetEach [] -> columns_say args ns ->
      upd_step u (UpdSet args) = Ok u' -> upd_says u' (put_set (SetList ns (SValues [])) b)
  | upd_more_columns u b args cols s ns u' : upd_says u b -> up_set b = SetList cols s -> columns_say args ns ->
      upd_step u (UpdSet args) = Ok u' -> upd_says u' (put_set (SetList (cols ++ ns)%list s) b)
  | upd_using u b args cols vs l u' : upd_says u b -> up_set b = SetList cols (SValues vs) ->
      Forall2 value_says args l ->
      upd_step u (UpdUsing args) = Ok u' -> upd_says u' (put_set (SetList cols (SValues (vs ++ l)%list)) b)
  | upd_using_sub u b g s q cols u' : upd_says u b -> up_set b = SetList cols (SValues []) ->
      sub_arg s g -> sel_says s q -> finished s q ->
      upd_step u (UpdUsing [g]) = Ok u' -> upd_says u' (put_set (SetList cols (SQuery (Query q))) b)
  | upd_with u b ws l u' : upd_says u b -> withs_say ws l -> upd_step u (UpdWith ws) = Ok u' ->
      upd_says u' {| up_with := (up_with b ++ l)%list; up_table := up_table b; up_set := up_set b;
                     up_from := up_from b; up_where := up_where b; up_returning := up_returning b |}
  | upd_where u b e f u' : upd_says u b -> says e f -> upd_step u (UpdWhere e) = Ok u' ->
      upd_says u' (put_where (match up_where b with None => f | Some g => FAnd g f end) b)
  | upd_and u b e f g u' : upd_says u b -> says e f -> up_where b = Some g -> upd_step u (UpdAnd e) = Ok u' ->
      upd_says u' (put_where (FAnd g f) b)
  | upd_or u b e f g u' : upd_says u b -> says e f -> up_where b = Some g -> upd_step u (UpdOr e) = Ok u' ->
      upd_says u' (put_where (FOr g f) b)
  | upd_from u b g t u' : upd_says u b -> table_says g t -> upd_step u (UpdFrom g) = Ok u' ->
      upd_says u' {| up_with := up_with b; up_table := up_table b; up_set := up_set b; up_from := [t];
                     up_where := up_where b; up_returning := up_returning b |}
  | upd_returning u b args l u' : upd_says u b -> args_say args l -> upd_step u (UpdReturning args) = Ok u' ->
      upd_says u' {| up_with := up_with b; up_table := up_table b; up_set := up_set b; up_from := up_from b;
                     up_where := up_where b; up_returning := l |}
  | upd_comment u b c u' : upd_says u b -> one_line c = true -> upd_step u (UpdComment c) = Ok u' ->
      upd_says u' b.

  (* Something is assigned. *)
  Definition assigns_something (s : setting) : Prop :=
    match s with SetEach [] | SetList _ (SValues []) => False | _ => True end.

  (* A row of Values: values and calls; a single value is neither nil nor a slice (C27). *)
  Definition row_says (vs : list gval) (l : list term) : Prop :=
    vs <> [] /\ Rows.single_exception vs = false /\ Forall2 value_says vs l.

  (* An Insert builder. *)
  Definition put_rows (cols : list name) (rows : list (list term)) (b : ibody) : ibody :=
    {| in_table := in_table b; in_columns := cols; in_rows := rows; in_conflict := in_conflict b;
       in_returning := in_returning b |}.
  Definition put_conflict (c : list name * onconflict) (b : ibody) : ibody :=
    {| in_table := in_table b; in_columns := in_columns b; in_rows := in_rows b; in_conflict := Some c;
       in_returning := in_returning b |}.

  Inductive ins_says : insert -> ibody -> Prop :=
  | ins_new g t i : table_says g t -> lk_insert g = Ok i ->
      ins_says i {| in_table := t; in_columns := []; in_rows := []; in_conflict := None; in_returning := [] |}
  | ins_columns i b args ns i' : ins_says i b -> args <> [] -> columns_args args ns ->
      ins_step i (InsColumns args) = Ok i' -> ins_says i' (put_rows ns (in_rows b) b)
  (* Values(v1, v2, ...) *)
  | ins_values i b vs l i' : ins_says i b -> row_says vs l -> ins_step i (InsValues vs) = Ok i' ->
      ins_says i' (put_rows (in_columns b) [l] b)
  (* Values([][]T{...}) *)
  | ins_batch i b g rows ls i' : ins_says i b -> Rows.batch g rows -> rows <> [] -> Forall2 row_says rows ls ->
      ins_step i (InsValues [g]) = Ok i' -> ins_says i' (put_rows (in_columns b) ls b)
  | ins_set i b args l i' : ins_says i b -> pairs_say args l -> l <> [] -> ins_step i (InsSet args) = Ok i' ->
      ins_says i' (put_rows (map fst (assign_all [] l)) [map snd (assign_all [] l)] b)
  | ins_do_nothing i b targets ns i' : ins_says i b -> Forall2 key_says targets ns ->
      ins_step i (InsOnConflict (targets ++ [lk_do_nothing])%list) = Ok i' ->
      ins_says i' (put_conflict (ns, DoNothing) b)
  | ins_do_update i b targets ns args l g i' : ins_says i b -> Forall2 key_says targets ns ->
      pairs_say args l -> l <> [] -> lk_do_update args = Ok g ->
      ins_step i (InsOnConflict (targets ++ [g])%list) = Ok i' ->
      ins_says i' (put_conflict (ns, DoUpdate (assign_all [] l)) b)
  | ins_returning i b args l i' : ins_says i b -> args_say args l -> ins_step i (InsReturning args) = Ok i' ->
      ins_says i' {| in_table := in_table b; in_columns := in_columns b; in_rows := in_rows b;
                     in_conflict := in_conflict b; in_returning := l |}
  | ins_comment i b c i' : ins_says i b -> one_line c = true -> ins_step i (InsComment c) = Ok i' ->
      ins_says i' b.
End DmlSays.
