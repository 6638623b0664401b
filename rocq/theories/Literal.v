(* Specification: when a statement with literals is the same statement as one with arguments.

   String() shows literals where Query() and NamedQuery() have arguments. "with_literals e b b'":
   b' is b with every argument replaced by what its literal says (GrammarApi.literal_says), in
   subqueries too, and is otherwise the same. *)
From Verif Require Export Effect.

Section Relations.
  Context (e : bool) (R : squery -> squery -> Prop).

  Inductive term_rel : term -> term -> Prop :=
  | rel_null : term_rel MNull MNull
  | rel_literal v a : literal_says e v = Some a -> term_rel (MVal v) a
  | rel_name n : term_rel (MName n) (MName n)
  | rel_sub q q' : R q q' -> term_rel (MSub q) (MSub q')
  | rel_call f ts : term_rel (MCall f ts) (MCall f ts).

  Inductive formula_rel : formula -> formula -> Prop :=
  | rel_cmp a o b a' b' : term_rel a a' -> term_rel b b' -> formula_rel (FCmp a o b) (FCmp a' o b')
  | rel_in n a l a' l' : term_rel a a' -> Forall2 term_rel l l' -> formula_rel (FIn n a l) (FIn n a' l')
  | rel_in_sub n a q a' q' : term_rel a a' -> R q q' -> formula_rel (FInSub n a q) (FInSub n a' q')
  | rel_between n a x y a' x' y' : term_rel a a' -> term_rel x x' -> term_rel y y' ->
      formula_rel (FBetween n a x y) (FBetween n a' x' y')
  | rel_exists n q q' : R q q' -> formula_rel (FExists n q) (FExists n q')
  | rel_and f h f' h' : formula_rel f f' -> formula_rel h h' -> formula_rel (FAnd f h) (FAnd f' h')
  | rel_or f h f' h' : formula_rel f f' -> formula_rel h h' -> formula_rel (FOr f h) (FOr f' h').

  Inductive item_rel : item -> item -> Prop :=
  | rel_item_name n a : item_rel (ItName n a) (ItName n a)
  | rel_item_agg f d x a : item_rel (ItAgg f d x a) (ItAgg f d x a)
  | rel_item_exists n q q' : R q q' -> item_rel (ItExists n q) (ItExists n q').

  Inductive condition_rel : option formula -> option formula -> Prop :=
  | rel_no_condition : condition_rel None None
  | rel_condition f f' : formula_rel f f' -> condition_rel (Some f) (Some f').

  Inductive join_rel : list string * tableref * formula -> list string * tableref * formula -> Prop :=
  | rel_join kw t f f' : formula_rel f f' -> join_rel (kw, t, f) (kw, t, f').

  Inductive with_rel : string * squery -> string * squery -> Prop :=
  | rel_with x q q' : R q q' -> with_rel (x, q) (x, q').

  Inductive body_rel : body -> body -> Prop :=
  | rel_body pre w w' don d i i' fr j j' wh wh' gb h h' ob n k suf :
      Forall2 with_rel w w' -> Forall2 item_rel i i' -> Forall2 join_rel j j' ->
      condition_rel wh wh' -> condition_rel h h' ->
      body_rel
        {| q_prefix := pre; q_with := w; q_distinct_on := don; q_distinct := d; q_items := i; q_from := fr;
           q_joins := j; q_where := wh; q_group_by := gb; q_having := h; q_order_by := ob; q_limit := n;
           q_offset := k; q_suffix := suf |}
        {| q_prefix := pre; q_with := w'; q_distinct_on := don; q_distinct := d; q_items := i'; q_from := fr;
           q_joins := j'; q_where := wh'; q_group_by := gb; q_having := h'; q_order_by := ob; q_limit := n;
           q_offset := k; q_suffix := suf |}.

  Inductive assign_rel : name * term -> name * term -> Prop :=
  | rel_assign n a a' : term_rel a a' -> assign_rel (n, a) (n, a').

  Inductive setting_rel : setting -> setting -> Prop :=
  | rel_each l l' : Forall2 assign_rel l l' -> setting_rel (SetEach l) (SetEach l')
  | rel_values cols l l' : Forall2 term_rel l l' -> setting_rel (SetList cols (SValues l)) (SetList cols (SValues l'))
  | rel_query cols q q' : R q q' -> setting_rel (SetList cols (SQuery q)) (SetList cols (SQuery q')).

  Inductive conflict_rel : option (list name * onconflict) -> option (list name * onconflict) -> Prop :=
  | rel_no_conflict : conflict_rel None None
  | rel_do_nothing cols : conflict_rel (Some (cols, DoNothing)) (Some (cols, DoNothing))
  | rel_do_update cols l l' : Forall2 assign_rel l l' ->
      conflict_rel (Some (cols, DoUpdate l)) (Some (cols, DoUpdate l')).

  Inductive ibody_rel : ibody -> ibody -> Prop :=
  | rel_ibody t cols rows rows' c c' ret ret' :
      Forall2 (Forall2 term_rel) rows rows' -> conflict_rel c c' -> Forall2 item_rel ret ret' ->
      ibody_rel {| in_table := t; in_columns := cols; in_rows := rows; in_conflict := c; in_returning := ret |}
                {| in_table := t; in_columns := cols; in_rows := rows'; in_conflict := c'; in_returning := ret' |}.
  Inductive ubody_rel : ubody -> ubody -> Prop :=
  | rel_ubody w w' t s s' fr wh wh' ret ret' :
      Forall2 with_rel w w' -> setting_rel s s' -> condition_rel wh wh' -> Forall2 item_rel ret ret' ->
      ubody_rel {| up_with := w; up_table := t; up_set := s; up_from := fr; up_where := wh; up_returning := ret |}
                {| up_with := w'; up_table := t; up_set := s'; up_from := fr; up_where := wh'; up_returning := ret' |}.
  Inductive dbody_rel : dbody -> dbody -> Prop :=
  | rel_dbody fr us wh wh' ret ret' : condition_rel wh wh' -> Forall2 item_rel ret ret' ->
      dbody_rel {| de_from := fr; de_using := us; de_where := wh; de_returning := ret |}
                {| de_from := fr; de_using := us; de_where := wh'; de_returning := ret' |}.
End Relations.

Inductive query_rel (e : bool) : squery -> squery -> Prop :=
| rel_subquery b b' : body_rel e (query_rel e) b b' -> query_rel e (Query b) (Query b').

Definition with_literals (e : bool) : body -> body -> Prop := body_rel e (query_rel e).
Definition insert_with_literals (e : bool) : ibody -> ibody -> Prop := ibody_rel e (query_rel e).
Definition update_with_literals (e : bool) : ubody -> ubody -> Prop := ubody_rel e (query_rel e).
Definition delete_with_literals (e : bool) : dbody -> dbody -> Prop := dbody_rel e (query_rel e).

(* ------------------------------------------------------------------------- *)
(* The three forms, carried out                                                *)
(* ------------------------------------------------------------------------- *)

Section Forms.
  Context {g : engine}.

  (* A text with what comes beside it: Effect.run_select is this with (numbered args). *)
  Definition carry_out_select (db : database g) (E : env) (text : string) : option (list (list (datum g))) :=
    match read_query E text with Some (Query b) => exec_select db b | None => None end.
  Definition carry_out_delete (db : database g) (E : env) (text : string) :=
    match read_delete E text with Some b => exec_delete db b | None => None end.
  Definition carry_out_update (db : database g) (E : env) (text : string) :=
    match read_update E text with Some b => exec_update db b | None => None end.
  Definition carry_out_insert (db : database g) (E : env) (text : string) :=
    match read_insert E text with Some b => exec_insert db b | None => None end.

  (* The database takes the literal of a value for that value, and a subquery with literals for
     the subquery with arguments. *)
  Definition takes_literals (e : bool) : Prop :=
    (forall v u, literal_says e v = Some (MVal u) -> enter g u = enter g v)
    /\ (forall v, literal_says e v = Some MNull -> enter g v = null g)
    /\ (forall db q q' r, query_rel e q q' -> subquery g db q r = subquery g db q' r).
End Forms.
Arguments takes_literals : clear implicits.
