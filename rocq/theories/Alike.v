(* Pairs of programs that make the same calls and differ only in the values that they pass as
   values. [R v v'] says which bound value may stand for which. *)
From Coq Require Import String List ZArith.
From Verif Require Import Ast Write Api Parser Build.
Import ListNotations.

(* What the library binds when it is given the argument [g] as one value. None: [g] is nil, or no
   single value. *)
Definition bound (g : gval) : option gval :=
  match g with
  | GStr _ | GBool _ | GInt _ _ | GFloat _ _ | GBytes _ | GTime _ | GValuer _ | GNilValuer | GValuerErr
  | GBindable _ _ | GMapStr _ | GMapAny _ => Some g
  | GTimePtr (Some t) => Some (GTime t)
  | GInt64Enc z => Some (GInt KInt64 z)
  | GBoolEnc b => Some (GBool b)
  | GTimeEnc t => Some (GTime t)
  | GStringEnc s => Some (GStr s)
  | _ => None
  end.

(* Slices bound as one array when they are compared with: []string and []int64. *)
Definition one_array (g : gval) : bool :=
  match g with GStrs _ | GInts KInt64 _ => true | _ => false end.

(* The elements of a slice given to In, NotIn or Values. *)
Definition elements (g : gval) : option (list gval) :=
  match g with
  | GStrs l => Some (map GStr l)
  | GInts KUint8 _ => None   (* []uint8 is []byte *)
  | GInts k l => Some (map (GInt k) l)
  | GBools l => Some (map GBool l)
  | GFloats k l => Some (map (GFloat k) l)
  | GBytess l => Some (map GBytes l)
  | GAnys l => Some l
  | _ => None
  end.

(* The rows of a slice of slices given to Values. *)
Definition rows_given (g : gval) : option (list (list gval)) :=
  match g with
  | GAnyss rows => Some rows
  | GStrss rows => Some (map (map GStr) rows)
  | GIntss KInt rows => Some (map (map (GInt KInt)) rows)
  | GIntss KInt64 rows => Some (map (map (GInt KInt64)) rows)
  | GBoolss rows => Some (map (map GBool) rows)
  | _ => None
  end.

Section Alike.
  Context (R : gval -> gval -> Prop).

  (* Conditions and other expressions. *)
  Inductive expr_alike : expr -> expr -> Prop :=
  | ex_same : forall e, expr_alike e e
  | ex_value : forall v v', v <> GNil -> v' <> GNil -> R v v' -> expr_alike (lk_value v) (lk_value v')
  | ex_compare : forall l l' op g g' e e', expr_alike l l' -> arg_alike g g' ->
      cmp_expr l op g = Ok e -> cmp_expr l' op g' = Ok e' -> expr_alike e e'
  | ex_in : forall l l' gs gs' e e', expr_alike l l' -> list_alike gs gs' ->
      expr_in l gs = Ok e -> expr_in l' gs' = Ok e' -> expr_alike e e'
  | ex_not_in : forall l l' gs gs' e e', expr_alike l l' -> list_alike gs gs' ->
      expr_not_in l gs = Ok e -> expr_not_in l' gs' = Ok e' -> expr_alike e e'
  | ex_between : forall id a a' b b' e e', arg_alike a a' -> arg_alike b b' ->
      ident_between id a b = Ok e -> ident_between id a' b' = Ok e' -> expr_alike e e'
  | ex_not_between : forall id a a' b b' e e', arg_alike a a' -> arg_alike b b' ->
      ident_not_between id a b = Ok e -> ident_not_between id a' b' = Ok e' -> expr_alike e e'
  | ex_and : forall l l' r r', expr_alike l l' -> expr_alike r r' -> expr_alike (lk_and l r) (lk_and l' r')
  | ex_or : forall l l' r r', expr_alike l l' -> expr_alike r r' -> expr_alike (lk_or l r) (lk_or l' r')
  | ex_m_and : forall l l' r r', expr_alike l l' -> expr_alike r r' -> expr_alike (infix_and l r) (infix_and l' r')
  | ex_m_or : forall l l' r r', expr_alike l l' -> expr_alike r r' -> expr_alike (infix_or l r) (infix_or l' r')
  | ex_exists : forall g g' e e', arg_alike g g' ->
      lk_exists g = Ok e -> lk_exists g' = Ok e' -> expr_alike e e'
  | ex_not_exists : forall g g' e e', arg_alike g g' ->
      lk_not_exists g = Ok e -> lk_not_exists g' = Ok e' -> expr_alike e e'
  | ex_call : forall f l l', exprs_alike l l' -> expr_alike (new_call f l) (new_call f l')
  | ex_query : forall q q', select_alike q q' -> expr_alike (ESelect q) (ESelect q')
  with exprs_alike : list expr -> list expr -> Prop :=
  | exs_nil : exprs_alike [] []
  | exs_cons : forall e e' l l', expr_alike e e' -> exprs_alike l l' -> exprs_alike (e :: l) (e' :: l')

  (* One argument that is not a slice. *)
  with one_alike : gval -> gval -> Prop :=
  | one_bound : forall g g' v v', bound g = Some v -> bound g' = Some v' -> R v v' -> one_alike g g'
  | one_expr : forall e e', expr_alike e e' -> one_alike (GExpr e) (GExpr e')
  | one_query : forall q q', select_alike q q' -> one_alike (g_select q) (g_select q')
  (* An argument of a comparison, BETWEEN, SET or one of several arguments of IN. *)
  with arg_alike : gval -> gval -> Prop :=
  | arg_same : forall g, arg_alike g g
  | arg_one : forall g g', one_alike g g' -> arg_alike g g'
  | arg_array : forall g g', one_array g = true -> one_array g' = true -> R g g' -> arg_alike g g'
  with args_alike : list gval -> list gval -> Prop :=
  | args_nil : args_alike [] []
  | args_cons : forall g g' l l', arg_alike g g' -> args_alike l l' -> args_alike (g :: l) (g' :: l')
  (* The arguments of In, NotIn and Values: several, one, or one slice with as many elements. *)
  with list_alike : list gval -> list gval -> Prop :=
  | list_same : forall l, list_alike l l
  | list_several : forall l l', length l <> 1 -> args_alike l l' -> list_alike l l'
  | list_one : forall g g', one_alike g g' -> list_alike [g] [g']
  | list_slice : forall g g' l l', elements g = Some l -> elements g' = Some l' -> args_alike l l' ->
      list_alike [g] [g']

  (* The arguments of Select, Columns and Returning. *)
  with items_alike : list gval -> list gval -> Prop :=
  | items_same : forall l, items_alike l l
  | items_name : forall g l l', items_alike l l' -> l <> [] -> items_alike (g :: l) (g :: l')
  | items_expr : forall e e' l l', expr_alike e e' -> items_alike l l' ->
      items_alike (GExpr e :: l) (GExpr e' :: l')

  with withs_alike : list withq -> list withq -> Prop :=
  | withs_nil : withs_alike [] []
  | withs_cons : forall name g g' x x' l l', arg_alike g g' ->
      lk_with name g = Ok x -> lk_with name g' = Ok x' -> withs_alike l l' -> withs_alike (x :: l) (x' :: l')

  (* Select builders. *)
  with select_alike : select -> select -> Prop :=
  | select_new : forall items items' q q', items_alike items items' ->
      lk_select items = Ok q -> lk_select items' = Ok q' -> select_alike q q'
  | select_call : forall q q' c c' r r', select_alike q q' -> sel_call_alike c c' ->
      sel_step q c = Ok r -> sel_step q' c' = Ok r' -> select_alike r r'
  with sel_call_alike : sel_call -> sel_call -> Prop :=
  | sel_same : forall c, sel_call_alike c c
  | sel_columns : forall l l', items_alike l l' -> sel_call_alike (SelColumns l) (SelColumns l')
  | sel_withs : forall l l', withs_alike l l' -> sel_call_alike (SelWith l) (SelWith l')
  | sel_where : forall e e', expr_alike e e' -> sel_call_alike (SelWhere e) (SelWhere e')
  | sel_and : forall e e', expr_alike e e' -> sel_call_alike (SelAnd e) (SelAnd e')
  | sel_or : forall e e', expr_alike e e' -> sel_call_alike (SelOr e) (SelOr e')
  | sel_having : forall e e', expr_alike e e' -> sel_call_alike (SelHaving e) (SelHaving e').

  (* The arguments of Set and DoUpdate: pairs and maps with the same keys. *)
  Inductive entries_alike {K} : list (K * gval) -> list (K * gval) -> Prop :=
  | entries_nil : entries_alike [] []
  | entries_cons : forall k v v' l l', arg_alike v v' -> entries_alike l l' ->
      entries_alike ((k, v) :: l) ((k, v') :: l').
  Inductive set_alike : gval -> gval -> Prop :=
  | set_same : forall g, set_alike g g
  | set_pair : forall k v v', arg_alike v v' -> set_alike (GPair k v) (GPair k v')
  | set_map : forall l l', entries_alike l l' -> set_alike (GMap l) (GMap l')
  | set_map_any : forall l l', entries_alike l l' -> set_alike (GMapAny l) (GMapAny l').
  Inductive sets_alike : list gval -> list gval -> Prop :=
  | sets_nil : sets_alike [] []
  | sets_cons : forall g g' l l', set_alike g g' -> sets_alike l l' -> sets_alike (g :: l) (g' :: l').

  (* The arguments of Values: one row, or a slice of as many rows. *)
  Inductive rows_alike : list (list gval) -> list (list gval) -> Prop :=
  | rows_nil : rows_alike [] []
  | rows_cons : forall r r' l l', list_alike r r' -> rows_alike l l' -> rows_alike (r :: l) (r' :: l').
  Inductive values_alike : list gval -> list gval -> Prop :=
  | values_row : forall l l', list_alike l l' -> values_alike l l'
  | values_rows : forall g g' rows rows', rows_given g = Some rows -> rows_given g' = Some rows' ->
      rows_alike rows rows' -> values_alike [g] [g'].

  (* The arguments of OnConflict: targets, and an action made with DoUpdate. *)
  Inductive conflict_alike : list gval -> list gval -> Prop :=
  | conflict_same : forall l, conflict_alike l l
  | conflict_target : forall g l l', conflict_alike l l' -> conflict_alike (g :: l) (g :: l')
  | conflict_update : forall s s' g g', sets_alike s s' ->
      lk_do_update s = Ok g -> lk_do_update s' = Ok g' -> conflict_alike [g] [g'].

  Section Insert.
    Context {O : Oracle}.
    Inductive ins_call_alike : ins_call -> ins_call -> Prop :=
    | ins_same : forall c, ins_call_alike c c
    | ins_values : forall l l', values_alike l l' -> ins_call_alike (InsValues l) (InsValues l')
    | ins_set : forall l l', sets_alike l l' -> ins_call_alike (InsSet l) (InsSet l')
    | ins_conflict : forall l l', conflict_alike l l' -> ins_call_alike (InsOnConflict l) (InsOnConflict l')
    | ins_returning : forall l l', items_alike l l' -> ins_call_alike (InsReturning l) (InsReturning l').
    Inductive insert_alike : insert -> insert -> Prop :=
    | insert_new : forall g i, lk_insert g = Ok i -> insert_alike i i
    | insert_call : forall i i' c c' r r', insert_alike i i' -> ins_call_alike c c' ->
        ins_step i c = Ok r -> ins_step i' c' = Ok r' -> insert_alike r r'.
  End Insert.

  Inductive upd_call_alike : upd_call -> upd_call -> Prop :=
  | upd_same : forall c, upd_call_alike c c
  | upd_set : forall l l', sets_alike l l' -> upd_call_alike (UpdSet l) (UpdSet l')
  | upd_using : forall l l', args_alike l l' -> upd_call_alike (UpdUsing l) (UpdUsing l')
  | upd_withs : forall l l', withs_alike l l' -> upd_call_alike (UpdWith l) (UpdWith l')
  | upd_where : forall e e', expr_alike e e' -> upd_call_alike (UpdWhere e) (UpdWhere e')
  | upd_and : forall e e', expr_alike e e' -> upd_call_alike (UpdAnd e) (UpdAnd e')
  | upd_or : forall e e', expr_alike e e' -> upd_call_alike (UpdOr e) (UpdOr e')
  | upd_returning : forall l l', items_alike l l' -> upd_call_alike (UpdReturning l) (UpdReturning l').
  Inductive update_alike : update -> update -> Prop :=
  | update_new : forall g u, lk_update g = Ok u -> update_alike u u
  | update_call : forall u u' c c' r r', update_alike u u' -> upd_call_alike c c' ->
      upd_step u c = Ok r -> upd_step u' c' = Ok r' -> update_alike r r'.

  Inductive del_call_alike : del_call -> del_call -> Prop :=
  | del_same : forall c, del_call_alike c c
  | del_where : forall e e', expr_alike e e' -> del_call_alike (DelWhere e) (DelWhere e')
  | del_and : forall e e', expr_alike e e' -> del_call_alike (DelAnd e) (DelAnd e')
  | del_or : forall e e', expr_alike e e' -> del_call_alike (DelOr e) (DelOr e')
  | del_returning : forall l l', items_alike l l' -> del_call_alike (DelReturning l) (DelReturning l').
  Inductive delete_alike : delete -> delete -> Prop :=
  | delete_new : forall g d, lk_delete g = Ok d -> delete_alike d d
  | delete_call : forall d d' c c' r r', delete_alike d d' -> del_call_alike c c' ->
      del_step d c = Ok r -> del_step d' c' = Ok r' -> delete_alike r r'.

  Inductive stmt_alike {O : Oracle} : stmt -> stmt -> Prop :=
  | both_select : forall q q', select_alike q q' -> stmt_alike (StSelect q) (StSelect q')
  | both_insert : forall i i', insert_alike i i' -> stmt_alike (StInsert i) (StInsert i')
  | both_update : forall u u', update_alike u u' -> stmt_alike (StUpdate u) (StUpdate u')
  | both_delete : forall d d', delete_alike d d' -> stmt_alike (StDelete d) (StDelete d').
End Alike.
