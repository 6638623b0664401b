(* Specification vocabulary: SQL text with holes.

   Nothing here refers to how the code writes a statement. *)
From Verif Require Export Ast.

(* A template is a sequence of characters and of bound values. *)
Inductive piece := Ch (a : ascii) | Val (v : gval).
Definition sql := list piece.

(* Literal text. *)
Fixpoint lit (s : string) : sql :=
  match s with EmptyString => [] | String a s' => Ch a :: lit s' end.

(* The bound values, left to right. *)
Fixpoint args (q : sql) : list gval :=
  match q with
  | [] => []
  | Ch _ :: q' => args q'
  | Val v :: q' => v :: args q'
  end.

(* The text obtained when the i-th hole (counting from k) shows [ph i v]. *)
Fixpoint fill (ph : nat -> gval -> string) (k : nat) (q : sql) : string :=
  match q with
  | [] => ""
  | Ch a :: q' => String a (fill ph k q')
  | Val v :: q' => ph k v ++ fill ph (S k) q'
  end.

(* $1, $2, ... *)
Definition dollar (i : nat) (_ : gval) : string := "$" ++ string_of_nat i.
(* :arg_1, :arg_2, ... *)
Definition colon (i : nat) (_ : gval) : string := ":arg_" ++ string_of_nat i.

(* Templates separated by a string. *)
Fixpoint sepd (sep : string) (l : list sql) : sql :=
  match l with
  | [] => []
  | [x] => x
  | x :: xs => (x ++ lit sep ++ sepd sep xs)%list
  end.

(* ------------------------------------------------------------------------- *)
(* Replacing bound values                                                      *)
(* ------------------------------------------------------------------------- *)

Section Subst.
  Context (f : gval -> gval).

  Definition subst_val (g : gval) : gval := match g with GNil => GNil | _ => f g end.

  Definition subst_with (s : expr -> expr) (q : withq) : withq :=
    {| wq_name := wq_name q; wq_sub := s (wq_sub q) |}.
  Definition subst_sel (s : expr -> expr) (x : selexpr) : selexpr :=
    match x with
    | SExists e => SExists (s e)
    | SNotExists e => SNotExists (s e)
    | _ => x
    end.
  Definition subst_join (s : expr -> expr) (j : join) : join :=
    {| j_type := j_type j; j_table := j_table j; j_cond := s (j_cond j) |}.
  Definition subst_select_with (s : expr -> expr) (q : select) : select := {|
    s_prefix := s_prefix q; s_with := map (subst_with s) (s_with q);
    s_distinct := s_distinct q; s_distinct_on := s_distinct_on q;
    s_exprs := map (subst_sel s) (s_exprs q); s_from := s_from q;
    s_joins := map (subst_join s) (s_joins q); s_where := s (s_where q);
    s_group_by := s_group_by q; s_having := s (s_having q); s_order_by := s_order_by q;
    s_limit := s_limit q; s_offset := s_offset q; s_suffix := s_suffix q;
    s_comment := s_comment q |}.

  (* Replace every value v <> nil of an expression by [f v], leaving all else alone. *)
  Fixpoint subst (e : expr) : expr :=
    match e with
    | EValue g => EValue (subst_val g)
    | EArrayList l => EArrayList (map subst l)
    | EArray l => EArray (map subst l)
    | EWrap x => EWrap (subst x)
    | ECall n l => ECall n (map subst l)
    | EInfix l o r => EInfix (subst l) o (subst r)
    | EIn x o v => EIn (subst x) o (subst v)
    | EBetween g o a n b => EBetween g o (subst a) n (subst b)
    | EExists x => EExists (subst x)
    | ENotExists x => ENotExists (subst x)
    | ESelect s => ESelect (subst_select_with subst s)
    | EInfixOn l o r => EInfixOn (subst l) o (subst r)
    | ENil | EIdent _ | ERaw _ | EOn _ _ => e
    end.

  Definition subst_select : select -> select := subst_select_with subst.

  Definition subst_pairs (p : pairs) : pairs := {|
    p_mode := p_mode p; p_map := map (fun ce => (fst ce, subst (snd ce))) (p_map p);
    p_cols := p_cols p; p_exprs := map subst (p_exprs p) |}.

  Definition subst_action (a : conflict_action) : conflict_action :=
    match a with ActNothing => ActNothing | ActUpdate p => ActUpdate (subst_pairs p) end.

  Definition subst_stmt (s : stmt) : stmt :=
    match s with
    | StSelect q => StSelect (subst_select q)
    | StInsert i => StInsert {|
        i_into := i_into i; i_columns := i_columns i; i_values := subst (i_values i);
        i_conflict_target := i_conflict_target i;
        i_conflict_action := option_map subst_action (i_conflict_action i);
        i_returning := map (subst_sel subst) (i_returning i); i_comment := i_comment i |}
    | StUpdate u => StUpdate {|
        u_with := map (subst_with subst) (u_with u); u_table := u_table u; u_only := u_only u;
        u_from := u_from u; u_set := subst_pairs (u_set u); u_where := subst (u_where u);
        u_returning := map (subst_sel subst) (u_returning u); u_comment := u_comment u |}
    | StDelete d => StDelete {|
        d_from := d_from d; d_using := d_using d; d_where := subst (d_where d);
        d_returning := map (subst_sel subst) (d_returning d); d_comment := d_comment d |}
    end.
End Subst.

(* Apply a function to the values of an outcome of Query(). *)
Definition map_args (f : gval -> gval) (r : res (string * list gval)) : res (string * list gval) :=
  match r with Ok (t, vs) => Ok (t, map f vs) | Panic p => Panic p end.
Definition map_named (f : gval -> gval) (r : res (string * list (string * gval)))
  : res (string * list (string * gval)) :=
  match r with
  | Ok (t, m) => Ok (t, map (fun kv => (fst kv, f (snd kv))) m)
  | Panic p => Panic p
  end.
