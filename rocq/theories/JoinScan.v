(* Specification: the texts ParseJoin accepts, refuses and panics on. It reads pieces until it
   meets something it does not expect; each piece replaces an earlier piece of its kind. *)
From Verif Require Export JoinSpec.

Definition kind (k : string) (t : token) : Prop := tk_type t = k.
Definition link_kind (t : token) : Prop := kind "AND" t \/ kind "OR" t.
Definition name_kind (t : token) : Prop := kind "Literal" t.

Inductive piece :=
| PieceType (ty : string)
| PieceTable (name : string)
| PieceCondition (e : equality) (rest : list (conn * equality))
| PieceNothing.

(* AND l = r OR l = r ... *)
Inductive reads_links : list token -> list (conn * equality) -> Prop :=
| read_no_link : reads_links [] []
| read_link w o l q r ts rest : kind (conn_word o) w -> name_kind l -> kind "=" q -> name_kind r ->
    reads_links ts rest ->
    reads_links (w :: l :: q :: r :: ts) ((o, {| eq_left := tk_value l; eq_right := tk_value r |}) :: rest).

Inductive reads_piece : list token -> piece -> Prop :=
| read_join t : kind "JOIN" t -> reads_piece [t] PieceNothing
| read_inner a b : kind "INNER" a -> kind "JOIN" b -> reads_piece [a; b] (PieceType "INNER JOIN")
| read_left a b : kind "LEFT" a -> kind "JOIN" b -> reads_piece [a; b] (PieceType "LEFT JOIN")
| read_right a b : kind "RIGHT" a -> kind "JOIN" b -> reads_piece [a; b] (PieceType "RIGHT JOIN")
| read_table n w : name_kind n -> kind "ON" w -> reads_piece [n; w] (PieceTable (tk_value n))
| read_condition l q r ts rest : name_kind l -> kind "=" q -> name_kind r -> reads_links ts rest ->
    reads_piece (l :: q :: r :: ts) (PieceCondition {| eq_left := tk_value l; eq_right := tk_value r |} rest)
| read_skip t : kind "ON" t \/ kind "(" t \/ kind ")" t -> reads_piece [t] PieceNothing.

(* Some pieces, and whether the last of them is a condition. *)
Inductive reads_pieces : list token -> list piece -> bool -> Prop :=
| read_none : reads_pieces [] [] false
| read_some ts ps b ts' p : reads_pieces ts ps b -> reads_piece ts' p ->
    reads_pieces (ts ++ ts') (ps ++ [p]) (match p with PieceCondition _ _ => true | _ => false end).

(* What the pieces say. *)
Definition add_piece (j : join) (p : piece) : join :=
  match p with
  | PieceType ty => {| j_type := ty; j_table := j_table j; j_cond := j_cond j |}
  | PieceTable n => {| j_type := j_type j; j_table := {| t_name := n; t_alias := ""; t_only := false |};
                       j_cond := j_cond j |}
  | PieceCondition e rest => {| j_type := j_type j; j_table := j_table j; j_cond := on_condition e rest |}
  | PieceNothing => j
  end.
Definition join_said (ps : list piece) : join :=
  fold_left add_piece ps
    {| j_type := "INNER JOIN"; j_table := {| t_name := ""; t_alias := ""; t_only := false |}; j_cond := ENil |}.

(* The end of the text, or something that starts no piece and does not continue a condition:
   it is dropped. *)
Inductive unexpected (after_condition : bool) : list token -> Prop :=
| unexpected_end : unexpected after_condition []
| unexpected_type a ts : kind "INNER" a \/ kind "LEFT" a \/ kind "RIGHT" a ->
    (forall b ts', ts = b :: ts' -> ~ kind "JOIN" b) -> unexpected after_condition (a :: ts)
| unexpected_name n ts : name_kind n -> (forall b ts', ts = b :: ts' -> ~ kind "ON" b /\ ~ kind "=" b) ->
    unexpected after_condition (n :: ts)
| unexpected_link a ts : link_kind a -> after_condition = false -> unexpected after_condition (a :: ts)
| unexpected_other a ts : ~ link_kind a -> ~ name_kind a ->
    ~ In (tk_type a) ["JOIN"; "INNER"; "LEFT"; "RIGHT"; "ON"; "("; ")"]%string ->
    unexpected after_condition (a :: ts).

(* An equality, or a link after a condition, that is not completed: an error. *)
Definition no_name_follows (ts : list token) : Prop := forall t ts', ts = t :: ts' -> ~ name_kind t.
Inductive broken (after_condition : bool) : list token -> Prop :=
| broken_equality l q ts : name_kind l -> kind "=" q -> no_name_follows ts -> broken after_condition (l :: q :: ts)
| broken_link a ts : after_condition = true -> link_kind a -> no_name_follows ts -> broken after_condition (a :: ts)
| broken_left a l q ts : after_condition = true -> link_kind a -> name_kind l -> ~ kind "=" q ->
    broken after_condition (a :: l :: q :: ts)
| broken_right a l q ts : after_condition = true -> link_kind a -> name_kind l -> kind "=" q ->
    no_name_follows ts -> broken after_condition (a :: l :: q :: ts).
