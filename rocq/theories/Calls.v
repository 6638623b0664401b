(* Specification: which clause a method of a builder addresses. *)
From Verif Require Export Build.

(* Two results that a caller cannot tell apart, except for the message of a panic. *)
Definition same_outcome {A} (a b : res A) : Prop :=
  match a, b with
  | Ok x, Ok y => x = y
  | Panic _, Panic _ => True
  | _, _ => False
  end.

(* The methods of Select, grouped by the clause they address. DistinctOn is grouped with
   GroupBy, and Suffix and Prefix with Offset, because their guards look at that clause. *)
Inductive sel_group :=
| GDistinctOnGroupBy | GDistinct | GColumns | GFromClause | GJoins | GWith | GWhere | GHaving
| GOrderBy | GLimitClause | GOffsetSuffixPrefix | GComment.

Definition group_of (c : sel_call) : sel_group :=
  match c with
  | SelDistinctOn _ | SelGroupBy _ => GDistinctOnGroupBy
  | SelDistinct => GDistinct
  | SelColumns _ => GColumns
  | SelFrom _ => GFromClause
  | SelJoin _ => GJoins
  | SelWith _ => GWith
  | SelWhere _ | SelAnd _ | SelOr _ => GWhere
  | SelHaving _ => GHaving
  | SelOrderBy _ => GOrderBy
  | SelLimit _ => GLimitClause
  | SelOffset _ | SelSuffix _ | SelPrefix _ => GOffsetSuffixPrefix
  | SelComment _ => GComment
  end.

Definition group_eq (a b : sel_group) : {a = b} + {a <> b}.
Proof. decide equality. Defined.

Definition of_group (g : sel_group) (c : sel_call) : bool := if group_eq (group_of c) g then true else false.

(* cs' is cs with calls on different clauses reordered: for every clause, the calls on it are
   the same and in the same order. *)
Definition reordered (cs cs' : list sel_call) : Prop :=
  forall g, filter (of_group g) cs = filter (of_group g) cs'.

(* ------------------------------------------------------------------------- *)
(* Clauses that may be given once                                              *)
(* ------------------------------------------------------------------------- *)

Inductive sel_once := OnceFrom | OnceGroupBy | OnceHaving | OnceLimit | OnceOffset.
Definition sel_once_of (c : sel_call) : option sel_once :=
  match c with
  | SelFrom _ => Some OnceFrom
  | SelGroupBy _ => Some OnceGroupBy
  | SelHaving _ => Some OnceHaving
  | SelLimit _ => Some OnceLimit
  | SelOffset _ => Some OnceOffset
  | _ => None
  end.
(* The clause is there: it will be written. *)
Definition sel_has (o : sel_once) (q : select) : Prop :=
  match o with
  | OnceFrom => s_from q <> []
  | OnceGroupBy => s_group_by q <> []
  | OnceHaving => cond_empty (s_having q) = Ok false
  | OnceLimit => s_limit q <> 0%Z
  | OnceOffset => s_offset q <> 0%Z
  end.
(* The clause is the same in both. *)
Definition sel_same (o : sel_once) (q q' : select) : Prop :=
  match o with
  | OnceFrom => s_from q = s_from q'
  | OnceGroupBy => s_group_by q = s_group_by q'
  | OnceHaving => s_having q = s_having q'
  | OnceLimit => s_limit q = s_limit q'
  | OnceOffset => s_offset q = s_offset q'
  end.

Inductive ins_once := OnceInto | OnceColumns | OnceValues | OnceInsReturning | OnceConflict.
(* Insert.Set addresses both the columns and the values. *)
Definition ins_once_of (c : ins_call) : list ins_once :=
  match c with
  | InsInto _ => [OnceInto]
  | InsColumns [] => []
  | InsColumns _ => [OnceColumns]
  | InsValues _ => [OnceValues]
  | InsReturning _ => [OnceInsReturning]
  | InsOnConflict _ => [OnceConflict]
  | InsSet _ => [OnceColumns; OnceValues]
  | InsComment _ => []
  end.
Definition ins_has (o : ins_once) (i : insert) : Prop :=
  match o with
  | OnceInto => t_name (i_into i) <> ""
  | OnceColumns => i_columns i <> []
  | OnceValues => cond_empty (i_values i) = Ok false
  | OnceInsReturning => i_returning i <> []
  | OnceConflict => conflict_empty (i_conflict_action i) = false
  end.
Definition ins_same (o : ins_once) (i i' : insert) : Prop :=
  match o with
  | OnceInto => i_into i = i_into i'
  | OnceColumns => i_columns i = i_columns i'
  | OnceValues => i_values i = i_values i'
  | OnceInsReturning => i_returning i = i_returning i'
  | OnceConflict => i_conflict_target i = i_conflict_target i' /\ i_conflict_action i = i_conflict_action i'
  end.

Inductive upd_once := OnceUpdFrom | OnceUpdReturning.
Definition upd_once_of (c : upd_call) : option upd_once :=
  match c with UpdFrom _ => Some OnceUpdFrom | UpdReturning _ => Some OnceUpdReturning | _ => None end.
Definition upd_has (o : upd_once) (u : update) : Prop :=
  match o with OnceUpdFrom => u_from u <> [] | OnceUpdReturning => u_returning u <> [] end.
Definition upd_same (o : upd_once) (u u' : update) : Prop :=
  match o with OnceUpdFrom => u_from u = u_from u' | OnceUpdReturning => u_returning u = u_returning u' end.

Inductive del_once := OnceDelFrom | OnceDelUsing | OnceDelReturning.
Definition del_once_of (c : del_call) : option del_once :=
  match c with
  | DelFrom _ => Some OnceDelFrom | DelUsing _ => Some OnceDelUsing
  | DelReturning _ => Some OnceDelReturning | _ => None
  end.
Definition del_has (o : del_once) (d : delete) : Prop :=
  match o with
  | OnceDelFrom => d_from d <> [] | OnceDelUsing => d_using d <> [] | OnceDelReturning => d_returning d <> []
  end.
Definition del_same (o : del_once) (d d' : delete) : Prop :=
  match o with
  | OnceDelFrom => d_from d = d_from d' | OnceDelUsing => d_using d = d_using d'
  | OnceDelReturning => d_returning d = d_returning d'
  end.
