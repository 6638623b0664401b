(* Specification: which clause a method of Insert, Update or Delete addresses. *)
From Verif Require Export Calls.

(* Calls on the same clause are the same in both lists, and in the same order. *)
Definition reorders {C G} (eq : forall a b : G, {a = b} + {a <> b}) (group : C -> G) (cs cs' : list C) : Prop :=
  forall g, filter (fun c => if eq (group c) g then true else false) cs
          = filter (fun c => if eq (group c) g then true else false) cs'.

(* Set gives the columns and the values of an INSERT, so Columns, Values and Set are together. *)
Inductive ins_group := InIntoClause | InRows | InConflictClause | InReturningClause | InComment.
Definition ins_group_of (c : ins_call) : ins_group :=
  match c with
  | InsInto _ => InIntoClause
  | InsColumns _ | InsValues _ | InsSet _ => InRows
  | InsOnConflict _ => InConflictClause
  | InsReturning _ => InReturningClause
  | InsComment _ => InComment
  end.
Definition ins_group_eq (a b : ins_group) : {a = b} + {a <> b}.
Proof. decide equality. Defined.

Inductive upd_group := UpOnlyFlag | UpSetClause | UpWithClause | UpWhereClause | UpFromClause | UpReturningClause | UpComment.
Definition upd_group_of (c : upd_call) : upd_group :=
  match c with
  | UpdOnly => UpOnlyFlag
  | UpdSet _ | UpdUsing _ => UpSetClause
  | UpdWith _ => UpWithClause
  | UpdWhere _ | UpdAnd _ | UpdOr _ => UpWhereClause
  | UpdFrom _ => UpFromClause
  | UpdReturning _ => UpReturningClause
  | UpdComment _ => UpComment
  end.
Definition upd_group_eq (a b : upd_group) : {a = b} + {a <> b}.
Proof. decide equality. Defined.

Inductive del_group := DeFromClause | DeUsingClause | DeWhereClause | DeReturningClause | DeComment.
Definition del_group_of (c : del_call) : del_group :=
  match c with
  | DelFrom _ => DeFromClause
  | DelUsing _ => DeUsingClause
  | DelWhere _ | DelAnd _ | DelOr _ => DeWhereClause
  | DelReturning _ => DeReturningClause
  | DelComment _ => DeComment
  end.
Definition del_group_eq (a b : del_group) : {a = b} + {a <> b}.
Proof. decide equality. Defined.
