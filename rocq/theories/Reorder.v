(* C56: reordering the calls on an Insert builder, with Columns and Values as clauses of their own. *)
From Coq Require Import String List.
From Verif Require Import Ast Write Api Parser Build Calls.
Import ListNotations.

(* The clauses of an Insert. *)
Inductive ins_clause := InInto | InColumns | InValues | InConflict | InReturning | InComment.

(* Whether a method is about a clause. Set of an Insert is about the columns and the values. *)
Definition ins_about (k : ins_clause) (c : ins_call) : bool :=
  match c, k with
  | InsInto _, InInto | InsColumns _, InColumns | InsValues _, InValues | InsSet _, InColumns | InsSet _, InValues
  | InsOnConflict _, InConflict | InsReturning _, InReturning | InsComment _, InComment => true
  | _, _ => false
  end.

(* Two lists of calls with the same calls about each clause, in the same order. *)
Definition same_calls {K C} (about : K -> C -> bool) (cs cs' : list C) : Prop :=
  forall k, filter (about k) cs = filter (about k) cs'.
