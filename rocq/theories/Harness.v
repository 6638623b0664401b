(* How the tables of /repo/builder/builder_test.go are checked: lines 47-82 RunBuilderTests. *)
From Coq Require Import String List.
From Verif Require Import Ast Format Ctx Write Sort.
Import ListNotations.
Local Open Scope string_scope.

(* builder/builder_test.go:35-45 toNamedArgs *)
Fixpoint named_args (n : nat) (args : list gval) : list (string * gval) :=
  match args with
  | [] => []
  | v :: rest => (arg_name n, v) :: named_args (S n) rest
  end.

(* builder/builder_test.go:59-79: String, Query and NamedQuery return the expected values *)
Definition renders (b : res stmt) (text q named : string) (args : list gval) : Prop :=
  match b with
  | Ok s =>
    to_string (O := go_oracle) s = Ok text
    /\ query (O := go_oracle) s = Ok (q, args)
    /\ named_query (O := go_oracle) s = Ok (named, named_args 1 args)
  | Panic _ => False
  end.

(* builder/builder_test.go:50-57: building or rendering panics *)
Definition fails (b : res stmt) : Prop :=
  match b with
  | Ok s => match to_string (O := go_oracle) s with Ok _ => False | Panic _ => True end
  | Panic _ => True
  end.
