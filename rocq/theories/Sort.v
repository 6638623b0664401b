(* sort.Slice on the columns of a SET clause. *)
From Coq Require Export Permutation Sorted.
From Verif Require Export Ast.

(* stmt/set.go:131-134: the less function *)
Definition col_less (a b : column) : bool :=
  str_ltb (c_name a) (c_name b) || str_ltb (c_alias a) (c_alias b).

(* The documentation of sort.Slice: less must be a strict weak ordering of the elements. *)
Definition strict_weak_order {A} (less : A -> A -> bool) (l : list A) : Prop :=
  (forall x, In x l -> less x x = false)
  /\ (forall x y z, In x l -> In y l -> In z l -> less x y = true -> less y z = true -> less x z = true)
  /\ (forall x y z, In x l -> In y l -> In z l ->
        less x y = false -> less y x = false -> less y z = false -> less z y = false ->
        less x z = false /\ less z x = false).

(* What sort.Slice promises: the result is a rearrangement of the slice and, when less is a
   strict weak ordering of its elements, no element is less than one that precedes it. *)
Definition sort_contract (sort : list column -> list column) : Prop :=
  forall l, Permutation l (sort l)
            /\ (strict_weak_order col_less l ->
                StronglySorted (fun a b => col_less b a = false) (sort l)).

(* Go 1.19 sort.insertionSort_func, which sort.Slice runs on slices of at most 12 elements:
   element x moves left while it is less than its left neighbour. The argument is the prefix
   sorted so far, last element first. *)
Fixpoint insert_left (x : column) (prefix : list column) : list column :=
  match prefix with
  | [] => [x]
  | y :: r => if col_less x y then y :: insert_left x r else x :: prefix
  end.
Definition insertion_sort (l : list column) : list column :=
  rev (fold_left (fun p x => insert_left x p) l []).

(* A concrete oracle, used in examples and in counterexamples: every non-ASCII rune is
   printable, columns are sorted by insertion. *)
Definition go_oracle : Oracle := {|
  o_print := fun _ => true;
  o_float := fun f => string_of_Z f ++ ".5";
  o_sprint := fun _ => "?";
  o_sort := insertion_sort |}.
