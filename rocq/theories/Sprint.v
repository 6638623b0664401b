(* Specification for C73: how Go's fmt.Sprint prints the values that String() hands to it
   (format/format.go:63-64 Value, default case). The model leaves fmt.Sprint open (o_sprint); this
   file states what the documentation of package fmt says of slices and of the floats that are not
   numbers. *)
From Coq Require Import String List ZArith.
From Verif Require Import Ast Sql.
Import ListNotations.
Open Scope string_scope.

(* The elements of a slice, with a space between them, in square brackets; a string element is
   printed as it is, with no quotes. *)
Definition bracketed (l : list string) : string := "[" ++ String.concat " " l ++ "]".

Definition prints_slices (O : Oracle) : Prop :=
  (forall l, o_sprint (GStrs l) = bracketed l)
  /\ (forall k l, o_sprint (GInts k l) = bracketed (map string_of_Z l)).

(* The slices that a comparison or an assignment takes as one value
   (stmt/expression.go:27-31 NewExpression), with the text of their elements. *)
Inductive array_of : gval -> list string -> Prop :=
| array_strs : forall l, array_of (GStrs l) l
| array_ints : forall l, array_of (GInts KInt64 l) (map string_of_Z l).

(* A map is printed as map[k:v k:v], the keys in order; only the beginning matters below. *)
Definition prints_maps (O : Oracle) : Prop :=
  (forall m, exists rest, o_sprint (GMapStr m) = "map[" ++ rest) /\ (forall m, exists rest, o_sprint (GMapAny m) = "map[" ++ rest).
Inductive map_value : gval -> Prop :=
| map_strs : forall m, map_value (GMapStr m)
| map_anys : forall m, map_value (GMapAny m).
