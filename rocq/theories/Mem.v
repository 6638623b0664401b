(* Slices and maps of Go as they share memory. A slice value is a pointer to an array, a length
   and a capacity; copying a struct copies the three words, not the array. append writes in the
   array when there is room and allocates otherwise. No code modelled here re-slices, so every
   slice starts at the beginning of its array. *)
From Coq Require Import List Arith Lia.
Import ListNotations.
Local Open Scope list_scope.

Record slice := { sl_ptr : nat; sl_len : nat; sl_cap : nat }.

(* The zero value of a slice type. *)
Definition nil_slice : slice := {| sl_ptr := 0; sl_len := 0; sl_cap := 0 |}.

(* h[p] = x *)
Fixpoint store {A} (h : list A) (p : nat) (x : A) : list A :=
  match h, p with
  | [], _ => []
  | _ :: t, 0 => x :: t
  | y :: t, S p' => y :: store t p' x
  end.

Section Slices.
  Context {A : Type} (zero : A).

  (* The elements a program reads through a slice. *)
  Definition view (h : list (list A)) (s : slice) : list A := firstn (sl_len s) (nth (sl_ptr s) h []).

  (* The Go specification, "Appending to and copying slices". [grow cap needed] is the capacity
     the runtime chooses for a new array (runtime/slice.go growslice); the result is at least
     the needed one. *)
  Definition append (grow : nat -> nat -> nat) (h : list (list A)) (s : slice) (xs : list A)
    : list (list A) * slice :=
    let n := sl_len s + length xs in
    if n <=? sl_cap s then
      let a := nth (sl_ptr s) h [] in
      (store h (sl_ptr s) (firstn (sl_len s) a ++ xs ++ skipn n a),
       {| sl_ptr := sl_ptr s; sl_len := n; sl_cap := sl_cap s |})
    else
      let c := Nat.max n (grow (sl_cap s) n) in
      (h ++ [view h s ++ xs ++ repeat zero (c - n)], {| sl_ptr := length h; sl_len := n; sl_cap := c |}).

  (* A slice made for a list of arguments f(x1, ..., xn): capacity n. *)
  Definition make_slice (h : list (list A)) (xs : list A) : list (list A) * slice :=
    (h ++ [xs], {| sl_ptr := length h; sl_len := length xs; sl_cap := length xs |}).
End Slices.

(* runtime/slice.go growslice for small slices: double, or the needed size if that is not
   enough. The rounding to size classes is left out; it changes nothing for the element sizes
   used here (32 and 72 bytes) at the capacities of the examples. *)
Definition doubling (cap needed : nat) : nat := if 2 * cap <? needed then needed else 2 * cap.
