(* Builders handed over as the interface builder.Builder, and the functions that ask which of the
   four builders such a value holds. *)
From Coq Require Import String List.
From Verif Require Import Ast Write Build.
Import ListNotations.

(* builder/select.go:15-17, insert.go:12-14, update.go:10-12, delete.go:9-11: the four structs. *)
Inductive kind := ASelect | AnInsert | AnUpdate | ADelete.

(* builder/builder.go:13-26 Builder: what a value of the interface can hold. The methods have value
   receivers, so a struct and a pointer to it both implement the interface. [Foreign] is a type of
   the user that implements it: its methods are not modelled, only that it is none of the four. *)
Inductive held :=
| Nothing
| Value (s : stmt)
| Pointer (s : stmt)
| NilPointer (k : kind)
| Foreign.

(* The struct whose query is [s]. *)
Definition struct_of (s : stmt) : kind :=
  match s with
  | StSelect _ => ASelect
  | StInsert _ => AnInsert
  | StUpdate _ => AnUpdate
  | StDelete _ => ADelete
  end.

(* Go: _, ok := b.( *T ) for one of the four structs T. *)
Definition asserts_pointer (k : kind) (b : held) : bool :=
  match b with
  | Pointer s => match k, struct_of s with
                 | ASelect, ASelect | AnInsert, AnInsert | AnUpdate, AnUpdate | ADelete, ADelete => true
                 | _, _ => false
                 end
  | NilPointer k' => match k, k' with
                     | ASelect, ASelect | AnInsert, AnInsert | AnUpdate, AnUpdate | ADelete, ADelete => true
                     | _, _ => false
                     end
  | _ => false
  end.

(* builder/builder.go:29-32 IsSelectBuilder *)
Definition is_select_builder (b : held) : bool := asserts_pointer ASelect b.
(* builder/builder.go:35-38 IsInsertBuilder *)
Definition is_insert_builder (b : held) : bool := asserts_pointer AnInsert b.
(* builder/builder.go:41-44 IsUpdateBuilder *)
Definition is_update_builder (b : held) : bool := asserts_pointer AnUpdate b.
(* builder/builder.go:47-50 IsDeleteBuilder *)
Definition is_delete_builder (b : held) : bool := asserts_pointer ADelete b.

(* Calling a method with a value receiver through the interface: Go copies the struct out of the
   interface or from behind the pointer, and panics if there is none. None: the method of a type
   of the user. *)
Definition through {A} (f : stmt -> res A) (b : held) : option (res A) :=
  match b with
  | Value s | Pointer s => Some (f s)
  | Nothing | NilPointer _ => Some (Panic PNilDeref)
  | Foreign => None
  end.
