(* Specification: rows added one after another to the rows of a table, by an INSERT with several rows. *)
From Coq Require Import List Bool.
Import ListNotations.

(* What is done about a new row that cannot stand beside a row of the table: the statement fails; the
   new row is left out; or the row in its way is rewritten, given the new row and itself. *)
Inductive on_clash (A : Type) := Fails | LeavesOut | Rewrites (w : A -> A -> A).
Arguments Fails {A}. Arguments LeavesOut {A}. Arguments Rewrites {A}.

Section AddRows.
  Context {A : Type}.
  Context (in_the_way : A -> A -> bool).   (* of a new row, a row *)

  (* The rows afterwards, and the rows written. A row is marked once the statement has written it; such
     a row cannot be rewritten. *)
  Fixpoint add_rows (what : on_clash A) (news : list A) (rows : list (A * bool)) : option (list (A * bool) * list A) :=
    match news with
    | [] => Some (rows, [])
    | new :: rest =>
      if existsb (fun old => in_the_way new (fst old)) rows then
        match what with
        | Fails => None
        | LeavesOut => add_rows what rest rows
        | Rewrites w =>
          if existsb (fun old => snd old && in_the_way new (fst old)) rows then None else
          match add_rows what rest (map (fun old => if in_the_way new (fst old) then (w new (fst old), true) else old) rows) with
          | Some (rows', out) => Some (rows', map (w new) (filter (in_the_way new) (map fst rows)) ++ out)
          | None => None
          end
        end
      else
        match add_rows what rest (rows ++ [(new, true)]) with
        | Some (rows', out) => Some (rows', new :: out)
        | None => None
        end
    end.
  Definition unmarked (rows : list A) : list (A * bool) := map (fun r => (r, false)) rows.
  Definition add_to (what : on_clash A) (news rows : list A) : option (list A * list A) :=
    option_map (fun p => (map fst (fst p), snd p)) (add_rows what news (unmarked rows)).

  (* ----------------------------------------------------------------------- *)
  (* Words for theorems                                                        *)
  (* ----------------------------------------------------------------------- *)

  (* Some row is in the way of the new row. *)
  Definition barred (rows : list A) (new : A) : bool := existsb (in_the_way new) rows.
  (* Neither the rows of the table nor earlier new rows are in the way of a new row. *)
  Fixpoint accepted (rows news : list A) : Prop :=
    match news with
    | [] => True
    | new :: rest => barred rows new = false /\ accepted (rows ++ [new]) rest
    end.
  (* The new rows with no row of the table in the way, nor an earlier new row that was kept. *)
  Fixpoint kept_rows (rows news : list A) : list A :=
    match news with
    | [] => []
    | new :: rest => if barred rows new then kept_rows rows rest else new :: kept_rows (rows ++ [new]) rest
    end.
  (* No row of the table is in the way of two new rows, neither as it was nor as it was rewritten, and no
     new row is in the way of a later one. *)
  Definition one_each (after : A -> A -> A) (rows news : list A) : Prop :=
    ForallOrdPairs (fun new later => in_the_way later new = false
      /\ forall old, In old rows -> in_the_way new old = true ->
           in_the_way later old = false /\ in_the_way later (after new old) = false) news.
End AddRows.
