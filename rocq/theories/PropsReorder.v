(* C56: reordering the calls on an Insert builder, with Columns and Values as clauses of their own. *)
From Coq Require Import String List.
From Verif Require Import Ast Write Api Parser Build Calls CallsP Sort Reorder ReorderP.
Import ListNotations.
Local Open Scope string_scope.
Local Open Scope list_scope.

(* Two lists of calls that have the same calls about each clause in the same order make the same
   statement and the same SQL, or both panic. Only Set is about two clauses. *)
Theorem C56_insert_clauses {O : Oracle} : forall i cs cs', same_calls ins_about cs cs' ->
  same_outcome (ins_run i cs) (ins_run i cs')
  /\ same_outcome (do s <- ins_run i cs; query (StInsert s)) (do s <- ins_run i cs'; query (StInsert s))
  /\ same_outcome (do s <- ins_run i cs; named_query (StInsert s)) (do s <- ins_run i cs'; named_query (StInsert s))
  /\ same_outcome (do s <- ins_run i cs; to_string (StInsert s)) (do s <- ins_run i cs'; to_string (StInsert s)).
Proof.
  intros i cs cs' H. split; [|split; [|split]]; try apply same_bind; apply ins_same_run, H.
Qed.
Print Assumptions C56_insert_clauses.

Definition add1 : list ins_call :=
  [InsValues [GInt KInt 1; GStr "x"]; InsOnConflict [GStr "id"; GConflictNo]; InsColumns [GStr "id"; GStr "name"];
   InsReturning [GStr "id"]].
Definition add2 : list ins_call :=
  [InsReturning [GStr "id"]; InsColumns [GStr "id"; GStr "name"]; InsOnConflict [GStr "id"; GConflictNo];
   InsValues [GInt KInt 1; GStr "x"]].
Example C56_insert_clauses_example : same_calls ins_about add1 add2 /\ add1 <> add2
  /\ (do i <- lk_insert (O := go_oracle) (GStr "users"); do i <- ins_run (O := go_oracle) i add1; query (O := go_oracle) (StInsert i))
     = Ok ("INSERT INTO ""users"" (""id"", ""name"") VALUES ($1, $2) ON CONFLICT (""id"") DO NOTHING RETURNING ""id""",
           [GInt KInt 1; GStr "x"]).
Proof. split; [intros []; reflexivity|]. split; [discriminate|vm_compute; reflexivity]. Qed.
