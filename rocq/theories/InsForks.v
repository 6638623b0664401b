(* Programs that hold several Insert builders at once, and pass one DoUpdate action to several of
   them. *)
From Coq Require Import String List Arith ZArith.
From Verif Require Import Ast Write Api Parser Build Sort Mem Forks.
Import ListNotations.
Local Open Scope list_scope.

(* The arguments of OnConflict: written there, or the action that a variable holds. *)
Inductive iarg := Plain (g : gval) | Act (k : nat).
Inductive icall := IConflict (args : list iarg) | IOther (c : ins_call).
Definition ins_cmd := cmd gval icall.

(* ------------------------------------------------------------------------- *)
(* Builders as values                                                          *)
(* ------------------------------------------------------------------------- *)

(* [acts]: the actions made by DoUpdate at the start of the program. *)
Definition arg_value (acts : list pairs) (a : iarg) : gval :=
  match a with
  | Plain g => g
  | Act k => match nth_error acts k with
             | Some p => GConflictUpdate p
             | None => GOther "undefined variable"   (* does not compile *)
             end
  end.
Definition call_value (acts : list pairs) (c : icall) : ins_call :=
  match c with IConflict args => InsOnConflict (map (arg_value acts) args) | IOther c => c end.

Definition ins_values {O : Oracle} (acts : list pairs) (p : list ins_cmd) : list (option insert) :=
  value_run lk_insert (fun i c => ins_step i (call_value acts c)) [] p.

(* ------------------------------------------------------------------------- *)
(* Memory                                                                      *)
(* ------------------------------------------------------------------------- *)

(* The arrays behind OnConflict.Target.Columns, and those behind the columns of the sets of
   actions (stmt/set.go:50-55). Nothing extends the latter after DoUpdate; rendering sorts them.
   The map of an action is never written. *)
Record ins_heap := { ih_targets : list (list column); ih_sets : list (list column) }.

(* builder/insert.go:12-14, stmt/insert.go:9-17. [ir_set] is the array of the columns of the
   action in [ir_rest], if it is an update. The columns, values and RETURNING items are replaced
   as a whole and never written through. *)
Record ins_ref := { ir_rest : insert; ir_target : slice; ir_set : option nat }.

Definition with_cols (p : pairs) (l : list column) : pairs :=
  {| p_mode := p_mode p; p_map := p_map p; p_cols := l; p_exprs := p_exprs p |}.

Definition seen_action (h : ins_heap) (k : option nat) (a : option conflict_action) : option conflict_action :=
  match k, a with
  | Some k, Some (ActUpdate p) => Some (ActUpdate (with_cols p (nth k (ih_sets h) [])))
  | _, _ => a
  end.

(* The statement that the writer sees. *)
Definition ins_view (h : ins_heap) (b : ins_ref) : insert :=
  ins_with_conflict (ir_rest b) (view (ih_targets h) (ir_target b))
    (seen_action h (ir_set b) (i_conflict_action (ir_rest b))).

Section InsertMemory.
  Context {O : Oracle} (g : growth) (acts : list pairs).

  (* builder/insert.go:86-104: the loop over the arguments. Line 89 appends to the slice of the
     receiver; what was appended before a panic stays in the array. *)
  Fixpoint ref_conflict (h : ins_heap) (s : slice) (args : list iarg)
    : ins_heap * res (slice * conflict_action * option nat) :=
    match args with
    | [] => (h, Panic (PMsg "loukoum: on conflict clause requires an action"))
    | Act k :: _ =>
      match nth_error acts k with
      | Some p =>
        (h, if (sl_len s =? 0)%nat then Panic (PMsg "loukoum: on conflict update clause requires at least one target")
            else Ok (s, ActUpdate p, Some k))
      | None => (h, Panic (PCannotUse "on conflict clause"))
      end
    | Plain v :: rest =>
      match v with
      | GStr _ | GColumn _ =>
        match to_column v with
        | Ok c =>
          let a := append zero_column (g_cols g) (ih_targets h) s [c] in
          ref_conflict {| ih_targets := fst a; ih_sets := ih_sets h |} (snd a) rest
        | Panic e => (h, Panic e)
        end
      | GConflictNo => (h, Ok (s, ActNothing, None))
      | GConflictUpdate p =>
        if (sl_len s =? 0)%nat then (h, Panic (PMsg "loukoum: on conflict update clause requires at least one target"))
        else ({| ih_targets := ih_targets h; ih_sets := ih_sets h ++ [p_cols p] |},
              Ok (s, ActUpdate p, Some (length (ih_sets h))))
      | _ => (h, Panic (PCannotUse "on conflict clause"))
      end
    end.

  (* builder/insert.go:77-105 *)
  Definition ref_on_conflict (h : ins_heap) (b : ins_ref) (args : list iarg) : ins_heap * res ins_ref :=
    if conflict_empty (i_conflict_action (ins_view h b)) then
      match args with
      | [] => (h, Panic (PMsg "loukoum: on conflict clause requires arguments"))
      | _ =>
        let r := ref_conflict h (ir_target b) args in
        (fst r, map_ok (fun t => {| ir_rest := ins_with_conflict (ir_rest b) [] (Some (snd (fst t)));
                                    ir_target := fst (fst t); ir_set := snd t |}) (snd r))
      end
    else (h, Panic (already "insert builder has on conflict clause")).

  (* builder/insert.go:23-126 over the memory *)
  Definition ins_do (h : ins_heap) (b : ins_ref) (c : icall) : ins_heap * res ins_ref :=
    match c with
    | IConflict args => ref_on_conflict h b args
    | IOther (InsOnConflict args) => ref_on_conflict h b (map Plain args)
    | IOther c =>
      (h, map_ok (fun i => {| ir_rest := i; ir_target := ir_target b; ir_set := ir_set b |}) (ins_step (ir_rest b) c))
    end.

  (* loukoum.go:144-146, builder/insert.go:17-21 *)
  Definition ins_new (h : ins_heap) (a : gval) : ins_heap * res ins_ref :=
    (h, map_ok (fun i => {| ir_rest := i; ir_target := nil_slice; ir_set := None |}) (lk_insert a)).

  (* stmt/conflict.go:99-105, stmt/set.go:126-150: rendering sorts the columns of the action in
     place. The model also does so when rendering panics before it comes to the action. *)
  Definition ins_show (h : ins_heap) (b : ins_ref) : ins_heap * insert :=
    (match ir_set b, i_conflict_action (ir_rest b) with
     | Some k, Some (ActUpdate p) =>
       match p_mode p with
       | PAssoc => {| ih_targets := ih_targets h; ih_sets := store (ih_sets h) k (o_sort (nth k (ih_sets h) [])) |}
       | _ => h
       end
     | _, _ => h
     end, ins_view h b).

  Definition ins_memory (p : list ins_cmd) : list (option insert) :=
    memory_run ins_new ins_do ins_show {| ih_targets := []; ih_sets := map p_cols acts |} [] p.
End InsertMemory.
