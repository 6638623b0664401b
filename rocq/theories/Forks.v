(* Programs that hold several builders at once. Builders are Go structs passed by value, but the
   slices and maps inside are shared between the copies. *)
From Coq Require Import String List Arith ZArith.
From Verif Require Import Ast Write Api Parser Build Sort Mem.
Import ListNotations.
Local Open Scope list_scope.

(* ------------------------------------------------------------------------- *)
(* Programs                                                                    *)
(* ------------------------------------------------------------------------- *)

(* Builders are numbered in the order in which they are obtained. *)
Inductive cmd (N C : Type) :=
| New (a : N)                 (* b_k := loukoum.Select(a...) *)
| Call (i : nat) (c : C)      (* b_k := b_i.c(...) *)
| Show (i : nat).             (* b_i.Query() *)
Arguments New {N C}. Arguments Call {N C}. Arguments Show {N C}.

Definition ok {A} (r : res A) : option A := match r with Ok a => Some a | Panic _ => None end.

(* What the programs would print if builders were values: the meaning the API suggests. A call
   that panics, or whose receiver does not exist because of an earlier panic, gives no builder;
   the program goes on. *)
Section Values.
  Context {N C V : Type} (new : N -> res V) (step : V -> C -> res V).

  Fixpoint value_run (regs : list (option V)) (p : list (cmd N C)) : list (option V) :=
    match p with
    | [] => []
    | New a :: p' => value_run (regs ++ [ok (new a)]) p'
    | Call i c :: p' =>
      value_run (regs ++ [match nth i regs None with Some v => ok (step v c) | None => None end]) p'
    | Show i :: p' => nth i regs None :: value_run regs p'
    end.
End Values.

(* What they print when builders are structs over a memory [H]. *)
Section Memory.
  Context {N C V H R : Type} (new : H -> N -> H * res R) (step : H -> R -> C -> H * res R)
          (show : H -> R -> H * V).

  Fixpoint memory_run (h : H) (regs : list (option R)) (p : list (cmd N C)) : list (option V) :=
    match p with
    | [] => []
    | New a :: p' => let hr := new h a in memory_run (fst hr) (regs ++ [ok (snd hr)]) p'
    | Call i c :: p' =>
      match nth i regs None with
      | Some r => let hr := step h r c in memory_run (fst hr) (regs ++ [ok (snd hr)]) p'
      | None => memory_run h (regs ++ [None]) p'
      end
    | Show i :: p' =>
      match nth i regs None with
      | Some r => let hv := show h r in Some (snd hv) :: memory_run (fst hv) regs p'
      | None => None :: memory_run h regs p'
      end
    end.
End Memory.

(* The builders used by calls, in order. *)
Fixpoint receivers {N C} (p : list (cmd N C)) : list nat :=
  match p with
  | [] => []
  | Call i _ :: p' => i :: receivers p'
  | _ :: p' => receivers p'
  end.

(* How the runtime chooses capacities, for each element type. *)
Record growth := {
  g_joins : nat -> nat -> nat; g_orders : nat -> nat -> nat; g_withs : nat -> nat -> nat;
  g_cols : nat -> nat -> nat; g_exprs : nat -> nat -> nat }.

Definition go_growth : growth :=
  {| g_joins := doubling; g_orders := doubling; g_withs := doubling; g_cols := doubling; g_exprs := doubling |}.

(* ------------------------------------------------------------------------- *)
(* SELECT                                                                      *)
(* ------------------------------------------------------------------------- *)

(* The arrays behind the slices that Select extends in place. *)
Record sel_heap := { sh_joins : list (list join); sh_orders : list (list order); sh_withs : list (list withq) }.
Definition empty_sel_heap : sel_heap := {| sh_joins := []; sh_orders := []; sh_withs := [] |}.

(* builder/select.go:12-14, stmt/select.go:15-31: the struct. [sr_rest] has the fields that are
   replaced as a whole and never written through; its three list fields are unused (empty). *)
Record sel_ref := { sr_rest : select; sr_joins : slice; sr_orders : slice; sr_withs : slice }.

Definition with_shared (q : select) (js : list join) (os : list order) (ws : list withq) : select :=
  with_with (with_order_by (with_joins q js) os) ws.

(* The statement that the writer sees. *)
Definition sel_view (h : sel_heap) (b : sel_ref) : select :=
  with_shared (sr_rest b) (view (sh_joins h) (sr_joins b)) (view (sh_orders h) (sr_orders b))
              (view (sh_withs h) (sr_withs b)).

(* The join checked before the append, builder/select.go:67-129 *)
Definition join_value (args : list gval) : res join :=
  do j <- match args with
          | [a0] => match a0 with
                    | GStr s => must_parse_join s
                    | GJoin j => Ok j
                    | _ => Panic (PCannotUse "join clause")
                    end
          | [a0; a1] => handle_join a0 a1
          | [a0; a1; a2] =>
            do j <- handle_join a0 a1;
            match a2 with
            | GJoinType t => Ok (set_type j t)
            | _ => Panic (PCannotUse "join clause")
            end
          | _ => Panic (PMsg "loukoum: given join clause is invalid")
          end;
  do b <- join_empty j;
  if b then Panic (undefined "join clause") else Ok j.

Definition zero_order : order := {| o_expr := ""; o_type := "" |}.
Definition zero_withq : withq := {| wq_name := ""; wq_sub := ENil |}.

(* builder/select.go:22-251 over the memory. The methods that are not listed assign fields of
   the copy only. *)
Definition sel_do (g : growth) (h : sel_heap) (b : sel_ref) (c : sel_call) : sel_heap * res sel_ref :=
  match c with
  (* 95, 110, 126: b.query.Joins = append(b.query.Joins, join) *)
  | SelJoin args =>
    match join_value args with
    | Ok j =>
      let a := append zero_join (g_joins g) (sh_joins h) (sr_joins b) [j] in
      ({| sh_joins := fst a; sh_orders := sh_orders h; sh_withs := sh_withs h |},
       Ok {| sr_rest := sr_rest b; sr_joins := snd a; sr_orders := sr_orders b; sr_withs := sr_withs b |})
    | Panic e => (h, Panic e)
    end
  (* 200: b.query.OrderBy.Orders = append(b.query.OrderBy.Orders, orders...) *)
  | SelOrderBy orders =>
    let a := append zero_order (g_orders g) (sh_orders h) (sr_orders b) orders in
    ({| sh_joins := sh_joins h; sh_orders := fst a; sh_withs := sh_withs h |},
     Ok {| sr_rest := sr_rest b; sr_joins := sr_joins b; sr_orders := snd a; sr_withs := sr_withs b |})
  (* 133-140: the first call keeps the slice of its arguments, the others append. *)
  | SelWith args =>
    let a := if (sl_len (sr_withs b) =? 0)%nat then make_slice (sh_withs h) args
             else append zero_withq (g_withs g) (sh_withs h) (sr_withs b) args in
    ({| sh_joins := sh_joins h; sh_orders := sh_orders h; sh_withs := fst a |},
     Ok {| sr_rest := sr_rest b; sr_joins := sr_joins b; sr_orders := sr_orders b; sr_withs := snd a |})
  | _ =>
    (h, do q <- sel_step (sr_rest b) c;
        Ok {| sr_rest := q; sr_joins := sr_joins b; sr_orders := sr_orders b; sr_withs := sr_withs b |})
  end.

(* loukoum.go:40-42, builder/select.go:17-19 *)
Definition sel_new (h : sel_heap) (args : list gval) : sel_heap * res sel_ref :=
  (h, do q <- lk_select args;
      Ok {| sr_rest := q; sr_joins := nil_slice; sr_orders := nil_slice; sr_withs := nil_slice |}).

Definition sel_cmd := cmd (list gval) sel_call.

(* Rendering a Select reads and writes nothing, stmt/select.go:46-106. *)
Definition sel_memory (g : growth) (p : list sel_cmd) : list (option select) :=
  memory_run sel_new (sel_do g) (fun h b => (h, sel_view h b)) empty_sel_heap [] p.
Definition sel_values (p : list sel_cmd) : list (option select) := value_run lk_select sel_step [] p.

(* The calls that append, and the part of the statement they append to. *)
Inductive part := Joins | Orders | Withs.
Definition adds (f : part) (c : sel_call) : bool :=
  match f, c with
  | Joins, SelJoin _ => true
  | Orders, SelOrderBy (_ :: _) => true
  | Withs, SelWith (_ :: _) => true
  | _, _ => false
  end.

(* Where the elements of one part of a builder come from: nothing was added yet, they are the
   arguments of one call, or they were last appended by command [k]. *)
Inductive origin := Never | Literal | Grown (k : nat).

(* [appends_once f p]: no two commands append to the same version of part [f]. Appending to an
   empty part, or to the arguments of one With, is always allowed. *)
Fixpoint once (f : part) (vers : list origin) (used : list nat) (p : list sel_cmd) : Prop :=
  match p with
  | [] => True
  | New _ :: p' => once f (vers ++ [Never]) used p'
  | Show _ :: p' => once f vers used p'
  | Call i c :: p' =>
    if adds f c then
      match nth i vers Never with
      | Never => once f (vers ++ [match f with Withs => Literal | _ => Grown (length vers) end]) used p'
      | Literal => once f (vers ++ [Grown (length vers)]) used p'
      | Grown k => ~ In k used /\ once f (vers ++ [Grown (length vers)]) (k :: used) p'
      end
    else once f (vers ++ [nth i vers Never]) used p'
  end.
Definition appends_once (f : part) (p : list sel_cmd) : Prop := once f [] [] p.

(* ------------------------------------------------------------------------- *)
(* UPDATE                                                                      *)
(* ------------------------------------------------------------------------- *)

Record upd_heap := {
  uh_maps : list (list (column * expr)); uh_cols : list (list column); uh_exprs : list (list expr);
  uh_withs : list (list withq) }.
Definition empty_upd_heap : upd_heap := {| uh_maps := []; uh_cols := []; uh_exprs := []; uh_withs := [] |}.

(* stmt/set.go:50-55 PairContainer: a reference to a map and two slices *)
Record pairs_ref := { pr_mode : pmode; pr_map : nat; pr_cols : slice; pr_exprs : slice }.

(* builder/update.go:9-11, stmt/update.go:10-19 *)
Record upd_ref := { ur_rest : update; ur_set : pairs_ref; ur_withs : slice }.

Definition pairs_view (h : upd_heap) (p : pairs_ref) : pairs :=
  {| p_mode := pr_mode p; p_map := nth (pr_map p) (uh_maps h) [];
     p_cols := view (uh_cols h) (pr_cols p); p_exprs := view (uh_exprs h) (pr_exprs p) |}.

Definition upd_view (h : upd_heap) (b : upd_ref) : update :=
  upd_with_with (upd_with_set (ur_rest b) (pairs_view h (ur_set b))) (view (uh_withs h) (ur_withs b)).

Definition zero_column : column := {| c_name := ""; c_alias := "" |}.

Definition set_maps (h : upd_heap) v := {| uh_maps := v; uh_cols := uh_cols h; uh_exprs := uh_exprs h; uh_withs := uh_withs h |}.
Definition set_cols (h : upd_heap) v := {| uh_maps := uh_maps h; uh_cols := v; uh_exprs := uh_exprs h; uh_withs := uh_withs h |}.
Definition set_exprs (h : upd_heap) v := {| uh_maps := uh_maps h; uh_cols := uh_cols h; uh_exprs := v; uh_withs := uh_withs h |}.
Definition set_withs (h : upd_heap) v := {| uh_maps := uh_maps h; uh_cols := uh_cols h; uh_exprs := uh_exprs h; uh_withs := v |}.

Section UpdateMemory.
  Context {O : Oracle} (g : growth).

  (* stmt/set.go:74-88 Add *)
  Definition ref_add (h : upd_heap) (p : pairs_ref) (c : column) (e : expr) : upd_heap * res pairs_ref :=
    let mode := match pr_mode p with PUnknown => PAssoc | m => m end in
    match mode with
    | PAssoc =>
      let m := nth (pr_map p) (uh_maps h) [] in
      let a := match pm_get c m with
               | Some _ => (uh_cols h, pr_cols p)
               | None => append zero_column (g_cols g) (uh_cols h) (pr_cols p) [c]
               end in
      (set_maps (set_cols h (fst a)) (store (uh_maps h) (pr_map p) (pm_set c e m)),
       Ok {| pr_mode := mode; pr_map := pr_map p; pr_cols := snd a; pr_exprs := pr_exprs p |})
    | _ => (h, Panic mix_panic)
    end.

  (* stmt/set.go:98-107 Set *)
  Definition ref_set (h : upd_heap) (p : pairs_ref) (c : column) : upd_heap * res pairs_ref :=
    let mode := match pr_mode p with PUnknown => PArray | m => m end in
    match mode with
    | PArray =>
      let a := append zero_column (g_cols g) (uh_cols h) (pr_cols p) [c] in
      (set_cols h (fst a), Ok {| pr_mode := mode; pr_map := pr_map p; pr_cols := snd a; pr_exprs := pr_exprs p |})
    | _ => (h, Panic mix_panic)
    end.

  (* stmt/set.go:117-123 Use *)
  Definition ref_use (h : upd_heap) (p : pairs_ref) (e : expr) : upd_heap * res pairs_ref :=
    match pr_mode p with
    | PArray =>
      let a := append ENil (g_exprs g) (uh_exprs h) (pr_exprs p) [e] in
      (set_exprs h (fst a),
       Ok {| pr_mode := pr_mode p; pr_map := pr_map p; pr_cols := pr_cols p; pr_exprs := snd a |})
    | _ => (h, Panic (PMsg "loukoum: you have to define pairs columns first"))
    end.

  (* A loop whose body changes the memory; what was written before a panic stays. *)
  Fixpoint ref_loop {B} (f : upd_heap -> pairs_ref -> B -> upd_heap * res pairs_ref) (l : list B)
    (h : upd_heap) (p : pairs_ref) : upd_heap * res pairs_ref :=
    match l with
    | [] => (h, Ok p)
    | x :: l' => match f h p x with
                 | (h', Ok p') => ref_loop f l' h' p'
                 | (h', Panic e) => (h', Panic e)
                 end
    end.

  (* builder/builder.go:335, 339, 342 *)
  Definition ref_pair (h : upd_heap) (p : pairs_ref) (kv : gval * gval) : upd_heap * res pairs_ref :=
    match to_column (fst kv) with
    | Ok c => match new_expression (snd kv) with
              | Ok e => ref_add h p c (new_wrapper e)
              | Panic e => (h, Panic e)
              end
    | Panic e => (h, Panic e)
    end.

  (* builder/builder.go:325-347 MergeSet *)
  Definition ref_arg (h : upd_heap) (p : pairs_ref) (a : gval) : upd_heap * res pairs_ref :=
    match a with
    | GStr _ | GColumn _ =>
      match to_columns [a] with
      | Ok cols => ref_loop ref_set cols h p
      | Panic e => (h, Panic e)
      end
    | GMapAny l => ref_loop ref_pair (map (fun kv => (GStr (fst kv), snd kv)) l) h p
    | GMap l => ref_loop ref_pair l h p
    | GPair k v => ref_pair h p (k, v)
    | _ => (h, Panic (PCannotUse "pair"))
    end.

  (* builder/update.go:47-49 *)
  Definition ref_using (h : upd_heap) (p : pairs_ref) (a : gval) : upd_heap * res pairs_ref :=
    match new_expression a with
    | Ok e => ref_use h p e
    | Panic e => (h, Panic e)
    end.

  Definition upd_ref_set (b : upd_ref) (p : pairs_ref) : upd_ref :=
    {| ur_rest := ur_rest b; ur_set := p; ur_withs := ur_withs b |}.

  Definition map_ok {A B} (f : A -> B) (r : res A) : res B :=
    match r with Ok a => Ok (f a) | Panic e => Panic e end.

  (* builder/update.go:21-114 over the memory *)
  Definition upd_do (h : upd_heap) (b : upd_ref) (c : upd_call) : upd_heap * res upd_ref :=
    match c with
    | UpdSet [] => (h, Panic (PMsg "loukoum: update set clause requires at least one argument"))
    | UpdSet args =>
      let r := ref_loop ref_arg args h (ur_set b) in (fst r, map_ok (upd_ref_set b) (snd r))
    | UpdUsing args =>
      match pr_mode (ur_set b) with
      | PArray =>
        match args with
        | [] => (h, Panic (PMsg "loukoum: using clause requires a column or an expression"))
        | _ => let r := ref_loop ref_using args h (ur_set b) in (fst r, map_ok (upd_ref_set b) (snd r))
        end
      | _ => (h, Panic (PMsg "loukoum: you can only use Using with column-list syntax"))
      end
    | UpdWith args =>
      let a := if (sl_len (ur_withs b) =? 0)%nat then make_slice (uh_withs h) args
               else append zero_withq (g_withs g) (uh_withs h) (ur_withs b) args in
      (set_withs h (fst a), Ok {| ur_rest := ur_rest b; ur_set := ur_set b; ur_withs := snd a |})
    | _ =>
      (h, do u <- upd_step (ur_rest b) c; Ok {| ur_rest := u; ur_set := ur_set b; ur_withs := ur_withs b |})
    end.

  (* loukoum.go:154-156, builder/update.go:14-18, stmt/set.go:58-65: a new map, two empty slices *)
  Definition upd_new (h : upd_heap) (a : gval) : upd_heap * res upd_ref :=
    (set_maps h (uh_maps h ++ [[]]),
     do u <- lk_update a;
     Ok {| ur_rest := u;
           ur_set := {| pr_mode := PUnknown; pr_map := length (uh_maps h); pr_cols := nil_slice; pr_exprs := nil_slice |};
           ur_withs := nil_slice |}).

  (* stmt/set.go:126-150: rendering sorts the slice of the columns in place. The statement is
     the one that is rendered. *)
  Definition upd_show (h : upd_heap) (b : upd_ref) : upd_heap * update :=
    (match pr_mode (ur_set b) with
     | PAssoc =>
       let s := pr_cols (ur_set b) in
       set_cols h (store (uh_cols h) (sl_ptr s)
                         (o_sort (view (uh_cols h) s) ++ skipn (sl_len s) (nth (sl_ptr s) (uh_cols h) [])))
     | _ => h
     end, upd_view h b).

  Definition upd_cmd := cmd gval upd_call.
  Definition upd_memory (p : list upd_cmd) : list (option update) :=
    memory_run upd_new upd_do upd_show empty_upd_heap [] p.
End UpdateMemory.
Definition upd_values (p : list upd_cmd) : list (option update) := value_run lk_update upd_step [] p.

(* The calls that write to memory shared with the receiver. *)
Definition writes_shared (c : upd_call) : bool :=
  match c with UpdSet _ | UpdUsing _ | UpdWith _ => true | _ => false end.

(* [separate p]: once Set, Using or With was called on a builder, that builder is not used any
   more, nor are the builders that were derived from it, or from which it was derived, by the
   other methods. [vers] numbers the groups of such builders, [dead] lists the abandoned ones. *)
Fixpoint separated (vers dead : list nat) (p : list upd_cmd) : Prop :=
  match p with
  | [] => True
  | New _ :: p' => separated (vers ++ [length vers]) dead p'
  | Show i :: p' =>
    match nth_error vers i with Some v => ~ In v dead | None => True end /\ separated vers dead p'
  | Call i c :: p' =>
    match nth_error vers i with
    | Some v => ~ In v dead
                /\ (if writes_shared c then separated (vers ++ [length vers]) (v :: dead) p'
                    else separated (vers ++ [v]) dead p')
    | None => separated (vers ++ [length vers]) dead p'
    end
  end.
Definition separate (p : list upd_cmd) : Prop := separated [] [] p.

(* [moved p]: a builder is not used any more after a call on it. *)
Fixpoint moved (done : list nat) (p : list upd_cmd) : Prop :=
  match p with
  | [] => True
  | New _ :: p' => moved done p'
  | Call i _ :: p' => ~ In i done /\ moved (i :: done) p'
  | Show i :: p' => ~ In i done /\ moved done p'
  end.

(* ------------------------------------------------------------------------- *)
(* INSERT and DELETE                                                           *)
(* ------------------------------------------------------------------------- *)

(* builder/insert.go and builder/delete.go assign fields of the copy only, with one exception:
   Insert.OnConflict appends to Target.Columns (builder/insert.go:89). That slice is nil when the
   call is allowed, unless an earlier OnConflict had an update action without assignments
   (stmt/conflict.go:42-44). Rendering also sorts the columns of an update action in place, and one
   action can be passed to several builders. InsForks.v has the memory of Insert builders; the
   methods of Delete are the pure steps of Build.v. *)
