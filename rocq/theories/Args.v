(* Programs that keep the slices they pass to builders. Some methods copy the slice, some keep
   it: the builder then shares an array with a variable of the caller. *)
From Coq Require Import String List Arith ZArith.
From Verif Require Import Ast Write Api Parser Build Sort Mem Forks.
Import ListNotations.
Local Open Scope list_scope.

(* ------------------------------------------------------------------------- *)
(* Variables of the caller                                                     *)
(* ------------------------------------------------------------------------- *)

Inductive var :=
| VColumns (l : list column)       (* []stmt.Column *)
| VItems (l : list selexpr)        (* []stmt.SelectExpression *)
| VNames (l : list string)         (* []string *)
| VAnys (l : list gval)            (* []interface{}, passed as vs... *)
| VOrders (l : list order)         (* []stmt.Order, passed as vs... *)
| VWiths (l : list withq).         (* []stmt.WithQuery, passed as vs... *)

Inductive elem :=
| XColumn (c : column) | XItem (e : selexpr) | XName (s : string) | XAny (g : gval)
| XOrder (o : order) | XWith (w : withq).

(* v[j] = x. An index out of range is a panic of the caller; the program goes on without the
   assignment. An element of another type does not compile. *)
Definition poke (v : var) (j : nat) (x : elem) : var :=
  match v, x with
  | VColumns l, XColumn y => VColumns (store l j y)
  | VItems l, XItem y => VItems (store l j y)
  | VNames l, XName y => VNames (store l j y)
  | VAnys l, XAny y => VAnys (store l j y)
  | VOrders l, XOrder y => VOrders (store l j y)
  | VWiths l, XWith y => VWiths (store l j y)
  | _, _ => v
  end.

(* The arguments of a method f(args ...interface{}) called as f(v), or f(v...) for []interface{}. *)
Definition as_args (v : var) : list gval :=
  match v with
  | VColumns l => [GColumns l]
  | VItems l => [GSels l]
  | VNames l => [GStrs l]
  | VAnys l => l
  | VOrders _ => [GOther "[]stmt.Order"]
  | VWiths _ => [GOther "[]stmt.WithQuery"]
  end.

(* ------------------------------------------------------------------------- *)
(* Programs                                                                    *)
(* ------------------------------------------------------------------------- *)

(* Builders and variables are numbered together, in the order in which they are obtained. *)
Inductive acmd (N C M : Type) :=
| ANew (a : N)                            (* r_n := loukoum.Select(a...) *)
| ACall (i : nat) (c : C)                 (* r_n := r_i.c(...), the arguments are written there *)
| APass (i : nat) (m : M) (k : nat)       (* r_n := r_i.m(r_k), or r_i.m(r_k...) *)
| AWith (i k : nat)                       (* r_n := r_i.With(r_k...) *)
| AMake (v : var) (spare : nat)           (* r_n := a new slice, with room for [spare] more *)
| AExtend (k : nat) (ws : list withq)     (* r_n := append(r_k, ws...) *)
| APut (k j : nat) (x : elem)             (* r_k[j] = x *)
| AShow (i : nat).                        (* print r_i: a builder's query or a slice *)
Arguments ANew {N C M}. Arguments ACall {N C M}. Arguments APass {N C M}. Arguments AWith {N C M}.
Arguments AMake {N C M}. Arguments AExtend {N C M}. Arguments APut {N C M}. Arguments AShow {N C M}.

(* What a program prints: nothing for a builder that does not exist because of a panic. *)
Inductive shown (V : Type) := Nothing | Built (q : V) | Held (v : var).
Arguments Nothing {V}. Arguments Built {V}. Arguments Held {V}.

Section Programs.
  Context {N V C M : Type}
    (new : N -> res V) (step : V -> C -> res V)
    (* the call m(v) *)
    (given : M -> var -> option C)
    (* the call With(ws...), and which calls are such *)
    (given_withs : list withq -> option C) (as_with : C -> option (list withq)).

  Definition built (r : res V) : shown V := match r with Ok q => Built q | Panic _ => Nothing end.

  (* Calls take the values that their arguments have at the time of the call: the meaning the
     API suggests. *)
  Fixpoint arg_values (regs : list (shown V)) (p : list (acmd N C M)) : list (shown V) :=
    match p with
    | [] => []
    | ANew a :: p' => arg_values (regs ++ [built (new a)]) p'
    | ACall i c :: p' =>
      arg_values (regs ++ [match nth i regs Nothing with Built q => built (step q c) | _ => Nothing end]) p'
    | APass i m k :: p' =>
      arg_values (regs ++ [match nth i regs Nothing, nth k regs Nothing with
                           | Built q, Held v => match given m v with
                                                | Some c => built (step q c)
                                                | None => Nothing
                                                end
                           | _, _ => Nothing
                           end]) p'
    | AWith i k :: p' =>
      arg_values (regs ++ [match nth i regs Nothing, nth k regs Nothing with
                           | Built q, Held (VWiths l) => match given_withs l with
                                                         | Some c => built (step q c)
                                                         | None => Nothing
                                                         end
                           | _, _ => Nothing
                           end]) p'
    | AMake v _ :: p' => arg_values (regs ++ [Held v]) p'
    | AExtend k ws :: p' =>
      arg_values (regs ++ [match nth k regs Nothing with
                           | Held (VWiths l) => Held (VWiths (l ++ ws))
                           | _ => Nothing
                           end]) p'
    | APut k j x :: p' =>
      arg_values (match nth k regs Nothing with
                  | Held v => store regs k (Held (poke v j x))
                  | _ => regs
                  end) p'
    | AShow i :: p' => nth i regs Nothing :: arg_values regs p'
    end.

  (* ----------------------------------------------------------------------- *)
  (* Memory                                                                    *)
  (* ----------------------------------------------------------------------- *)

  Context
    (* m(v) makes the builder keep the array of v, in the field that [put m] assigns *)
    (keeps : M -> var -> bool) (put : M -> V -> var -> V)
    (* the call assigns the field of m *)
    (clears : C -> M -> bool)
    (set_with : V -> list withq -> V).

  (* A builder: its fields, those among them that are arrays of variables of the caller, and the
     slice of its WITH queries. The arrays that the library allocates for the other fields are
     not written after the call that makes them, so they are values; the slices that Join,
     OrderBy, Set and Using extend are treated in Forks.v and are values here. *)
  Record bref := { br_rest : V; br_kept : list (M * nat); br_withs : slice }.

  (* A variable: no array of the first five types is extended by anyone, so a variable of these
     types stands for its array. The arrays of []WithQuery are in a heap. *)
  Inductive mreg := MNothing | MBuilt (b : bref) | MHeld (v : var) | MSlice (s : slice).

  (* The elements that are reached through a variable. *)
  Definition content (h : list (list withq)) (r : mreg) : option var :=
    match r with
    | MHeld v => Some v
    | MSlice s => Some (VWiths (view h s))
    | _ => None
    end.

  (* The statement that a method or the writer sees: the fields that are arrays of the caller
     have the elements these arrays have now. *)
  Definition resolve (h : list (list withq)) (regs : list mreg) (b : bref) : V :=
    set_with
      (fold_right (fun mk q => match content h (nth (snd mk) regs MNothing) with
                               | Some v => put (fst mk) q v
                               | None => q
                               end) (br_rest b) (br_kept b))
      (view h (br_withs b)).

  Definition show_reg (h : list (list withq)) (regs : list mreg) (r : mreg) : shown V :=
    match r with
    | MNothing => Nothing
    | MBuilt b => Built (resolve h regs b)
    | MHeld v => Held v
    | MSlice s => Held (VWiths (view h s))
    end.

  (* A method that assigns fields of the copy. [extra]: the field that now is an array of the
     caller. *)
  Definition ref_call (h : list (list withq)) (regs : list mreg) (b : bref) (c : C) (extra : list (M * nat)) : mreg :=
    match step (resolve h regs b) c with
    | Ok q => MBuilt {| br_rest := q;
                        br_kept := extra ++ filter (fun mk => negb (clears c (fst mk))) (br_kept b);
                        br_withs := br_withs b |}
    | Panic _ => MNothing
    end.

  Definition set_slice (b : bref) (s : slice) : mreg :=
    MBuilt {| br_rest := br_rest b; br_kept := br_kept b; br_withs := s |}.

  Context (g : growth).

  Definition extend (h : list (list withq)) (s : slice) (ws : list withq) : list (list withq) * slice :=
    append zero_withq (g_withs g) h s ws.

  (* A new array with room; an empty slice is nil. *)
  Definition alloc (h : list (list withq)) (ws : list withq) (spare : nat) : list (list withq) * slice :=
    match ws with
    | [] => (h, nil_slice)
    | _ => (h ++ [ws ++ repeat zero_withq spare],
            {| sl_ptr := length h; sl_len := length ws; sl_cap := length ws + spare |})
    end.

  Fixpoint arg_memory (h : list (list withq)) (regs : list mreg) (p : list (acmd N C M)) : list (shown V) :=
    match p with
    | [] => []
    | ANew a :: p' =>
      arg_memory h (regs ++ [match new a with
                             | Ok q => MBuilt {| br_rest := q; br_kept := []; br_withs := nil_slice |}
                             | Panic _ => MNothing
                             end]) p'
    | ACall i c :: p' =>
      match nth i regs MNothing with
      | MBuilt b =>
        match as_with c with
        (* builder/select.go:132-140, builder/update.go:55-63: the first call keeps the slice of
           its arguments, the others append *)
        | Some ws =>
          let a := if (sl_len (br_withs b) =? 0)%nat then make_slice h ws else extend h (br_withs b) ws in
          arg_memory (fst a) (regs ++ [set_slice b (snd a)]) p'
        | None => arg_memory h (regs ++ [ref_call h regs b c []]) p'
        end
      | _ => arg_memory h (regs ++ [MNothing]) p'
      end
    | APass i m k :: p' =>
      arg_memory h (regs ++ [match nth i regs MNothing, content h (nth k regs MNothing) with
                             | MBuilt b, Some v =>
                               match given m v with
                               | Some c => ref_call h regs b c (if keeps m v then [(m, k)] else [])
                               | None => MNothing
                               end
                             | _, _ => MNothing
                             end]) p'
    | AWith i k :: p' =>
      match nth i regs MNothing, nth k regs MNothing with
      | MBuilt b, MSlice s =>
        match given_withs [] with
        | Some _ =>
          (* the same two lines: the slice of the arguments is the caller's *)
          let a := if (sl_len (br_withs b) =? 0)%nat then (h, s) else extend h (br_withs b) (view h s) in
          arg_memory (fst a) (regs ++ [set_slice b (snd a)]) p'
        | None => arg_memory h (regs ++ [MNothing]) p'
        end
      | _, _ => arg_memory h (regs ++ [MNothing]) p'
      end
    | AMake v spare :: p' =>
      match v with
      | VWiths ws => let a := alloc h ws spare in arg_memory (fst a) (regs ++ [MSlice (snd a)]) p'
      | _ => arg_memory h (regs ++ [MHeld v]) p'
      end
    | AExtend k ws :: p' =>
      match nth k regs MNothing with
      | MSlice s => let a := extend h s ws in arg_memory (fst a) (regs ++ [MSlice (snd a)]) p'
      | _ => arg_memory h (regs ++ [MNothing]) p'
      end
    | APut k j x :: p' =>
      match nth k regs MNothing, x with
      | MSlice s, XWith w =>
        arg_memory (if (j <? sl_len s)%nat then store h (sl_ptr s) (store (nth (sl_ptr s) h []) j w) else h) regs p'
      | MHeld v, _ => arg_memory h (store regs k (MHeld (poke v j x))) p'
      | _, _ => arg_memory h regs p'
      end
    | AShow i :: p' => show_reg h regs (nth i regs MNothing) :: arg_memory h regs p'
    end.

  (* ----------------------------------------------------------------------- *)
  (* Care                                                                      *)
  (* ----------------------------------------------------------------------- *)

  (* [careful p]: no element of a slice is assigned once a builder keeps it, and no two commands
     append to the same version of a slice of WITH queries. [vars] has the variables as they
     were made, [vers] the versions of WITH queries as in Forks.v, [used] the versions that were
     extended, [kept] the variables that must not be assigned any more. *)
  Fixpoint careful_from (vars : list (option var)) (vers : list origin) (used kept : list nat)
    (p : list (acmd N C M)) : Prop :=
    let n := length vers in
    match p with
    | [] => True
    | ANew _ :: p' => careful_from (vars ++ [None]) (vers ++ [Never]) used kept p'
    | ACall i c :: p' =>
      match as_with c with
      | Some (_ :: _) =>
        match nth i vers Never with
        | Never => careful_from (vars ++ [None]) (vers ++ [Literal]) used kept p'
        | Literal => careful_from (vars ++ [None]) (vers ++ [Grown n]) used kept p'
        | Grown v => ~ In v used /\ careful_from (vars ++ [None]) (vers ++ [Grown n]) (v :: used) kept p'
        end
      | _ => careful_from (vars ++ [None]) (vers ++ [nth i vers Never]) used kept p'
      end
    | APass i m k :: p' =>
      careful_from (vars ++ [None]) (vers ++ [nth i vers Never]) used
        (match nth k vars None with Some v => if keeps m v then k :: kept else kept | None => kept end) p'
    | AWith i k :: p' =>
      match nth k vars None with
      | Some (VWiths (_ :: _)) =>
        match nth i vers Never with
        | Never => careful_from (vars ++ [None]) (vers ++ [nth k vers Never]) used (k :: kept) p'
        | Literal => careful_from (vars ++ [None]) (vers ++ [Grown n]) used kept p'
        | Grown v => ~ In v used /\ careful_from (vars ++ [None]) (vers ++ [Grown n]) (v :: used) kept p'
        end
      | _ => careful_from (vars ++ [None]) (vers ++ [nth i vers Never]) used kept p'
      end
    | AMake v _ :: p' =>
      careful_from (vars ++ [Some v]) (vers ++ [match v with VWiths (_ :: _) => Grown n | _ => Never end]) used kept p'
    | AExtend k ws :: p' =>
      match nth k vars None, ws with
      | Some (VWiths l), _ :: _ =>
        match nth k vers Never with
        | Grown v => ~ In v used
                     /\ careful_from (vars ++ [Some (VWiths (l ++ ws))]) (vers ++ [Grown n]) (v :: used) (k :: n :: kept) p'
        | _ => careful_from (vars ++ [Some (VWiths (l ++ ws))]) (vers ++ [Grown n]) used (k :: n :: kept) p'
        end
      | Some (VWiths l), [] =>
        careful_from (vars ++ [Some (VWiths l)]) (vers ++ [nth k vers Never]) used (k :: n :: kept) p'
      | _, _ => careful_from (vars ++ [None]) (vers ++ [Never]) used kept p'
      end
    | APut k _ _ :: p' => ~ In k kept /\ careful_from vars vers used kept p'
    | AShow _ :: p' => careful_from vars vers used kept p'
    end.
End Programs.

(* ------------------------------------------------------------------------- *)
(* SELECT                                                                      *)
(* ------------------------------------------------------------------------- *)

Inductive sel_method := SMDistinctOn | SMColumns | SMFrom | SMJoin | SMGroupBy | SMOrderBy.

Definition sel_given (m : sel_method) (v : var) : option sel_call :=
  match m with
  | SMDistinctOn => Some (SelDistinctOn (as_args v))
  | SMColumns => Some (SelColumns (as_args v))
  | SMFrom => Some (SelFrom (as_args v))
  | SMJoin => Some (SelJoin (as_args v))
  | SMGroupBy => Some (SelGroupBy (as_args v))
  | SMOrderBy => match v with VOrders l => Some (SelOrderBy l) | _ => None end
  end.
Definition sel_given_withs (l : list withq) : option sel_call := Some (SelWith l).
Definition sel_as_with (c : sel_call) : option (list withq) := match c with SelWith l => Some l | _ => None end.

(* builder/builder.go:77-83 ToColumns and 124-125 ToSelectExpressions return the slice they are
   given; stmt/distinct_on.go:14-18, stmt/groupby.go:14-18 and builder/select.go:50 keep it. The
   append in builder/select.go:200 copies the orders. *)
Definition sel_keeps (m : sel_method) (v : var) : bool :=
  match m, v with
  | SMDistinctOn, VColumns _ | SMGroupBy, VColumns _ | SMColumns, VItems _ => true
  | _, _ => false
  end.
Definition sel_put (m : sel_method) (q : select) (v : var) : select :=
  match m, v with
  | SMDistinctOn, VColumns l => with_distinct_on q l
  | SMGroupBy, VColumns l => with_group_by q l
  | SMColumns, VItems l => with_exprs q l
  | _, _ => q
  end.
Definition sel_clears (c : sel_call) (m : sel_method) : bool :=
  match c, m with
  | SelDistinctOn _, SMDistinctOn | SelGroupBy _, SMGroupBy | SelColumns _, SMColumns => true
  | _, _ => false
  end.

Definition sel_acmd := acmd (list gval) sel_call sel_method.
Definition sel_arg_values (p : list sel_acmd) : list (shown select) :=
  arg_values lk_select sel_step sel_given sel_given_withs [] p.
Definition sel_arg_memory (g : growth) (p : list sel_acmd) : list (shown select) :=
  arg_memory lk_select sel_step sel_given sel_given_withs sel_as_with sel_keeps sel_put sel_clears with_with g [] [] p.
Definition sel_careful (p : list sel_acmd) : Prop := careful_from sel_as_with sel_keeps [] [] [] [] p.

(* ------------------------------------------------------------------------- *)
(* INSERT                                                                      *)
(* ------------------------------------------------------------------------- *)

Inductive ins_method := IMColumns | IMValues | IMReturning | IMOnConflict | IMSet.

Definition ins_given (m : ins_method) (v : var) : option ins_call :=
  match m with
  | IMColumns => Some (InsColumns (as_args v))
  | IMValues => Some (InsValues (as_args v))
  | IMReturning => Some (InsReturning (as_args v))
  | IMOnConflict => Some (InsOnConflict (as_args v))
  | IMSet => Some (InsSet (as_args v))
  end.

(* builder/insert.go:42, 64; stmt/returning.go:14-18 *)
Definition ins_keeps (m : ins_method) (v : var) : bool :=
  match m, v with
  | IMColumns, VColumns _ | IMReturning, VItems _ => true
  | _, _ => false
  end.
Definition ins_put (m : ins_method) (i : insert) (v : var) : insert :=
  match m, v with
  | IMColumns, VColumns l => ins_with_columns i l
  | IMReturning, VItems l => ins_with_returning i l
  | _, _ => i
  end.
(* Columns() without argument returns at once, builder/insert.go:35-37. *)
Definition ins_clears (c : ins_call) (m : ins_method) : bool :=
  match c, m with
  | InsColumns (_ :: _), IMColumns | InsSet _, IMColumns | InsReturning _, IMReturning => true
  | _, _ => false
  end.

Definition ins_acmd := acmd gval ins_call ins_method.
Definition ins_arg_values {O : Oracle} (p : list ins_acmd) : list (shown insert) :=
  arg_values lk_insert ins_step ins_given (fun _ => None) [] p.
Definition ins_arg_memory {O : Oracle} (g : growth) (p : list ins_acmd) : list (shown insert) :=
  arg_memory lk_insert ins_step ins_given (fun _ => None) (fun _ => None) ins_keeps ins_put ins_clears
    (fun i _ => i) g [] [] p.
Definition ins_careful (p : list ins_acmd) : Prop :=
  careful_from (fun _ => None) ins_keeps [] [] [] [] p.

(* ------------------------------------------------------------------------- *)
(* UPDATE                                                                      *)
(* ------------------------------------------------------------------------- *)

Inductive upd_method := UMSet | UMUsing | UMReturning.

Definition upd_given (m : upd_method) (v : var) : option upd_call :=
  match m with
  | UMSet => Some (UpdSet (as_args v))
  | UMUsing => Some (UpdUsing (as_args v))
  | UMReturning => Some (UpdReturning (as_args v))
  end.
Definition upd_given_withs (l : list withq) : option upd_call := Some (UpdWith l).
Definition upd_as_with (c : upd_call) : option (list withq) := match c with UpdWith l => Some l | _ => None end.

(* builder/update.go:104 *)
Definition upd_keeps (m : upd_method) (v : var) : bool :=
  match m, v with UMReturning, VItems _ => true | _, _ => false end.
Definition upd_put (m : upd_method) (u : update) (v : var) : update :=
  match m, v with UMReturning, VItems l => upd_with_returning u l | _, _ => u end.
Definition upd_clears (c : upd_call) (m : upd_method) : bool :=
  match c, m with UpdReturning _, UMReturning => true | _, _ => false end.

Definition upd_acmd := acmd gval upd_call upd_method.
Definition upd_arg_values (p : list upd_acmd) : list (shown update) :=
  arg_values lk_update upd_step upd_given upd_given_withs [] p.
Definition upd_arg_memory (g : growth) (p : list upd_acmd) : list (shown update) :=
  arg_memory lk_update upd_step upd_given upd_given_withs upd_as_with upd_keeps upd_put upd_clears upd_with_with g [] [] p.
Definition upd_careful (p : list upd_acmd) : Prop := careful_from upd_as_with upd_keeps [] [] [] [] p.

(* ------------------------------------------------------------------------- *)
(* DELETE                                                                      *)
(* ------------------------------------------------------------------------- *)

Inductive del_method := DMFrom | DMUsing | DMReturning.

Definition del_given (m : del_method) (v : var) : option del_call :=
  match m with
  | DMFrom => Some (DelFrom (as_args v))
  | DMUsing => Some (DelUsing (as_args v))
  | DMReturning => Some (DelReturning (as_args v))
  end.

(* builder/delete.go:69 *)
Definition del_keeps (m : del_method) (v : var) : bool :=
  match m, v with DMReturning, VItems _ => true | _, _ => false end.
Definition del_put (m : del_method) (d : delete) (v : var) : delete :=
  match m, v with DMReturning, VItems l => del_with_returning d l | _, _ => d end.
Definition del_clears (c : del_call) (m : del_method) : bool :=
  match c, m with DelReturning _, DMReturning => true | _, _ => false end.

Definition del_acmd := acmd gval del_call del_method.
Definition del_arg_values (p : list del_acmd) : list (shown delete) :=
  arg_values lk_delete del_step del_given (fun _ => None) [] p.
Definition del_arg_memory (g : growth) (p : list del_acmd) : list (shown delete) :=
  arg_memory lk_delete del_step del_given (fun _ => None) (fun _ => None) del_keeps del_put del_clears
    (fun d _ => d) g [] [] p.
Definition del_careful (p : list del_acmd) : Prop := careful_from (fun _ => None) del_keeps [] [] [] [] p.
