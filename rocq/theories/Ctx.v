(* The rendering contexts of types/context.go.

   types.Context has two methods, Write and Bind, neither of which returns anything: a
   statement cannot observe the context it writes to. Writing a statement is therefore
   modelled as the list of operations it performs, and each context as a fold over that
   list. *)
From Verif Require Export Format.

(* types/context.go:11-14 Context *)
Inductive op :=
| W (s : string)      (* ctx.Write(s) *)
| B (v : gval).       (* ctx.Bind(v) *)

Definition trace := list op.

(* types/context.go:62-77 StdContext: buffer and values. *)
Record std_ctx := { std_buf : string; std_vals : list gval }.

Definition std_init : std_ctx := {| std_buf := ""; std_vals := [] |}.

Definition std_step (c : std_ctx) (o : op) : std_ctx :=
  match o with
  | W s => {| std_buf := std_buf c ++ s; std_vals := std_vals c |}
  | B v => {| std_buf := std_buf c ++ "$" ++ string_of_nat (length (std_vals c) + 1);
              std_vals := (std_vals c ++ [v])%list |}
  end.

Definition run_std (t : trace) : string * list gval :=
  let c := fold_left std_step t std_init in (std_buf c, std_vals c).

(* Assignment m[k] = v in a Go map with string keys. *)
Fixpoint map_set {V} (k : string) (v : V) (m : list (string * V)) : list (string * V) :=
  match m with
  | [] => [(k, v)]
  | (k', v') :: m' => if String.eqb k k' then (k, v) :: m' else (k', v') :: map_set k v m'
  end.

Fixpoint map_get {V} (k : string) (m : list (string * V)) : option V :=
  match m with
  | [] => None
  | (k', v') :: m' => if String.eqb k k' then Some v' else map_get k m'
  end.

(* types/context.go:40-59 NamedContext *)
Record named_ctx := { named_buf : string; named_vals : list (string * gval) }.

Definition named_init : named_ctx := {| named_buf := ""; named_vals := [] |}.

Definition arg_name (idx : nat) : string := "arg_" ++ string_of_nat idx.

Definition named_step (c : named_ctx) (o : op) : named_ctx :=
  match o with
  | W s => {| named_buf := named_buf c ++ s; named_vals := named_vals c |}
  | B v =>
    let name := arg_name (length (named_vals c) + 1) in
    {| named_buf := named_buf c ++ ":" ++ name; named_vals := map_set name v (named_vals c) |}
  end.

Definition run_named (t : trace) : string * list (string * gval) :=
  let c := fold_left named_step t named_init in (named_buf c, named_vals c).

Section Raw.
  Context {O : Oracle}.

  (* types/context.go:17-37 RawContext *)
  Fixpoint run_raw_from (buf : string) (t : trace) : res string :=
    match t with
    | [] => Ok buf
    | W s :: t' => run_raw_from (buf ++ s) t'
    | B v :: t' => do s <- format_value v; run_raw_from (buf ++ s) t'
    end.

  Definition run_raw (t : trace) : res string := run_raw_from "" t.
End Raw.
