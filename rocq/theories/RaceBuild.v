(* Goroutines that share Select builders and derive others from them with any calls. The arrays
   behind the slices are read and written one cell at a time, in any order of turns. *)
From Coq Require Import List Arith ZArith.
From Verif Require Import Ast Write Api Build Sort Mem Forks Race.
Import ListNotations.
Local Open Scope nat_scope.
Local Open Scope list_scope.

(* The writes of append: cs at index i and after. *)
Fixpoint p_writes {R} (r : region) (array i : nat) (cs : list cell) (k : prog R) : prog R :=
  match cs with
  | [] => k
  | c :: cs' => Wr {| l_region := r; l_array := array; l_index := i |} c (p_writes r array (S i) cs' k)
  end.

(* The copy that append makes when it allocates. *)
Fixpoint p_move {R} (r : region) (s : slice) (array i todo : nat) (k : prog R) : prog R :=
  match todo with
  | 0 => k
  | S n => Rd (at_ r s i) (fun c => Wr {| l_region := r; l_array := array; l_index := i |} c (p_move r s array (S i) n k))
  end.

(* append(s, xs...), as in Mem.v. A goroutine allocates the arrays [own 0], [own 1], ...; [n] of
   them are in use. *)
Definition p_append {R} (own : nat -> nat) (grow : nat -> nat -> nat) (r : region) (s : slice) (xs : list cell) (n : nat)
  (k : slice -> nat -> prog R) : prog R :=
  let len := sl_len s + length xs in
  if len <=? sl_cap s then
    p_writes r (sl_ptr s) (sl_len s) xs (k {| sl_ptr := sl_ptr s; sl_len := len; sl_cap := sl_cap s |} n)
  else
    p_move r s (own n) 0 (sl_len s)
      (p_writes r (own n) (sl_len s) xs
         (k {| sl_ptr := own n; sl_len := len; sl_cap := Nat.max len (grow (sl_cap s) len) |} (S n))).

(* The slice of the arguments f(x1, ..., xn). *)
Definition p_args {R} (own : nat -> nat) (r : region) (xs : list cell) (n : nat) (k : slice -> nat -> prog R) : prog R :=
  p_writes r (own n) 0 xs (k {| sl_ptr := own n; sl_len := length xs; sl_cap := length xs |} (S n)).

(* builder/select.go:22-251, as sel_do of Forks.v. *)
Definition p_call {R} (own : nat -> nat) (g : growth) (b : sel_ref) (n : nat) (c : sel_call) (k : res sel_ref -> nat -> prog R) : prog R :=
  match c with
  | SelJoin args =>
    match join_value args with
    | Ok j => p_append own (g_joins g) RJoins (sr_joins b) [CJoin j] n
                (fun s n' => k (Ok {| sr_rest := sr_rest b; sr_joins := s; sr_orders := sr_orders b; sr_withs := sr_withs b |}) n')
    | Panic e => k (Panic e) n
    end
  | SelOrderBy orders =>
    p_append own (g_orders g) ROrders (sr_orders b) (map COrder orders) n
      (fun s n' => k (Ok {| sr_rest := sr_rest b; sr_joins := sr_joins b; sr_orders := s; sr_withs := sr_withs b |}) n')
  | SelWith args =>
    (if sl_len (sr_withs b) =? 0 then p_args own RWiths (map CWith args) n
     else p_append own (g_withs g) RWiths (sr_withs b) (map CWith args) n)
      (fun s n' => k (Ok {| sr_rest := sr_rest b; sr_joins := sr_joins b; sr_orders := sr_orders b; sr_withs := s |}) n')
  | _ =>
    k (do q <- sel_step (sr_rest b) c;
       Ok {| sr_rest := q; sr_joins := sr_joins b; sr_orders := sr_orders b; sr_withs := sr_withs b |}) n
  end.

(* b.c1(...).c2(...) ... *)
Fixpoint p_calls {R} (own : nat -> nat) (g : growth) (b : sel_ref) (n : nat) (cs : list sel_call) (k : res sel_ref -> prog R) : prog R :=
  match cs with
  | [] => k (Ok b)
  | c :: cs' => p_call own g b n c (fun r n' => match r with Ok b' => p_calls own g b' n' cs' k | Panic e => k (Panic e) end)
  end.

(* A goroutine: the builder it starts from, its calls, the rendering, and its arrays. *)
Record worker := { w_base : sel_ref; w_calls : list sel_call; w_method : method; w_own : nat -> nat }.

(* A panic ends the goroutine. *)
Definition panicked (f : method) (e : panic) : answer :=
  match f with MQuery => AQuery (Panic e) | MNamedQuery => ANamed (Panic e) | MString => AString (Panic e) end.

(* go func() { base.c1(...).c2(...).Query() }() *)
Definition work {O : Oracle} (g : growth) (x : worker) : prog answer :=
  p_calls (w_own x) g (w_base x) 0 (w_calls x)
    (fun r => match r with Ok b => render (BSelect b) (w_method x) | Panic e => Ret (panicked (w_method x) e) end).

(* What it answers if builders are values. *)
Definition work_answer {O : Oracle} (m : memory) (x : worker) : answer :=
  match sel_run (m_select m (w_base x)) (w_calls x) with
  | Ok q => answers (StSelect q) (w_method x)
  | Panic e => panicked (w_method x) e
  end.

(* The number of elements of the first call that adds to a part. *)
Definition added (f : part) (c : sel_call) : nat :=
  match f, c with
  | Joins, SelJoin _ => 1
  | Orders, SelOrderBy l => length l
  | Withs, SelWith l => length l
  | _, _ => 0
  end.
Fixpoint first_added (f : part) (cs : list sel_call) : nat :=
  match cs with
  | [] => 0
  | c :: cs' => match added f c with 0 => first_added f cs' | n => n end
  end.

Definition part_slice (f : part) (b : sel_ref) : slice :=
  match f with Joins => sr_joins b | Orders => sr_orders b | Withs => sr_withs b end.
Definition part_region (f : part) : region := match f with Joins => RJoins | Orders => ROrders | Withs => RWiths end.

(* The first call that adds to the part finds room behind the elements, so it writes in the array of
   the base. An empty WITH clause is not appended to: the arguments are kept. *)
Definition in_place (f : part) (x : worker) : Prop :=
  let s := part_slice f (w_base x) in let n := first_added f (w_calls x) in
  0 < n /\ sl_len s + n <= sl_cap s /\ match f with Withs => 0 < sl_len s | _ => True end.
