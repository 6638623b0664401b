(* Goroutines that render builders at the same time. Rendering is a program that reads, and for
   a SET clause also writes, the cells of the arrays behind the slices of the builder; the
   goroutines take turns in any order, one access at a time. *)
From Coq Require Import String List Arith ZArith.
From Verif Require Import Ast Write Api Build Sort Mem Forks.
Import ListNotations.
Local Open Scope list_scope.

(* ------------------------------------------------------------------------- *)
(* Memory and programs                                                         *)
(* ------------------------------------------------------------------------- *)

(* The element type of an array; a map is an array with one cell. *)
Inductive region := RJoins | ROrders | RWiths | RMaps | RCols | RExprs.
Record loc := { l_region : region; l_array : nat; l_index : nat }.

Inductive cell :=
| CJoin (j : join) | COrder (o : order) | CWith (q : withq) | CMap (m : list (column * expr))
| CCol (c : column) | CExpr (e : expr).

(* The value of a cell of each type. *)
Definition as_join (c : cell) : join := match c with CJoin j => j | _ => zero_join end.
Definition as_order (c : cell) : order := match c with COrder o => o | _ => zero_order end.
Definition as_with (c : cell) : withq := match c with CWith q => q | _ => zero_withq end.
Definition as_map (c : cell) : list (column * expr) := match c with CMap m => m | _ => [] end.
Definition as_col (c : cell) : column := match c with CCol x => x | _ => zero_column end.
Definition as_expr (c : cell) : expr := match c with CExpr e => e | _ => ENil end.

Definition memory := loc -> cell.

Definition loc_dec (a b : loc) : {a = b} + {a <> b}.
Proof. decide equality; try apply Nat.eq_dec. decide equality. Defined.

Definition write (m : memory) (l : loc) (c : cell) : memory := fun l' => if loc_dec l' l then c else m l'.

(* What a goroutine does until it returns a value of type R. An access is atomic: the tearing
   of multi-word values in a data race is left out. *)
Inductive prog (R : Type) :=
| Ret (r : R)
| Rd (l : loc) (k : cell -> prog R)
| Wr (l : loc) (c : cell) (k : prog R).
Arguments Ret {R} r. Arguments Rd {R} l k. Arguments Wr {R} l c k.

Fixpoint pbind {A B} (p : prog A) (f : A -> prog B) : prog B :=
  match p with
  | Ret a => f a
  | Rd l k => Rd l (fun c => pbind (k c) f)
  | Wr l c k => Wr l c (pbind k f)
  end.

(* The program alone. *)
Fixpoint solo {R} (m : memory) (p : prog R) : memory * R :=
  match p with
  | Ret r => (m, r)
  | Rd l k => solo m (k (m l))
  | Wr l c k => solo (write m l c) k
  end.

(* One access of goroutine i; nothing when it has returned. *)
Definition advance {R} (i : nat) (s : memory * list (prog R)) : memory * list (prog R) :=
  match nth_error (snd s) i with
  | Some (Rd l k) => (fst s, store (snd s) i (k (fst s l)))
  | Some (Wr l c k) => (write (fst s) l c, store (snd s) i k)
  | _ => s
  end.

(* A schedule says which goroutine moves next. *)
Definition interleave {R} (sched : list nat) (s : memory * list (prog R)) : memory * list (prog R) :=
  fold_left (fun s i => advance i s) sched s.

(* ------------------------------------------------------------------------- *)
(* Rendering                                                                   *)
(* ------------------------------------------------------------------------- *)

Definition at_ (r : region) (s : slice) (i : nat) : loc := {| l_region := r; l_array := sl_ptr s; l_index := i |}.

(* builder/insert.go:9-11, stmt/insert.go:9-16: [ir_set] is the SET clause of a DO UPDATE
   action; the pairs in [ir_rest] are unused. *)
Record ins_ref := { ir_rest : insert; ir_set : pairs_ref }.

(* The statements that builders hold in a memory. *)
Definition cells (m : memory) (r : region) (s : slice) : list cell := map (fun i => m (at_ r s i)) (seq 0 (sl_len s)).

Definition m_select (m : memory) (b : sel_ref) : select :=
  with_shared (sr_rest b) (map as_join (cells m RJoins (sr_joins b))) (map as_order (cells m ROrders (sr_orders b)))
              (map as_with (cells m RWiths (sr_withs b))).

Definition map_loc (p : pairs_ref) : loc := {| l_region := RMaps; l_array := pr_map p; l_index := 0 |}.

Definition m_pairs (m : memory) (p : pairs_ref) : pairs :=
  {| p_mode := pr_mode p; p_map := as_map (m (map_loc p)); p_cols := map as_col (cells m RCols (pr_cols p));
     p_exprs := map as_expr (cells m RExprs (pr_exprs p)) |}.

Definition m_update (m : memory) (b : upd_ref) : update :=
  upd_with_with (upd_with_set (ur_rest b) (m_pairs m (ur_set b))) (map as_with (cells m RWiths (ur_withs b))).

Definition m_insert (m : memory) (b : ins_ref) : insert :=
  let i := ir_rest b in
  {| i_into := i_into i; i_columns := i_columns i; i_values := i_values i;
     i_conflict_target := i_conflict_target i;
     i_conflict_action := match i_conflict_action i with
                          | Some (ActUpdate _) => Some (ActUpdate (m_pairs m (ir_set b)))
                          | a => a
                          end;
     i_returning := i_returning i; i_comment := i_comment i |}.

(* a; b, where a panic in a ends the goroutine's rendering *)
Definition p_cat (a b : prog tr) : prog tr :=
  pbind a (fun x => match x with
                    | Ok _ => pbind b (fun y => Ret (x +++ y))
                    | Panic e => Ret (Panic e)
                    end).
Infix ">>>" := p_cat (at level 62, right associativity).

(* for i := range s { ctx.Write(pre); s[i].Write(ctx) } *)
Fixpoint p_loop (pre : nat -> tr) (f : cell -> tr) (locs : nat -> loc) (i n : nat) : prog tr :=
  match n with
  | 0 => Ret eps
  | S n' => Rd (locs i) (fun c => Ret (pre i +++ f c) >>> p_loop pre f locs (S i) n')
  end.

(* if i != 0 { ctx.Write(", ") } *)
Definition comma (i : nat) : tr := match i with 0 => eps | S _ => w ", " end.

Definition p_list (f : cell -> tr) (r : region) (s : slice) : prog tr := p_loop comma f (at_ r s) 0 (sl_len s).

Section Render.
  Context {O : Oracle}.

  (* stmt/with.go:21-33, with the space that stmt/select.go:55-58 and stmt/update.go:34-37 add *)
  Definition p_with (s : slice) : prog tr :=
    match sl_len s with
    | 0 => Ret eps
    | _ => Ret (w "WITH ") >>> p_list (fun c => write_withq write_expr (as_with c)) RWiths s >>> Ret (w " ")
    end.

  (* stmt/select.go:39-135 *)
  Definition p_select (b : sel_ref) : prog tr :=
    let q := sr_rest b in
    if nonempty (s_exprs q) then
      Ret (when (negb (no_str (s_prefix q))) (w (s_prefix q) +++ w " "))
      >>> p_with (sr_withs b)
      >>> Ret (w "SELECT"
               +++ when (nonempty (s_distinct_on q)) (w " " +++ write_distinct_on (s_distinct_on q))
               +++ when (s_distinct q) (w " DISTINCT")
               +++ when (nonempty (s_exprs q)) (w " ")
               +++ sep_by ", " (map (write_selexpr write_expr) (s_exprs q))
               +++ when (nonempty (s_from q)) (w " " +++ write_from (s_from q)))
      >>> p_loop (fun _ => w " ") (fun c => write_join write_expr (as_join c)) (at_ RJoins (sr_joins b)) 0 (sl_len (sr_joins b))
      >>> Ret (unless (cond_empty (s_where q)) (w " " +++ write_where write_expr (s_where q))
               +++ when (nonempty (s_group_by q)) (w " " +++ write_group_by (s_group_by q))
               +++ unless (cond_empty (s_having q)) (w " " +++ write_having write_expr (s_having q)))
      >>> match sl_len (sr_orders b) with
          | 0 => Ret eps
          | _ => Ret (w " " +++ w "ORDER BY ") >>> p_list (fun c => write_order (as_order c)) ROrders (sr_orders b)
          end
      >>> Ret (when (negb (s_limit q =? 0)%Z) (w " " +++ write_limit (s_limit q))
               +++ when (negb (s_offset q =? 0)%Z) (w " " +++ write_offset (s_offset q))
               +++ when (negb (no_str (s_suffix q))) (w " " +++ w (s_suffix q))
               +++ write_comment (s_comment q))
    else Ret (Panic (PMsg "loukoum: select statements must have at least one column")).

  (* Go 1.19 sort/zsortfunc.go insertionSort_func, the inner loop
     for j := i; j > a && data.Less(j, j-1); j-- { data.Swap(j, j-1) }
     with the less function of stmt/set.go:131-134, and reflect.Swapper: tmp = s[j]; s[j] = s[j-1];
     s[j-1] = tmp. The four string reads of less are two reads of a cell. *)
  Fixpoint p_sift {R} (s : slice) (j : nat) (k : prog R) : prog R :=
    match j with
    | 0 => k
    | S i =>
      Rd (at_ RCols s j) (fun a => Rd (at_ RCols s i) (fun b =>
        if col_less (as_col a) (as_col b) then
          Rd (at_ RCols s j) (fun tmp => Rd (at_ RCols s i) (fun x =>
            Wr (at_ RCols s j) x (Wr (at_ RCols s i) tmp (p_sift s i k))))
        else k))
    end.

  (* the outer loop: for i := a + 1; i < b; i++ *)
  Fixpoint p_sort {R} (s : slice) (i todo : nat) (k : prog R) : prog R :=
    match todo with
    | 0 => k
    | S n => p_sift s i (p_sort s (S i) n k)
    end.

  (* stmt/set.go:136-149: the loop of Values that copies columns and expressions, then the loop
     of WriteAssociative (stmt/set.go:168-178) over the copies *)
  Fixpoint p_values (p : pairs_ref) (i todo : nat) (done : list (column * expr)) : prog tr :=
    match todo with
    | 0 => Ret (sep_by ", " (map write_pair done))
    | S n =>
      Rd (at_ RCols (pr_cols p) i) (fun c => Rd (map_loc p) (fun m =>
        match pm_get (as_col c) (as_map m) with
        | Some e => p_values p (S i) n (done ++ [(as_col c, e)])
        | None => Ret (Panic (PMsg "loukoum: invalid state for stmt.PairContainer"))
        end))
    end.

  (* stmt/set.go:204-206 IsEmpty: reads the length of the map *)
  Definition p_empty {R} (p : pairs_ref) (k : bool -> prog R) : prog R :=
    Rd (map_loc p) (fun m =>
      k (match pr_mode p with
         | PUnknown => true
         | _ => negb (nonempty (as_map m)) && (sl_len (pr_exprs p) =? 0)%nat
         end)).

  (* stmt/set.go:23-27, 153-201 *)
  Definition p_set (p : pairs_ref) : prog tr :=
    Ret (w "SET ") >>>
    p_empty p (fun e =>
      if e then Ret (Panic (PMsg "loukoum: values for SET clause are required"))
      else match pr_mode p with
           | PAssoc => p_sort (pr_cols p) 1 (sl_len (pr_cols p) - 1) (p_values p 0 (sl_len (pr_cols p)) [])
           | PArray =>
             Ret (w "(") >>> p_list (fun c => write_column (as_col c)) RCols (pr_cols p)
             >>> Ret (w ")" +++ w " = " +++ w "(") >>> p_list (fun c => write_expr (as_expr c)) RExprs (pr_exprs p)
             >>> Ret (w ")")
           | PUnknown => Ret eps
           end).

  (* stmt/update.go:29-77 *)
  Definition p_update (b : upd_ref) : prog tr :=
    let u := ur_rest b in
    p_empty (ur_set b) (fun e =>
      if no_str (t_name (u_table u)) || e
      then Ret (Panic (PMsg "loukoum: an update statement must have a table and/or values"))
      else
        p_with (ur_withs b)
        >>> Ret (w "UPDATE" +++ when (u_only u) (w " ONLY") +++ w " " +++ write_table (u_table u) +++ w " ")
        >>> p_set (ur_set b)
        >>> Ret (when (nonempty (u_from u)) (w " " +++ write_from (u_from u))
                 +++ unless (cond_empty (u_where u)) (w " " +++ write_where write_expr (u_where u))
                 +++ when (nonempty (u_returning u)) (w " " +++ write_returning (u_returning u))
                 +++ write_comment (u_comment u))).

  (* stmt/conflict.go:23-39, 42-44 and the space of stmt/insert.go:52-55 *)
  Definition p_conflict (b : ins_ref) : prog tr :=
    let i := ir_rest b in
    match i_conflict_action i with
    | Some (ActUpdate _) =>
      p_empty (ir_set b) (fun e =>
        if e then Ret eps
        else Ret (w " " +++ w "ON CONFLICT " +++ when (nonempty (i_conflict_target i)) (write_target (i_conflict_target i) +++ w " ") +++ w "DO UPDATE ")
             >>> p_set (ir_set b))
    | a => Ret (when (negb (conflict_empty a)) (w " " +++ write_conflict (i_conflict_target i) a))
    end.

  (* stmt/insert.go:24-69 *)
  Definition p_insert (b : ins_ref) : prog tr :=
    let i := ir_rest b in
    if no_str (t_name (i_into i))
    then Ret (Panic (PMsg "loukoum: an insert statement must have at least one column"))
    else
      Ret (w "INSERT INTO " +++ write_table (i_into i)
           +++ when (nonempty (i_columns i)) (w " (" +++ write_columns (i_columns i) +++ w ")")
           +++ unless (cond_empty (i_values i)) (w " " +++ write_values (i_values i)))
      >>> p_conflict b
      >>> Ret (when (nonempty (i_returning i)) (w " " +++ write_returning (i_returning i))
               +++ write_comment (i_comment i)).

  (* A builder. The slices of Delete, like the other slices of the three statements above, are
     never written after they are made: they are part of the value. *)
  Inductive builder := BSelect (b : sel_ref) | BInsert (b : ins_ref) | BUpdate (b : upd_ref) | BDelete (d : delete).

  Definition p_write (b : builder) : prog tr :=
    match b with
    | BSelect b => p_select b
    | BInsert b => p_insert b
    | BUpdate b => p_update b
    | BDelete d => Ret (write_delete d)
    end.

  (* The statement of a builder in a memory. *)
  Definition m_stmt (m : memory) (b : builder) : stmt :=
    match b with
    | BSelect b => StSelect (m_select m b)
    | BInsert b => StInsert (m_insert m b)
    | BUpdate b => StUpdate (m_update m b)
    | BDelete d => StDelete d
    end.

  (* The three renderings. *)
  Inductive method := MQuery | MNamedQuery | MString.
  Inductive answer :=
  | AQuery (r : res (string * list gval)) | ANamed (r : res (string * list (string * gval))) | AString (r : res string).

  (* The goroutine go func() { b.Query() }(). The contexts (types/context.go) belong to the call. *)
  Definition render (b : builder) (f : method) : prog answer :=
    pbind (p_write b) (fun t => Ret match f with
      | MQuery => AQuery (do t <- t; Ok (run_std t))
      | MNamedQuery => ANamed (do t <- t; Ok (run_named t))
      | MString => AString (do t <- t; run_raw t)
      end).

  (* What the call answers for a statement. *)
  Definition answers (s : stmt) (f : method) : answer :=
    match f with
    | MQuery => AQuery (query s)
    | MNamedQuery => ANamed (named_query s)
    | MString => AString (to_string s)
    end.

  (* The array that a rendering sorts in place. *)
  Definition set_of (b : builder) : option pairs_ref :=
    match b with
    | BUpdate b => Some (ur_set b)
    | BInsert b => match i_conflict_action (ir_rest b) with Some (ActUpdate _) => Some (ir_set b) | _ => None end
    | _ => None
    end.
  Definition sorts (b : builder) : option slice :=
    match set_of b with
    | Some p => match pr_mode p with PAssoc => Some (pr_cols p) | _ => None end
    | None => None
    end.
End Render.

(* The memories of the programs of Forks.v. *)
Definition sel_mem (h : sel_heap) : memory := fun l =>
  match l_region l with
  | RJoins => CJoin (nth (l_index l) (nth (l_array l) (sh_joins h) []) zero_join)
  | ROrders => COrder (nth (l_index l) (nth (l_array l) (sh_orders h) []) zero_order)
  | RWiths => CWith (nth (l_index l) (nth (l_array l) (sh_withs h) []) zero_withq)
  | _ => CMap []
  end.
Definition upd_mem (h : upd_heap) : memory := fun l =>
  match l_region l with
  | RMaps => CMap (nth (l_array l) (uh_maps h) [])
  | RCols => CCol (nth (l_index l) (nth (l_array l) (uh_cols h) []) zero_column)
  | RExprs => CExpr (nth (l_index l) (nth (l_array l) (uh_exprs h) []) ENil)
  | RWiths => CWith (nth (l_index l) (nth (l_array l) (uh_withs h) []) zero_withq)
  | _ => CMap []
  end.

(* ------------------------------------------------------------------------- *)
(* Deriving a builder and rendering it                                         *)
(* ------------------------------------------------------------------------- *)

Definition with_sr_joins (b : sel_ref) (s : slice) : sel_ref :=
  {| sr_rest := sr_rest b; sr_joins := s; sr_orders := sr_orders b; sr_withs := sr_withs b |}.

(* The copy that append makes when it allocates. *)
Fixpoint p_copy {R} (s : slice) (array i todo : nat) (k : prog R) : prog R :=
  match todo with
  | 0 => k
  | S n => Rd (at_ RJoins s i) (fun c => Wr {| l_region := RJoins; l_array := array; l_index := i |} c (p_copy s array (S i) n k))
  end.

(* go func() { b.Join(j).Query() }(): builder/select.go:110 appends in place when there is room,
   and in a new array, with this number and capacity, otherwise. *)
Definition derive {O : Oracle} (array cap : nat) (b : sel_ref) (j : join) (f : method) : prog answer :=
  let s := sr_joins b in
  if (sl_len s <? sl_cap s)%nat then
    Wr (at_ RJoins s (sl_len s)) (CJoin j)
       (render (BSelect (with_sr_joins b {| sl_ptr := sl_ptr s; sl_len := S (sl_len s); sl_cap := sl_cap s |})) f)
  else
    p_copy s array 0 (sl_len s)
      (Wr {| l_region := RJoins; l_array := array; l_index := sl_len s |} (CJoin j)
         (render (BSelect (with_sr_joins b {| sl_ptr := array; sl_len := S (sl_len s); sl_cap := cap |})) f)).

(* A goroutine renders a builder, or derives another and renders that. *)
Inductive job := Render (b : builder) (f : method) | Derive (array cap : nat) (b : sel_ref) (j : join) (f : method).
Definition run_job {O : Oracle} (t : job) : prog answer :=
  match t with
  | Render b f => render b f
  | Derive array cap b j f => derive array cap b j f
  end.
(* What it answers if builders are values. *)
Definition job_answer {O : Oracle} (m : memory) (t : job) : answer :=
  match t with
  | Render b f => answers (m_stmt m b) f
  | Derive _ _ b j f => let q := m_select m b in answers (StSelect (with_joins q (s_joins q ++ [j]))) f
  end.
