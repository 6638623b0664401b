(* Programs that pass a []byte, a map or a pointer and write to it afterwards. NewExpression keeps
   what it is given (stmt/expression.go:19-54 NewExpression, 232-236 NewValue), Query() and
   NamedQuery() hand it to the driver (types/context.go:46-54, 68-72 Bind), so a builder holds a
   reference to what the caller owns and not its content. *)
From Coq Require Import String List ZArith.
From Verif Require Import Ast Write Api Build Sql.
Import ListNotations.

(* What a reference leads to: the bytes of a []byte, the entries of a map[string]string, the fields
   of a map[string]interface{}, what the Value method of a driver.Valuer behind a pointer returns,
   or that it fails. ([]string and []int64 are left out: In, NotIn and Values read their elements at
   the call. So does Set with a map given as its argument and not as a value in it.) *)
Inductive thing :=
| Bytes (s : string)
| Entries (l : list (string * string))
| Fields (l : list (string * gval))
| Gives (v : gval)
| Fails.
Definition as_value (t : thing) : gval :=
  match t with
  | Bytes s => GBytes s
  | Entries l => GMapStr l
  | Fields l => GMapAny l
  | Gives v => GValuer v
  | Fails => GValuerErr
  end.

(* What the caller's things are, by address. *)
Definition memory := string -> thing.
Definition written (M : memory) (a : string) (t : thing) : memory := fun b => if String.eqb b a then t else M b.

(* The caller's reference as an argument. The model has no constructor for an address; it is written
   as a value of a type that the library only passes on. A [][]byte of references is written as
   a []interface{} of them, which is treated alike (stmt/expression.go:461-464, 469-472). *)
Definition reference (a : string) : gval := GBindable "reference" a.

Section Now.
  Context (M : memory).

  (* What the driver finds when it reads a value that it was given. *)
  Definition content (g : gval) : gval :=
    match g with GBindable ty a => if String.eqb ty "reference" then as_value (M a) else g | _ => g end.

  (* The same arguments, with plain values in place of the references: what the caller would write
     to pass what they lead to now. *)
  Definition now_expr : expr -> expr := subst content.
  Definition now_operand (g : gval) : gval :=
    match g with
    | GExpr e => GExpr (now_expr e)
    | GStmtEnc (Some e) => GStmtEnc (Some (now_expr e))
    | _ => content g
    end.
  Definition now_slice (g : gval) : gval :=
    match g with
    | GExprs l => GExprs (map now_expr l)
    | GAnys l => GAnys (map now_operand l)
    | _ => now_operand g
    end.
  Definition now_rows (g : gval) : gval :=
    match g with
    | GAnyss rows => GAnyss (map (map now_slice) rows)
    | GExprss rows => GExprss (map (map now_expr) rows)
    | _ => now_slice g
    end.
  Definition now_item (g : gval) : gval :=
    match g with
    | GExpr e => GExpr (now_expr e)
    | GSel s => GSel (subst_sel now_expr s)
    | GSels l => GSels (map (subst_sel now_expr) l)
    | _ => g
    end.
  Definition now_with : withq -> withq := subst_with now_expr.
  Definition now_join (g : gval) : gval :=
    match g with
    | GExpr e => GExpr (now_expr e)
    | GJoin j => GJoin (subst_join now_expr j)
    | _ => g
    end.
  Definition now_pair (g : gval) : gval :=
    match g with
    | GMapAny l => GMapAny (map (fun kv => (fst kv, now_operand (snd kv))) l)
    | GMap l => GMap (map (fun kv => (fst kv, now_operand (snd kv))) l)
    | GPair k v => GPair k (now_operand v)
    | _ => g
    end.
  Definition now_action (g : gval) : gval :=
    match g with GConflictUpdate p => GConflictUpdate (subst_pairs content p) | _ => g end.

  Definition now_sel (c : sel_call) : sel_call :=
    match c with
    | SelColumns args => SelColumns (map now_item args)
    | SelJoin args => SelJoin (map now_join args)
    | SelWith args => SelWith (map now_with args)
    | SelWhere e => SelWhere (now_expr e)
    | SelAnd e => SelAnd (now_expr e)
    | SelOr e => SelOr (now_expr e)
    | SelHaving e => SelHaving (now_expr e)
    | _ => c
    end.
  Definition now_ins (c : ins_call) : ins_call :=
    match c with
    | InsValues args => InsValues (map now_rows args)
    | InsSet args => InsSet (map now_pair args)
    | InsOnConflict args => InsOnConflict (map now_action args)
    | InsReturning args => InsReturning (map now_item args)
    | _ => c
    end.
  Definition now_upd (c : upd_call) : upd_call :=
    match c with
    | UpdSet args => UpdSet (map now_pair args)
    | UpdUsing args => UpdUsing (map now_operand args)
    | UpdWith args => UpdWith (map now_with args)
    | UpdWhere e => UpdWhere (now_expr e)
    | UpdAnd e => UpdAnd (now_expr e)
    | UpdOr e => UpdOr (now_expr e)
    | UpdReturning args => UpdReturning (map now_item args)
    | _ => c
    end.
  Definition now_del (c : del_call) : del_call :=
    match c with
    | DelWhere e => DelWhere (now_expr e)
    | DelAnd e => DelAnd (now_expr e)
    | DelOr e => DelOr (now_expr e)
    | DelReturning args => DelReturning (map now_item args)
    | _ => c
    end.
End Now.

(* What a caller does: call a method, write to something that it owns, send the statement as Query(),
   NamedQuery() or String() give it. *)
Inductive form := ByQuery | ByNamedQuery | ByString.
Inductive event {C : Type} :=
| Call (c : C)
| Fill (a : string) (t : thing)
| Send (f : form).
Arguments event : clear implicits.

(* What is sent. *)
Inductive message :=
| Positional (r : res (string * list gval))
| Named (r : res (string * list (string * gval)))
| Plain (r : res string).
Definition rendered {O : Oracle} (f : form) (s : res stmt) : message :=
  match f with
  | ByQuery => Positional (do s <- s; query s)
  | ByNamedQuery => Named (do s <- s; named_query s)
  | ByString => Plain (do s <- s; to_string s)
  end.
(* The same when the statement holds references: the driver follows them after Query() and NamedQuery()
   have returned, String() follows them itself (types/context.go:30-32). *)
Definition rendered_now {O : Oracle} (M : memory) (f : form) (s : res stmt) : message :=
  match f with
  | ByQuery => Positional (map_args (content M) (do s <- s; query s))
  | ByNamedQuery => Named (map_named (content M) (do s <- s; named_query s))
  | ByString => Plain (do s <- s; to_string (subst_stmt (content M) s))
  end.

Section Programs.
  Context {O : Oracle} {B C : Type} (step : B -> C -> res B) (statement : B -> stmt) (now : memory -> C -> C).

  (* What the driver is given at each Send: the builder keeps the references, and the driver follows
     them then. *)
  Fixpoint sent (b : res B) (M : memory) (es : list (event C)) : list message :=
    match es with
    | [] => []
    | Call c :: es => sent (do b <- b; step b c) M es
    | Fill a t :: es => sent b (written M a t) es
    | Send f :: es => rendered_now M f (do b <- b; Ok (statement b)) :: sent b M es
    end.

  (* The other way to say it: at each Send the whole statement is built anew, with plain values as
     the references lead to them at that moment. *)
  Fixpoint rebuilt (start : memory -> res B) (calls : list C) (M : memory) (es : list (event C)) : list message :=
    match es with
    | [] => []
    | Call c :: es => rebuilt start (calls ++ [c])%list M es
    | Fill a t :: es => rebuilt start calls (written M a t) es
    | Send f :: es => rendered f (do b <- start M; do b <- fold_res step (map (now M) calls) b; Ok (statement b)) :: rebuilt start calls M es
    end.
End Programs.
