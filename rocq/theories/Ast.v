(* The values and statements of the library.

   A Go `interface{}` argument is a [gval]; an stmt.Expression is an [expr]. Each
   refers to the other, so the component types take the expression type as parameter
   and [expr] ties the knot. *)
From Verif Require Export GoStr.

(* ------------------------------------------------------------------------- *)
(* Results                                                                    *)
(* ------------------------------------------------------------------------- *)

(* A Go panic. *)
Inductive panic :=
| PMsg (m : string)            (* panic("...") with this message *)
| PCannotUse (role : string)   (* panic(fmt.Sprintf("... cannot use %T as role")), type name omitted *)
| PError (m : string)          (* panic(fmt.Sprintf("loukoum: %s", err)), message of err omitted *)
| PNilDeref                    (* runtime: nil pointer dereference / method call on nil interface *)
| PIndex.                      (* runtime: index out of range *)

(* The outcome of a Go call that may panic. *)
Inductive res (A : Type) :=
| Ok (a : A)
| Panic (p : panic).
Arguments Ok {A} a.
Arguments Panic {A} p.

Definition bind {A B} (r : res A) (f : A -> res B) : res B :=
  match r with Ok a => f a | Panic p => Panic p end.

Notation "'do' x <- e ; f" := (bind e (fun x => f))
  (at level 200, x pattern, e at level 100, f at level 200, right associativity).

(* Go's short-circuit || on operands that may panic. *)
Definition or_res (a b : res bool) : res bool :=
  match a with Ok true => Ok true | Ok false => b | Panic p => Panic p end.

Definition is_ok {A} (r : res A) : bool := match r with Ok _ => true | Panic _ => false end.

Fixpoint map_res {A B} (f : A -> res B) (l : list A) : res (list B) :=
  match l with
  | [] => Ok []
  | x :: xs => do y <- f x; do ys <- map_res f xs; Ok (y :: ys)
  end.

(* ------------------------------------------------------------------------- *)
(* Leaves                                                                     *)
(* ------------------------------------------------------------------------- *)

(* stmt/column.go:9-12 Column *)
Record column := { c_name : string; c_alias : string }.

(* stmt/table.go:9-13 Table *)
Record table := { t_name : string; t_alias : string; t_only : bool }.

(* stmt/order.go:8-11 Order *)
Record order := { o_expr : string; o_type : string }.

(* Go integer and float kinds. *)
Inductive ikind :=
| KInt | KInt8 | KInt16 | KInt32 | KInt64 | KUint | KUint8 | KUint16 | KUint32 | KUint64.
Inductive fkind := F32 | F64.

(* Range of a Go integer kind (64-bit platform). *)
Definition ikind_lo (k : ikind) : Z :=
  match k with
  | KInt8 => -128 | KInt16 => -32768 | KInt32 => -2147483648
  | KInt | KInt64 => -9223372036854775808
  | _ => 0
  end.
Definition ikind_hi (k : ikind) : Z :=
  match k with
  | KInt8 => 127 | KInt16 => 32767 | KInt32 => 2147483647
  | KInt | KInt64 => 9223372036854775807
  | KUint8 => 255 | KUint16 => 65535 | KUint32 => 4294967295
  | KUint | KUint64 => 18446744073709551615
  end.
Definition int_ok (k : ikind) (z : Z) : bool := ((ikind_lo k <=? z) && (z <=? ikind_hi k))%Z.

(* A time.Time: seconds since the Unix epoch and nanoseconds. The location is left out:
   format.Time prints in UTC. *)
Record gtime := { tm_sec : Z; tm_nsec : Z }.

(* An element of stmt.From.Tables: builder.ToFrom stores tables, raw expressions, and
   leaves a nil where the argument was a stmt.From (builder/builder.go:211-212). *)
Inductive fromitem := FNil | FTable (t : table) | FRaw (s : string).

(* stmt/set.go:38-47 PairMode *)
Inductive pmode := PUnknown | PAssoc | PArray.

(* ------------------------------------------------------------------------- *)
(* Components, over the type E of expressions                                  *)
(* ------------------------------------------------------------------------- *)

Section Components.
  Context (E : Type).

  (* stmt/join.go:9-13 Join *)
  Record join_ := { j_type : string; j_table : table; j_cond : E }.

  (* stmt/with.go:41-44 WithQuery *)
  Record withq_ := { wq_name : string; wq_sub : E }.

  (* stmt/select.go:9-12 SelectExpression: the implementations in package stmt. *)
  Inductive selexpr_ :=
  | SNil                                                     (* nil interface *)
  | SColumn (c : column)                                     (* stmt/column.go *)
  | SRaw (s : string)                                        (* stmt/expression.go:509 Raw *)
  | SAgg (f : string) (arg : string) (distinct : bool) (alias : string)
                                         (* stmt/aggregate.go Count/Max/Min/Sum; f is the keyword *)
  | SExists (sub : E)                                        (* stmt/subquery.go:9 *)
  | SNotExists (sub : E).                                    (* stmt/subquery.go:41 *)

  (* stmt/select.go:15-31 Select. Clause types with one field are replaced by the field;
     an empty Where/Having has the nil expression. *)
  Record select_ := {
    s_prefix : string;
    s_with : list withq_;
    s_distinct : bool;
    s_distinct_on : list column;
    s_exprs : list selexpr_;
    s_from : list fromitem;
    s_joins : list join_;
    s_where : E;
    s_group_by : list column;
    s_having : E;
    s_order_by : list order;
    s_limit : Z;
    s_offset : Z;
    s_suffix : string;
    s_comment : string
  }.

  (* stmt/set.go:50-55 PairContainer. The map is an association list, newest first, with
     at most one entry per column. *)
  Record pairs_ := {
    p_mode : pmode;
    p_map : list (column * E);
    p_cols : list column;
    p_exprs : list E
  }.

  (* A value passed as interface{}, by dynamic type. *)
  Inductive gval_ :=
  | GNil
  | GStr (s : string)
  | GBool (b : bool)
  | GInt (k : ikind) (z : Z)
  | GFloat (k : fkind) (id : Z)
  | GBytes (s : string)                      (* []byte *)
  | GTime (t : gtime)                        (* time.Time *)
  | GTimePtr (t : option gtime)              (* *time.Time *)
  | GValuer (v : gval_)                      (* driver.Valuer whose Value() returns v *)
  | GNilValuer                               (* nil pointer of a type implementing driver.Valuer *)
  | GValuerErr                               (* driver.Valuer whose Value() returns an error *)
  | GBindable (ty repr : string)             (* pgtype.RangeValuer, pgtype.FlatArray *)
  | GStrs (l : list string)                  (* []string *)
  | GInts (k : ikind) (l : list Z)           (* []int, []int8, ...; not []uint8, which is []byte *)
  | GBools (l : list bool)
  | GFloats (k : fkind) (l : list Z)
  | GBytess (l : list string)                (* [][]byte *)
  | GExprs (l : list E)                      (* []stmt.Expression *)
  | GAnys (l : list gval_)                   (* []interface{} *)
  | GStrss (l : list (list string))          (* [][]string *)
  | GIntss (k : ikind) (l : list (list Z))   (* [][]int, [][]int64 *)
  | GBoolss (l : list (list bool))           (* [][]bool *)
  | GExprss (l : list (list E))              (* [][]stmt.Expression *)
  | GAnyss (l : list (list gval_))           (* [][]interface{} *)
  | GMapStr (l : list (string * string))     (* map[string]string *)
  | GMapAny (l : list (string * gval_))      (* map[string]interface{}, in iteration order *)
  | GMap (l : list (gval_ * gval_))          (* types.Map, in iteration order *)
  | GPair (k v : gval_)                      (* types.Pair *)
  (* Values of other types, classified by the first interface that NewExpression tests and
     they implement (stmt/encoder.go). None: the encoded statement is not an Expression. *)
  | GStmtEnc (e : option E)
  | GInt64Enc (z : Z)
  | GBoolEnc (b : bool)
  | GTimeEnc (t : gtime)
  | GStringEnc (s : string)
  | GExpr (e : E)                            (* any implementation of stmt.Expression *)
  | GColumn (c : column)
  | GColumns (l : list column)               (* []stmt.Column *)
  | GTable (t : table)
  | GSel (s : selexpr_)                      (* stmt.Count, Max, Min, Sum *)
  | GSels (l : list selexpr_)                (* []stmt.SelectExpression *)
  | GFrom (l : list fromitem)
  | GInto (t : table)
  | GSuffix (s : string)
  | GPrefix (s : string)
  | GJoin (j : join_)
  | GJoinType (s : string)
  | GLimit (z : Z)
  | GOffset (z : Z)
  | GConflictNo
  | GConflictUpdate (p : pairs_)
  | GOther (ty : string).                    (* anything else *)
End Components.

Arguments j_type {E} _. Arguments j_table {E} _. Arguments j_cond {E} _.
Arguments wq_name {E} _. Arguments wq_sub {E} _.
Arguments SNil {E}. Arguments SColumn {E} c. Arguments SRaw {E} s.
Arguments SAgg {E} f arg distinct alias. Arguments SExists {E} sub. Arguments SNotExists {E} sub.
Arguments s_prefix {E} _. Arguments s_with {E} _. Arguments s_distinct {E} _.
Arguments s_distinct_on {E} _. Arguments s_exprs {E} _. Arguments s_from {E} _.
Arguments s_joins {E} _. Arguments s_where {E} _. Arguments s_group_by {E} _.
Arguments s_having {E} _. Arguments s_order_by {E} _. Arguments s_limit {E} _.
Arguments s_offset {E} _. Arguments s_suffix {E} _. Arguments s_comment {E} _.
Arguments p_mode {E} _. Arguments p_map {E} _. Arguments p_cols {E} _. Arguments p_exprs {E} _.
Arguments GNil {E}. Arguments GStr {E} s. Arguments GBool {E} b. Arguments GInt {E} k z.
Arguments GFloat {E} k id. Arguments GBytes {E} s. Arguments GTime {E} t.
Arguments GTimePtr {E} t. Arguments GValuer {E} v. Arguments GNilValuer {E}.
Arguments GValuerErr {E}. Arguments GBindable {E} ty repr. Arguments GStrs {E} l.
Arguments GInts {E} k l. Arguments GBools {E} l. Arguments GFloats {E} k l.
Arguments GBytess {E} l. Arguments GExprs {E} l. Arguments GAnys {E} l.
Arguments GStrss {E} l. Arguments GIntss {E} k l. Arguments GBoolss {E} l.
Arguments GExprss {E} l. Arguments GAnyss {E} l. Arguments GMapStr {E} l.
Arguments GMapAny {E} l. Arguments GMap {E} l. Arguments GPair {E} k v.
Arguments GStmtEnc {E} e. Arguments GInt64Enc {E} z. Arguments GBoolEnc {E} b.
Arguments GTimeEnc {E} t. Arguments GStringEnc {E} s. Arguments GExpr {E} e.
Arguments GColumn {E} c. Arguments GColumns {E} l. Arguments GTable {E} t.
Arguments GSel {E} s. Arguments GSels {E} l. Arguments GFrom {E} l. Arguments GInto {E} t.
Arguments GSuffix {E} s. Arguments GPrefix {E} s. Arguments GJoin {E} j.
Arguments GJoinType {E} s. Arguments GLimit {E} z. Arguments GOffset {E} z.
Arguments GConflictNo {E}. Arguments GConflictUpdate {E} p. Arguments GOther {E} ty.

(* ------------------------------------------------------------------------- *)
(* Expressions: the implementations of stmt.Expression in package stmt          *)
(* ------------------------------------------------------------------------- *)

Inductive expr :=
| ENil                                                  (* the nil interface *)
| EIdent (id : gval_ expr)                              (* stmt/expression.go:61 Identifier *)
| EValue (v : gval_ expr)                               (* stmt/expression.go:227 Value *)
| EArrayList (l : list expr)                            (* stmt/expression.go:292 ArrayList *)
| EArray (l : list expr)                                (* stmt/expression.go:383 Array *)
| ERaw (s : string)                                     (* stmt/expression.go:509 Raw *)
| EWrap (e : expr)                                      (* stmt/expression.go:544 Wrapper *)
| ECall (f : string) (args : list expr)                 (* stmt/expression.go:590 Call *)
| EInfix (l : expr) (op : option string) (r : expr)     (* stmt/infix.go:9; None: nil operator *)
| EIn (e : expr) (op : string) (v : expr)               (* stmt/in.go:8 *)
| EBetween (id : gval_ expr) (op : string) (from : expr) (and : string) (to : expr)
                                                        (* stmt/between.go:8 *)
| EExists (e : expr)                                    (* stmt/subquery.go:9 *)
| ENotExists (e : expr)                                 (* stmt/subquery.go:41 *)
| ESelect (s : select_ expr)                            (* stmt/select.go:15 *)
| EOn (l r : column)                                    (* stmt/on.go:17 OnClause *)
| EInfixOn (l : expr) (op : string) (r : expr).         (* stmt/on.go:64 InfixOnExpression *)

Notation gval := (gval_ expr).
Notation join := (join_ expr).
Notation withq := (withq_ expr).
Notation selexpr := (selexpr_ expr).
Notation select := (select_ expr).
Notation pairs := (pairs_ expr).

(* x == nil for an Expression interface *)
Definition is_nil (e : expr) : bool := match e with ENil => true | _ => false end.

(* stmt/conflict.go:81-115: the two implementations of ConflictAction; None is nil. *)
Inductive conflict_action := ActNothing | ActUpdate (p : pairs).

(* stmt/insert.go:9-16 Insert; Into and Returning replaced by their field, Values by its
   expression (nil when not set). *)
Record insert := {
  i_into : table;
  i_columns : list column;
  i_values : expr;
  i_conflict_target : list column;
  i_conflict_action : option conflict_action;
  i_returning : list selexpr;
  i_comment : string
}.

(* stmt/update.go:9-18 Update *)
Record update := {
  u_with : list withq;
  u_table : table;
  u_only : bool;
  u_from : list fromitem;
  u_set : pairs;
  u_where : expr;
  u_returning : list selexpr;
  u_comment : string
}.

(* stmt/delete.go:9-15 Delete *)
Record delete := {
  d_from : list fromitem;
  d_using : list table;
  d_where : expr;
  d_returning : list selexpr;
  d_comment : string
}.

(* The statement held by a builder. *)
Inductive stmt :=
| StSelect (s : select)
| StInsert (i : insert)
| StUpdate (u : update)
| StDelete (d : delete).

(* ------------------------------------------------------------------------- *)
(* Oracles: answers of the Go library that the model does not compute          *)
(* ------------------------------------------------------------------------- *)

Class Oracle := {
  (* strconv.IsPrint on runes >= U+0080 *)
  o_print : N -> bool;
  (* strconv.FormatFloat(f, 'f', -1, 64) of the float named by an identifier *)
  o_float : Z -> string;
  (* fmt.Sprint of a value of a type not listed in format.Value *)
  o_sprint : gval -> string;
  (* sort.Slice on the columns of a SET clause with the comparison of stmt/set.go:131-134 *)
  o_sort : list column -> list column
}.
