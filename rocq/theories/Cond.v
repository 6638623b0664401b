(* Specification: reading a SQL condition.

   A small SQL tokenizer and a recursive-descent parser for conditions made of comparisons,
   IN, BETWEEN, AND and OR. Independent of the model: it reads text only. *)
From Verif Require Export PgLex Numerals.

(* ------------------------------------------------------------------------- *)
(* Tokens                                                                      *)
(* ------------------------------------------------------------------------- *)

Inductive tok :=
| TName (parts : list string)     (* "a"."b" *)
| TParam (n : N)                  (* $7 *)
| TWord (s : string)              (* AND, NULL, ... *)
| TOp (s : string)                (* =, <=, && ... *)
| TOpen | TClose | TComma.

Definition in_range (lo hi : N) (a : ascii) : bool :=
  ((lo <=? N_of_ascii a) && (N_of_ascii a <=? hi))%N.
Definition is_blank (a : ascii) : bool := in_range 9 13 a || Ascii.eqb a " ".
Definition is_num (a : ascii) : bool := in_range 48 57 a.
Definition is_alpha (a : ascii) : bool := in_range 65 90 a || in_range 97 122 a || Ascii.eqb a "_".
Definition is_alnum (a : ascii) : bool := is_alpha a || is_num a.
(* The characters of PostgreSQL operators. *)
Definition is_opchar (a : ascii) : bool :=
  existsb (Ascii.eqb a) (list_ascii_of_string "+-*/<>=~!@#%^&|`?").

(* The longest prefix whose characters satisfy f, and the rest. *)
Fixpoint span (f : ascii -> bool) (s : string) : string * string :=
  match s with
  | String a s' => if f a then let (x, y) := span f s' in (String a x, y) else ("", s)
  | EmptyString => ("", "")
  end.

(* The token at the start of a text that does not start with a blank. *)
Definition token_at (s : string) : option (tok * string) :=
  match s with
  | EmptyString => None
  | String a s' =>
    if Ascii.eqb a "(" then Some (TOpen, s')
    else if Ascii.eqb a ")" then Some (TClose, s')
    else if Ascii.eqb a "," then Some (TComma, s')
    else if Ascii.eqb a dquote then
      match pg_name s with Some (n, rest) => Some (TName n, rest) | None => None end
    else if Ascii.eqb a "$" then
      let (d, rest) := span is_num s' in
      match dec_nat d with Some n => Some (TParam n, rest) | None => None end
    else if is_alpha a then let (x, rest) := span is_alnum s in Some (TWord x, rest)
    else if is_opchar a then let (x, rest) := span is_opchar s in Some (TOp x, rest)
    else None
  end.

(* The next token, after blanks. *)
Fixpoint next (s : string) : option (tok * string) :=
  match s with
  | String a s' => if is_blank a then next s' else token_at s
  | EmptyString => None
  end.

(* ------------------------------------------------------------------------- *)
(* Trees                                                                       *)
(* ------------------------------------------------------------------------- *)

(* A condition with operands of type A. The comparison operator is kept as text. *)
Inductive tree (A : Type) :=
| LCmp (name : list string) (op : string) (v : A)
| LIn (negated : bool) (name : list string) (vs : list A)
| LBetween (negated : bool) (name : list string) (a b : A)
| LAnd (l r : tree A)
| LOr (l r : tree A).
Arguments LCmp {A}. Arguments LIn {A}. Arguments LBetween {A}. Arguments LAnd {A}. Arguments LOr {A}.

Fixpoint tree_map {A B} (f : A -> B) (t : tree A) : tree B :=
  match t with
  | LCmp n o v => LCmp n o (f v)
  | LIn g n vs => LIn g n (map f vs)
  | LBetween g n a b => LBetween g n (f a) (f b)
  | LAnd l r => LAnd (tree_map f l) (tree_map f r)
  | LOr l r => LOr (tree_map f l) (tree_map f r)
  end.

Inductive operand := PNull | PArg (n : N).

(* ------------------------------------------------------------------------- *)
(* Parser                                                                      *)
(* ------------------------------------------------------------------------- *)

Definition p_operand (s : string) : option (operand * string) :=
  match next s with
  | Some (TParam n, r) => Some (PArg n, r)
  | Some (TWord x, r) => if String.eqb x "NULL" then Some (PNull, r) else None
  | _ => None
  end.

(* operand, operand, ... *)
Fixpoint p_operands (n : nat) (s : string) : option (list operand * string) :=
  match n with
  | O => None
  | S n' =>
    match p_operand s with
    | Some (v, r) =>
      match next r with
      | Some (TComma, r1) =>
        match p_operands n' r1 with Some (vs, r2) => Some (v :: vs, r2) | None => None end
      | _ => Some ([v], r)
      end
    | None => None
    end
  end.

(* A word that must come next. *)
Definition expect (x : string) (s : string) : option string :=
  match next s with
  | Some (TWord y, r) => if String.eqb x y then Some r else None
  | _ => None
  end.

Definition cmp_rest (name : list string) (op : string) (s : string) : option (tree operand * string) :=
  match p_operand s with Some (v, r) => Some (LCmp name op v, r) | None => None end.

Definition in_rest (negated : bool) (name : list string) (s : string) : option (tree operand * string) :=
  match next s with
  | Some (TOpen, r) =>
    match p_operands (String.length r) r with
    | Some (vs, r1) =>
      match next r1 with Some (TClose, r2) => Some (LIn negated name vs, r2) | _ => None end
    | None => None
    end
  | _ => None
  end.

Definition between_rest (negated : bool) (name : list string) (s : string)
  : option (tree operand * string) :=
  match p_operand s with
  | Some (a, r) =>
    match expect "AND" r with
    | Some r1 =>
      match p_operand r1 with Some (b, r2) => Some (LBetween negated name a b, r2) | None => None end
    | None => None
    end
  | None => None
  end.

(* What follows IS: [NOT] [DISTINCT FROM] operand. *)
Definition is_rest (name : list string) (s : string) : option (tree operand * string) :=
  let distinct (prefix : string) (s : string) :=
    match expect "DISTINCT" s with
    | Some r => match expect "FROM" r with
                | Some r1 => cmp_rest name (prefix ++ " DISTINCT FROM") r1
                | None => None end
    | None => cmp_rest name prefix s
    end in
  match expect "NOT" s with
  | Some r => distinct "IS NOT" r
  | None => distinct "IS" s
  end.

(* What follows NOT: LIKE, ILIKE, IN or BETWEEN. *)
Definition word_rest (negated : bool) (name : list string) (x : string) (s : string)
  : option (tree operand * string) :=
  let p := if negated then "NOT " else "" in
  if String.eqb x "LIKE" then cmp_rest name (p ++ "LIKE") s
  else if String.eqb x "ILIKE" then cmp_rest name (p ++ "ILIKE") s
  else if String.eqb x "IN" then in_rest negated name s
  else if String.eqb x "BETWEEN" then between_rest negated name s
  else None.

(* name OP operand, name [NOT] IN (...), name [NOT] BETWEEN a AND b, ... *)
Definition p_atom (s : string) : option (tree operand * string) :=
  match next s with
  | Some (TName name, r) =>
    match next r with
    | Some (TOp o, r1) => cmp_rest name o r1
    | Some (TWord x, r1) =>
      if String.eqb x "IS" then is_rest name r1
      else if String.eqb x "NOT" then
        match next r1 with
        | Some (TWord y, r2) => word_rest true name y r2
        | _ => None
        end
      else word_rest false name x r1
    | _ => None
    end
  | _ => None
  end.

Section Parser.
  (* Which of AND and OR binds tighter: in SQL, AND. The parser is parametric so that one can
     say that a text does not depend on it. *)
  Context (and_tighter : bool).

  Inductive level := Loose | Tight | Prim.

  Definition connective (k : level) : string :=
    match k with
    | Tight => if and_tighter then "AND" else "OR"
    | _ => if and_tighter then "OR" else "AND"
    end.
  Definition below (k : level) : level := match k with Loose => Tight | _ => Prim end.
  Definition node (k : level) (l r : tree operand) : tree operand :=
    if String.eqb (connective k) "AND" then LAnd l r else LOr l r.

  (* cond_Loose ::= cond_Tight (OR cond_Tight)*
     cond_Tight ::= prim (AND prim)*
     prim       ::= ( cond_Loose ) | atom
     both lists grouped to the left. The first argument bounds the recursion depth. *)
  Fixpoint p_cond (n : nat) (k : level) (s : string) : option (tree operand * string) :=
    match n with
    | O => None
    | S n' =>
      match k with
      | Prim =>
        match next s with
        | Some (TOpen, r) =>
          match p_cond n' Loose r with
          | Some (t, r1) => match next r1 with Some (TClose, r2) => Some (t, r2) | _ => None end
          | None => None
          end
        | _ => p_atom s
        end
      | _ =>
        match p_cond n' (below k) s with
        | Some (t, r) => p_more n' k t r
        | None => None
        end
      end
    end
  with p_more (n : nat) (k : level) (acc : tree operand) (s : string) : option (tree operand * string) :=
    match n with
    | O => None
    | S n' =>
      match expect (connective k) s with
      | Some r =>
        match p_cond n' (below k) r with
        | Some (t, r1) => p_more n' k (node k acc t) r1
        | None => None
        end
      | None => Some (acc, s)
      end
    end.

  Definition read_cond (s : string) : option (tree operand * string) :=
    p_cond (4 + 4 * String.length s) Loose s.
End Parser.

(* Text after which a condition cannot go on: it does not start (after blanks) with AND or OR. *)
Definition ends_cond (s : string) : bool :=
  match next s with
  | Some (TWord x, _) => negb (String.eqb x "AND" || String.eqb x "OR")
  | _ => true
  end.

(* ------------------------------------------------------------------------- *)
(* SQL three-valued logic                                                      *)
(* ------------------------------------------------------------------------- *)

Inductive tri := T | F | U.
Definition tri_and (a b : tri) : tri :=
  match a, b with F, _ | _, F => F | T, T => T | _, _ => U end.
Definition tri_or (a b : tri) : tri :=
  match a, b with T, _ | _, T => T | F, F => F | _, _ => U end.

(* The value of a condition, given the values of its atoms. *)
Fixpoint truth {A} (m : tree A -> tri) (t : tree A) : tri :=
  match t with
  | LAnd l r => tri_and (truth m l) (truth m r)
  | LOr l r => tri_or (truth m l) (truth m r)
  | _ => m t
  end.

(* WHERE keeps the rows for which the condition is true. *)
Definition selects {A} (m : tree A -> tri) (t : tree A) : Prop := truth m t = T.
