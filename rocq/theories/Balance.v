(* Specification: balanced parentheses outside quotes. *)
From Verif Require Export Sql.

Inductive mode := Out | InName | InText.

Section Scan.
(* Whether the character - may stand outside quotes. *)
Context (dash_ok : bool).

(* Read a template, outside quotes counting the parentheses still open. None: a parenthesis
   is closed that was not opened, or a bound value stands inside quotes, or there is a - outside
   quotes and dash_ok is false. *)
Fixpoint scan (q : sql) (m : mode) (open : nat) : option (mode * nat) :=
  match q with
  | [] => Some (m, open)
  | Val _ :: q' => match m with Out => scan q' Out open | _ => None end
  | Ch a :: q' =>
    match m with
    | Out =>
      if Ascii.eqb a "(" then scan q' Out (S open)
      else if Ascii.eqb a ")" then match open with O => None | S n => scan q' Out n end
      else if Ascii.eqb a """" then scan q' InName open
      else if Ascii.eqb a "'" then scan q' InText open
      else if Ascii.eqb a "-" then if dash_ok then scan q' Out open else None
      else scan q' Out open
    | InName => scan q' (if Ascii.eqb a """" then Out else InName) open
    | InText => scan q' (if Ascii.eqb a "'" then Out else InText) open
    end
  end.

(* Every parenthesis is closed, and none that was not opened; every quote is closed. *)
Definition balanced (q : sql) : Prop := scan q Out 0 = Some (Out, 0).

(* ------------------------------------------------------------------------- *)
(* The texts that a caller supplies                                            *)
(* ------------------------------------------------------------------------- *)

(* Names are quoted by the library; other texts are written as they are. *)
Inductive word := Name (s : string) | Verbatim (s : string) | Number (z : Z) | Remark (s : string).

(* A name without double quote (C09 says what happens with one), a balanced text; without
   dashes, a number that is not negative and no comment. *)
Definition good_word (x : word) : Prop :=
  match x with
  | Name s => ~ In """"%char (list_ascii_of_string s)
  | Verbatim s => balanced (lit s)
  | Number z => dash_ok = true \/ (0 <= z)%Z
  | Remark s => if dash_ok then balanced (lit s) else s = ""
  end.
End Scan.

Definition column_words (c : column) : list word := [Name (c_name c); Name (c_alias c)].
Definition table_words (t : table) : list word := [Name (t_name t); Name (t_alias t)].
Definition from_words (f : fromitem) : list word :=
  match f with FNil => [] | FTable t => table_words t | FRaw s => [Verbatim s] end.
Definition order_words (o : order) : list word := [Verbatim (o_expr o); Verbatim (o_type o)].
Definition ident_words (g : gval) : list word :=
  match g with GStr s => [Name s] | GExpr (ERaw s) => [Verbatim s] | _ => [] end.

Section Words.
  Context (wE : expr -> list word).
  Definition selexpr_words (x : selexpr) : list word :=
    match x with
    | SNil => []
    | SColumn c => column_words c
    | SRaw s => [Verbatim s]
    | SAgg f v _ a => [Verbatim f; Verbatim v; Verbatim a]
    | SExists e | SNotExists e => wE e
    end.
  Definition with_words (q : withq) : list word := Verbatim (wq_name q) :: wE (wq_sub q).
  Definition join_words (j : join) : list word :=
    (Verbatim (j_type j) :: table_words (j_table j) ++ wE (j_cond j))%list.
  Definition select_words (s : select) : list word :=
    (Verbatim (s_prefix s) :: flat_map with_words (s_with s) ++ flat_map column_words (s_distinct_on s)
     ++ flat_map selexpr_words (s_exprs s) ++ flat_map from_words (s_from s)
     ++ flat_map join_words (s_joins s) ++ wE (s_where s) ++ flat_map column_words (s_group_by s)
     ++ wE (s_having s) ++ flat_map order_words (s_order_by s)
     ++ [Number (s_limit s); Number (s_offset s); Verbatim (s_suffix s); Remark (s_comment s)])%list.
End Words.

Fixpoint words (e : expr) : list word :=
  match e with
  | ENil | EValue _ => []
  | EIdent g => ident_words g
  | EArrayList l | EArray l => flat_map words l
  | ERaw s => [Verbatim s]
  | EWrap x | EExists x | ENotExists x => words x
  | ECall f l => Verbatim f :: flat_map words l
  | EInfix l o r => (words l ++ Verbatim (match o with Some s => s | None => "" end) :: words r)%list
  | EInfixOn l o r => (words l ++ Verbatim o :: words r)%list
  | EIn x o v => (words x ++ Verbatim o :: words v)%list
  | EBetween g o a n b => (ident_words g ++ [Verbatim o; Verbatim n] ++ words a ++ words b)%list
  | ESelect s => select_words words s
  | EOn l r => (column_words l ++ column_words r)%list
  end.

Definition pairs_words (p : pairs) : list word :=
  (flat_map (fun ce => column_words (fst ce) ++ words (snd ce))%list (p_map p)
   ++ flat_map column_words (p_cols p) ++ flat_map words (p_exprs p))%list.

Definition stmt_words (s : stmt) : list word :=
  match s with
  | StSelect q => select_words words q
  | StInsert i =>
    (table_words (i_into i) ++ flat_map column_words (i_columns i) ++ words (i_values i)
     ++ flat_map column_words (i_conflict_target i)
     ++ match i_conflict_action i with Some (ActUpdate p) => pairs_words p | _ => [] end
     ++ flat_map (selexpr_words words) (i_returning i) ++ [Remark (i_comment i)])%list
  | StUpdate u =>
    (flat_map (with_words words) (u_with u) ++ table_words (u_table u) ++ flat_map from_words (u_from u)
     ++ pairs_words (u_set u) ++ words (u_where u) ++ flat_map (selexpr_words words) (u_returning u)
     ++ [Remark (u_comment u)])%list
  | StDelete d =>
    (flat_map from_words (d_from d) ++ flat_map table_words (d_using d) ++ words (d_where d)
     ++ flat_map (selexpr_words words) (d_returning d) ++ [Remark (d_comment d)])%list
  end.
