(* Specification: statements whose names all stand for columns of their own tables.

   closed n cols known q: in a database whose tables have the columns cols, every name in the query q
   stands for a column of a table in scope inside q, or is known; subqueries are nested at most n
   deep. Function calls are given as text, so they count as unknown. *)
From Verif Require Export Meaning.

Definition knows (sc : list (tableref * list string)) (n : name) : bool :=
  match n with
  | [c] => existsb (fun x => has_col (snd x) c) sc
  | _ => existsb (fun x => called_so (removelast n) (fst x)) sc
  end.

Section Closed.
  Context {Q : Type} (csub : (name -> list string) -> (name -> bool) -> Q -> bool) (columns : Q -> list string).

  Definition term_closed (cols : name -> list string) (known : name -> bool) (a : term_ Q) : bool :=
    match a with
    | MNull | MVal _ => true
    | MName n => known n
    | MSub q => csub cols known q
    | MCall _ _ => false
    end.
  Fixpoint formula_closed (cols : name -> list string) (known : name -> bool) (f : formula_ Q) : bool :=
    match f with
    | FCmp a _ b => term_closed cols known a && term_closed cols known b
    | FIn _ a vs => term_closed cols known a && forallb (term_closed cols known) vs
    | FInSub _ a q => term_closed cols known a && csub cols known q
    | FBetween _ a x y => term_closed cols known a && term_closed cols known x && term_closed cols known y
    | FExists _ q => csub cols known q
    | FAnd x y | FOr x y => formula_closed cols known x && formula_closed cols known y
    end.
  Definition option_closed (cols : name -> list string) (known : name -> bool) (w : option (formula_ Q)) : bool :=
    match w with None => true | Some f => formula_closed cols known f end.
  Definition item_closed (cols : name -> list string) (known : name -> bool) (i : item_ Q) : bool :=
    match i with
    | ItName n _ => known n
    | ItAgg f _ x _ => (String.eqb f "COUNT" && String.eqb x "*") || known [x]
    | ItExists _ q => csub cols known q
    end.

  (* The columns of the tables after WITH. *)
  Fixpoint with_cols (l : list (string * Q)) (cols : name -> list string) : name -> list string :=
    match l with
    | [] => cols
    | (x, q) :: rest => with_cols rest (fun t => if name_eqb [x] t then columns q else cols t)
    end.
  Fixpoint with_closed (l : list (string * Q)) (cols : name -> list string) (known : name -> bool) : bool :=
    match l with
    | [] => true
    | (x, q) :: rest => csub cols known q && with_closed rest (fun t => if name_eqb [x] t then columns q else cols t) known
    end.

  (* Names of columns of the tables ts, or known outside. *)
  Definition known_in (cols : name -> list string) (known : name -> bool) (ts : list tableref) (n : name) : bool :=
    known n || knows (map (fun t => (t, cols (tb_name t))) ts) n.
  Fixpoint joins_closed (cols : name -> list string) (known : name -> bool) (ts : list tableref)
    (js : list (list string * tableref * formula_ Q)) : bool :=
    match js with
    | [] => true
    | (_, t, f) :: rest => formula_closed cols (known_in cols known (ts ++ [t])%list) f && joins_closed cols known (ts ++ [t])%list rest
    end.
  Fixpoint from_closed (cols : name -> list string) (known : name -> bool) (js : list (list string * tableref * formula_ Q))
    (ts : list tableref) : bool :=
    match ts with
    | [] => true
    | [t] => joins_closed cols known [t] js
    | _ :: rest => from_closed cols known js rest
    end.

  (* ORDER BY and DISTINCT ON mean the items first. *)
  Definition or_item (l : list (item_ Q)) (known : name -> bool) (n : name) : bool :=
    match n with [c] => has_col (map item_column l) c || known n | _ => known n end.

  Definition body_closed (cols0 : name -> list string) (known : name -> bool) (b : body_ Q) : bool :=
    let cols := with_cols (q_with b) cols0 in
    let inside := known_in cols known (q_from b ++ match q_from b with [] => [] | _ => map (fun j => snd (fst j)) (q_joins b) end) in
    with_closed (q_with b) cols0 known
    && from_closed cols known (q_joins b) (q_from b)
    && option_closed cols inside (q_where b)
    && forallb inside (q_group_by b)
    && option_closed cols inside (q_having b)
    && forallb (item_closed cols inside) (q_items b)
    && forallb (fun c => or_item (q_items b) inside [fst c]) (q_order_by b)
    && forallb (or_item (q_items b) inside) (q_distinct_on b).
End Closed.

Fixpoint closed (n : nat) (cols : name -> list string) (known : name -> bool) (q : squery) : bool :=
  match n, q with
  | O, _ => false
  | S n', Query b =>
    match q_prefix b, q_suffix b with
    | [], [] => body_closed (closed n') query_columns cols known b
    | _, _ => false
    end
  end.

(* Nothing is known outside. *)
Definition stands_alone {g} (db : tabledb g) (b : body) : Prop :=
  exists n, closed n (fun t => fst (db t)) (fun _ => false) (Query b) = true.
