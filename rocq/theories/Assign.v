(* Specification: the assignments made by a sequence of arguments of Set, and what is left of
   them when each column keeps its last value. *)
From Verif Require Export Build Sort.

(* The pairs that an argument holds: a types.Pair, or the entries of a map in the order in
   which Go happens to visit them. *)
Definition pairs_of (g : gval) : option (list (gval * gval)) :=
  match g with
  | GPair k v => Some [(k, v)]
  | GMap l => Some l
  | GMapAny l => Some (map (fun kv => (GStr (fst kv), snd kv)) l)
  | _ => None
  end.

(* The column and the expression of one pair. *)
Definition assigns (kv : gval * gval) : res (column * expr) :=
  do c <- to_column (fst kv); do e <- new_expression (snd kv); Ok (c, new_wrapper e).

(* The assignments made by a list of arguments, in order. *)
Fixpoint all_pairs (args : list gval) : option (list (gval * gval)) :=
  match args with
  | [] => Some []
  | g :: rest => match pairs_of g, all_pairs rest with
                 | Some l, Some m => Some (l ++ m)%list
                 | _, _ => None
                 end
  end.
Definition history (args : list gval) (h : list (column * expr)) : Prop :=
  exists kvs, all_pairs args = Some kvs /\ map_res assigns kvs = Ok h.

(* The value of a column after these assignments. *)
Fixpoint last_write (h : list (column * expr)) (c : column) : option expr :=
  match h with
  | [] => None
  | (c', e) :: h' => match last_write h' c with
                     | Some x => Some x
                     | None => if col_eqb c c' then Some e else None
                     end
  end.

(* cols has every assigned column once, and no other. *)
Definition columns_of (h : list (column * expr)) (cols : list column) : Prop :=
  NoDup cols /\ forall c, In c cols <-> In c (map fst h).

(* The values of these columns. *)
Definition final_values (h : list (column * expr)) (cols : list column) (es : list expr) : Prop :=
  Forall2 (fun c e => last_write h c = Some e) cols es.

(* All arguments given to Set on an Update. *)
Definition set_args (cs : list upd_call) : list gval :=
  flat_map (fun c => match c with UpdSet l => l | _ => [] end) cs.

(* The column-list syntax: SET (a, b) = (...). The columns given to Set, the expressions given
   to Using. An empty map adds nothing. *)
Definition is_column_arg (g : gval) : bool := match g with GStr _ | GColumn _ => true | _ => false end.
Fixpoint listed_columns (args : list gval) : option (list column) :=
  match args with
  | [] => Some []
  | g :: rest =>
    match listed_columns rest with
    | None => None
    | Some m => if is_column_arg g then match to_columns [g] with Ok l => Some (l ++ m)%list | Panic _ => None end
                else match pairs_of g with Some [] => Some m | _ => None end
    end
  end.
Definition using_args (cs : list upd_call) : list gval :=
  flat_map (fun c => match c with UpdUsing l => l | _ => [] end) cs.

(* The same argument, with the entries of a map visited in another order. *)
Definition reiterated (g g' : gval) : Prop :=
  match g, g' with
  | GMap l, GMap l' => Permutation l l'
  | GMapAny l, GMapAny l' => Permutation l l'
  | _, _ => g = g'
  end.
Definition reiterated_calls : list upd_call -> list upd_call -> Prop :=
  Forall2 (fun c c' => match c, c' with
                       | UpdSet l, UpdSet l' => Forall2 reiterated l l'
                       | _, _ => c = c'
                       end).

(* No two keys of a map stand for the same column. Keys "a" and " a" do. *)
Definition distinct_keys (g : gval) : Prop :=
  match pairs_of g with
  | Some l => NoDup (map (fun kv => to_column (fst kv)) l)
  | None => True
  end.
(* No key is a column with an alias. *)
Definition plain_keys (g : gval) : Prop :=
  match pairs_of g with
  | Some l => forall kv c, In kv l -> to_column (fst kv) = Ok c -> c_alias c = ""%string
  | None => True
  end.
